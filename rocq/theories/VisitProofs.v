(** Walking over the image block by block stores every sample exactly once. *)

From Coq Require Import List ZArith Bool Arith Lia.
From Verif Require Import Base Types Planes ImageM F32 Vector Simd SpecVector SimdProofs SpecGeom GeomProofs
  Color SpecColor SpecConvert SpecRun Formats ReadProofs WriteProofs Visit.
Import ListNotations.

(** * Counting stores to a byte *)

Lemma apply_wev_covers : forall m e b i, apply_wev m e b i = if covers b i e then nth (i - w_off e) (w_bytes e) 0%Z else m b i.
Proof. reflexivity. Qed.

Lemma covers_iff : forall b i e, covers b i e = true <-> b = w_buf e /\ w_off e <= i < w_off e + length (w_bytes e).
Proof. intros. unfold covers. rewrite !andb_true_iff, Nat.eqb_eq, Nat.leb_le, Nat.ltb_lt. tauto. Qed.

Lemma times_app : forall a c b i, times (a ++ c) b i = times a b i + times c b i.
Proof. intros. unfold times. rewrite filter_app, app_length. reflexivity. Qed.

Lemma apply_untouched : forall evs m b i, times evs b i = 0 -> apply_all m evs b i = m b i.
Proof.
  induction evs as [|e evs IH]; intros m b i H; [reflexivity|].
  unfold times in H. cbn [filter] in H. cbn [apply_all fold_left].
  destruct (covers b i e) eqn:C; [discriminate H|].
  change (apply_all (apply_wev m e) evs b i = m b i). rewrite IH by exact H. rewrite apply_wev_covers, C. reflexivity.
Qed.

Lemma apply_once : forall evs m b i e, times evs b i = 1 -> In e evs -> covers b i e = true ->
  apply_all m evs b i = nth (i - w_off e) (w_bytes e) 0%Z.
Proof.
  induction evs as [|a evs IH]; intros m b i e T I C; [destruct I|].
  cbn [apply_all fold_left]. change (apply_all (apply_wev m a) evs b i = nth (i - w_off e) (w_bytes e) 0%Z).
  unfold times in T. cbn [filter] in T. destruct (covers b i a) eqn:CA.
  - cbn [length] in T. assert (T0 : times evs b i = 0) by (unfold times; lia).
    rewrite apply_untouched by exact T0. rewrite apply_wev_covers, CA.
    destruct I as [->|I]; [reflexivity|]. exfalso.
    assert (In e (filter (covers b i) evs)) by (apply filter_In; auto).
    unfold times in T0. destruct (filter (covers b i) evs); [destruct H|discriminate T0].
  - apply IH; auto. destruct I as [->|I]; [congruence|exact I].
Qed.

(** * Blocks *)

Section Blocks.
  Variables (lm : libm) (b : backend).

  (** The blocks visited: implementation, quantiser and position *)
  Definition vlen : nat := vi_len (impl_of lm b).
  Definition blocks (w h : nat) : list (vimpl * quant * nat * nat) :=
    flat_map (fun Y =>
      map (fun k => (impl_of lm b, quant_of b, k * vlen, Y)) (seq 0 (vector_columns vlen w / (2 * vlen))) ++
      map (fun k => (scalar_impl lm, scalar_quant, vector_columns vlen w / 2 + k, Y)) (seq 0 (w mod (2 * vlen) / 2)))
    (seq 0 (h / 2)).

  (** The block that holds the [px]-th 2x2 unit of a row *)
  Definition block_at (w px : nat) : vimpl * quant * nat :=
    if 2 * px <? vector_columns vlen w then (impl_of lm b, quant_of b, px / vlen * vlen)
    else (scalar_impl lm, scalar_quant, px).

  Lemma vlen_pos : 0 < vlen.
  Proof. apply (vs_len _ _ (backend_spec lm b)). Qed.

  Lemma step_by_div : forall n s, 0 < s -> n mod s = 0 -> step_by n s = map (fun k => k * s) (seq 0 (n / s)).
  Proof.
    intros n s H M. unfold step_by. do 2 f_equal.
    pose proof (Nat.div_mod n s ltac:(lia)) as E.
    symmetry. apply (Nat.div_unique _ _ _ (s - 1)); lia.
  Qed.

  Lemma vector_columns_spec : forall w, exists nv ns, w mod 2 = 0 ->
    vector_columns vlen w = nv * (2 * vlen) /\ w mod (2 * vlen) = 2 * ns /\ w = nv * (2 * vlen) + 2 * ns /\
    vector_columns vlen w / (2 * vlen) = nv /\ vector_columns vlen w / 2 = nv * vlen /\ ns < vlen.
  Proof.
    intros w. pose proof vlen_pos as HL. unfold vector_columns. rewrite (Nat.mul_comm vlen 2).
    set (a := 2 * vlen). exists (w / a), (w mod a / 2). intros E.
    pose proof (Nat.div_mod w a ltac:(unfold a; lia)) as DM.
    pose proof (Nat.mod_upper_bound w a ltac:(unfold a; lia)) as MU.
    assert (w - w mod a = w / a * a) as -> by lia.
    assert (R : w mod a = 2 * (w mod a / 2)).
    { pose proof (Nat.div_mod (w mod a) 2 ltac:(lia)) as D2.
      assert ((w mod a) mod 2 = 0); [|lia].
      replace (w mod a) with (w - w / a * a) by lia. 
      assert (w = 2 * (w / 2)) by (pose proof (Nat.div_mod w 2 ltac:(lia)); lia).
      replace (w - w / a * a) with ((w / 2 - w / a * vlen) * 2) by (unfold a in *; nia).
      apply Nat.mod_mul. lia. }
    repeat split; try lia.
    - apply Nat.div_mul. unfold a; lia.
    - unfold a. replace (w / (2 * vlen) * (2 * vlen)) with (w / (2 * vlen) * vlen * 2) by lia. apply Nat.div_mul. lia.
  Qed.

  Lemma positions_blocks : forall w h, w mod 2 = 0 -> h mod 2 = 0 ->
    visit_positions (impl_of lm b) (scalar_impl lm) w h
      = map (fun '(vi, q, X, Y) => (vi, 2 * X, 2 * Y)) (blocks w h).
  Proof.
    intros w h Ew Eh. unfold visit_positions, blocks.
    destruct (vector_columns_spec w) as (nv & ns & H). specialize (H Ew).
    destruct H as (V & R & W & NV & NH & _). unfold vector_columns in *. fold vlen.
    rewrite (Nat.mul_comm vlen 2) in *. pose proof vlen_pos.
    rewrite (step_by_div h 2) by (auto; lia).
    rewrite V. rewrite (step_by_div (nv * (2 * vlen))) by (try lia; apply Nat.mod_mul; lia).
    rewrite (step_by_div (w mod (2 * vlen)) 2) by (try lia; rewrite R, Nat.mul_comm; apply Nat.mod_mul; lia).
    rewrite R. rewrite V in NH, NV. rewrite NH, NV. rewrite (Nat.mul_comm 2 ns), Nat.div_mul by lia.
    induction (seq 0 (h / 2)) as [|Y ys IH]; [reflexivity|].
    cbn [map flat_map]. rewrite IH, map_app. f_equal. rewrite map_app, !map_map. f_equal; apply map_ext; intros; (f_equal; [f_equal|]; lia).
  Qed.

  Lemma blocks_in_image : forall w h vi q X Y, w mod 2 = 0 -> h mod 2 = 0 -> In (vi, q, X, Y) (blocks w h) ->
    vector_spec vi q /\ in_image vi w h X Y.
  Proof.
    intros w h vi q X Y Ew Eh I. unfold blocks in I. apply in_flat_map in I as (Y' & HY & I).
    apply in_seq in HY. pose proof (Nat.div_mod h 2 ltac:(lia)) as DH. rewrite Eh in DH.
    destruct (vector_columns_spec w) as (nv & ns & H). specialize (H Ew).
    destruct H as (V & R & W & NV & NH & _). pose proof vlen_pos.
    rewrite NV, NH, R, (Nat.mul_comm 2 ns), Nat.div_mul in I by lia.
    apply in_app_or in I as [I|I]; apply in_map_iff in I as (k & E & Hk); apply in_seq in Hk; injection E as <- <- <- <-.
    - split; [apply backend_spec|]. unfold in_image. fold vlen. nia.
    - split; [apply scalar_spec|]. unfold in_image. cbn [scalar_impl vi_len]. lia.
  Qed.

  (** Unit ([px], [py]) belongs to the block *)
  Definition in_block (px py : nat) (blk : vimpl * quant * nat * nat) : bool :=
    let '(vi, q, X, Y) := blk in (X <=? px) && (px <? X + vi_len vi) && (py =? Y).

  Definition count {A} (P : A -> bool) (l : list A) : nat := length (filter P l).
  Lemma count_app : forall A (P : A -> bool) l l', count P (l ++ l') = count P l + count P l'.
  Proof. intros. unfold count. rewrite filter_app, app_length. reflexivity. Qed.
  Lemma count_none : forall A (P : A -> bool) l, (forall a, In a l -> P a = false) -> count P l = 0.
  Proof.
    intros A P l. unfold count. induction l as [|a l IH]; intros H; [reflexivity|]. cbn [filter].
    rewrite (H a) by (left; reflexivity). apply IH. intros; apply H; right; assumption.
  Qed.
  Lemma count_map_seq : forall A (P : A -> bool) (f : nat -> A) n k0, k0 < n ->
    (forall k, k < n -> P (f k) = (k =? k0)) -> count P (map f (seq 0 n)) = 1.
  Proof.
    intros A P f n k0 Hk H.
    replace n with (k0 + (1 + (n - k0 - 1))) by lia. rewrite !seq_app, !map_app, !count_app. cbn [seq map plus].
    rewrite count_none, (count_none _ _ (map f (seq (k0 + 1) _))).
    - unfold count. cbn [filter]. rewrite H by lia. rewrite Nat.eqb_refl. reflexivity.
    - intros a I. apply in_map_iff in I as (k & <- & I). apply in_seq in I. rewrite H by lia. apply Nat.eqb_neq. lia.
    - intros a I. apply in_map_iff in I as (k & <- & I). apply in_seq in I. rewrite H by lia. apply Nat.eqb_neq. lia.
  Qed.
  Lemma count_flat_map_seq : forall A (P : A -> bool) (f : nat -> list A) n k0, k0 < n ->
    (forall k, k < n -> count P (f k) = if k =? k0 then 1 else 0) -> count P (flat_map f (seq 0 n)) = 1.
  Proof.
    intros A P f n k0 Hk H.
    assert (G : forall s m, s + m <= n -> count P (flat_map f (seq s m)) = if (s <=? k0) && (k0 <? s + m) then 1 else 0).
    { intros s m. revert s. induction m as [|m IH]; intros s Hm; cbn [seq flat_map].
      - destruct (Nat.leb_spec s k0), (Nat.ltb_spec k0 (s + 0)); try reflexivity; lia.
      - rewrite count_app, H, IH by lia.
        destruct (Nat.eqb_spec s k0), (Nat.leb_spec s k0), (Nat.leb_spec (S s) k0), (Nat.ltb_spec k0 (S s + m)), (Nat.ltb_spec k0 (s + S m));
          cbn; lia. }
    rewrite G by lia. destruct (Nat.leb_spec 0 k0), (Nat.ltb_spec k0 (0 + n)); try reflexivity; lia.
  Qed.

  (** Every unit is in exactly one block, the one at [block_at]. *)
  Lemma blocks_once : forall w h px py, w mod 2 = 0 -> h mod 2 = 0 -> px < w / 2 -> py < h / 2 ->
    count (in_block px py) (blocks w h) = 1 /\
    let '(vi, q, X) := block_at w px in
    In (vi, q, X, py) (blocks w h) /\ in_block px py (vi, q, X, py) = true.
  Proof.
    intros w h px py Ew Eh Hx Hy.
    destruct (vector_columns_spec w) as (nv & ns & H). specialize (H Ew).
    destruct H as (V & R & W & NV & NH & NS). pose proof vlen_pos as HL.
    assert (HW : w / 2 = nv * vlen + ns).
    { rewrite W. replace (nv * (2 * vlen) + 2 * ns) with ((nv * vlen + ns) * 2) by lia. apply Nat.div_mul. lia. }
    assert (DM : px = vlen * (px / vlen) + px mod vlen) by (apply Nat.div_mod; lia).
    pose proof (Nat.mod_upper_bound px vlen ltac:(lia)) as MU.
    split.
    - unfold blocks. apply (count_flat_map_seq _ _ _ _ py Hy). intros Y HY.
      rewrite NV, NH, R, (Nat.mul_comm 2 ns), Nat.div_mul by lia.
      rewrite count_app. destruct (Nat.eqb_spec Y py) as [->|N].
      + destruct (Nat.lt_ge_cases px (nv * vlen)) as [C|C].
        * rewrite (count_map_seq _ _ _ nv (px / vlen)).
          -- rewrite count_none; [reflexivity|]. intros a I. apply in_map_iff in I as (k & <- & I). cbn [in_block].
             destruct (Nat.leb_spec (nv * vlen + k) px); [lia|reflexivity].
          -- apply Nat.div_lt_upper_bound; lia.
          -- intros k Hk. cbn [in_block]. fold vlen. rewrite Nat.eqb_refl, andb_true_r.
             destruct (Nat.eqb_spec k (px / vlen)) as [->|NE].
             ++ destruct (Nat.leb_spec (px / vlen * vlen) px), (Nat.ltb_spec px (px / vlen * vlen + vlen)); try reflexivity; lia.
             ++ apply andb_false_iff. destruct (Nat.lt_ge_cases k (px / vlen)).
                ** right. apply Nat.ltb_ge. nia.
                ** left. apply Nat.leb_gt. nia.
        * rewrite count_none.
          -- rewrite (count_map_seq _ _ _ ns (px - nv * vlen)); [reflexivity|lia|].
             intros k Hk. cbn [in_block scalar_impl vi_len]. rewrite Nat.eqb_refl, andb_true_r.
             destruct (Nat.eqb_spec k (px - nv * vlen)), (Nat.leb_spec (nv * vlen + k) px), (Nat.ltb_spec px (nv * vlen + k + 1));
               try reflexivity; lia.
          -- intros a I. apply in_map_iff in I as (k & <- & I). apply in_seq in I. cbn [in_block]. fold vlen.
             destruct (Nat.ltb_spec px (k * vlen + vlen)); [nia|]. rewrite andb_false_r. reflexivity.
      + rewrite !count_none; [reflexivity|..]; intros a I; apply in_map_iff in I as (k & <- & I); cbn [in_block];
          (destruct (Nat.eqb_spec py Y); [congruence|apply andb_false_r]).
    - unfold block_at. destruct (Nat.ltb_spec (2 * px) (vector_columns vlen w)) as [C|C].
      + rewrite V in C. split.
        * unfold blocks. apply in_flat_map. exists py. split; [apply in_seq; lia|]. apply in_or_app. left.
          apply in_map_iff. exists (px / vlen). split; [reflexivity|]. apply in_seq. rewrite NV.
          split; [lia|]. cbn [plus]. apply Nat.div_lt_upper_bound; lia.
        * cbn [in_block]. fold vlen. rewrite Nat.eqb_refl, andb_true_r.
          destruct (Nat.leb_spec (px / vlen * vlen) px), (Nat.ltb_spec px (px / vlen * vlen + vlen)); try reflexivity; lia.
      + rewrite V in C. split.
        * unfold blocks. apply in_flat_map. exists py. split; [apply in_seq; lia|]. apply in_or_app. right.
          apply in_map_iff. exists (px - nv * vlen). rewrite NH, R, (Nat.mul_comm 2 ns), Nat.div_mul by lia. split.
          -- do 2 f_equal. lia.
          -- apply in_seq. lia.
        * cbn [in_block scalar_impl vi_len]. rewrite Nat.eqb_refl, andb_true_r.
          destruct (Nat.leb_spec px px), (Nat.ltb_spec px (px + 1)); try reflexivity; lia.
  Qed.
End Blocks.

(** * Rows *)

Definition ucols (f : pixel_format) (p : nat) : nat := plane_cols f p 2.
Definition urows (f : pixel_format) (p : nat) : nat := plane_rows f p 2.

Definition in_brow (p r c : nat) (row : brow) : bool :=
  let '(p', r', c', n) := row in (p =? p') && (r =? r') && (c' <=? c) && (c <? c' + n).

Lemma ucols_pos : forall f p, 0 < ucols f p.
Proof. intros f p. unfold ucols. destruct f; cbn; try destruct (p =? 0); cbn; try lia; compute; lia. Qed.
Lemma urows_pos : forall f p, 0 < urows f p.
Proof. intros f p. unfold urows. destruct f; cbn; try destruct (p =? 0); cbn; try lia; compute; lia. Qed.

Lemma in_brow_if : forall p r c row P, (in_brow p r c row = true <-> P) -> in_brow p r c row = true \/ ~ P.
Proof. intros. destruct (in_brow p r c row); [left; reflexivity|right]. intros HP. apply H in HP. discriminate. Qed.

Lemma in_brow_eq : forall p r c p' r' c' n,
  in_brow p r c (p', r', c', n) = true <-> p = p' /\ r = r' /\ c' <= c < c' + n.
Proof. intros. cbn [in_brow]. rewrite !andb_true_iff, !Nat.eqb_eq, Nat.leb_le, Nat.ltb_lt. tauto. Qed.

Definition b2n (b : bool) : nat := if b then 1 else 0.
Lemma count_cons : forall A (P : A -> bool) a l, count P (a :: l) = b2n (P a) + count P l.
Proof. intros. unfold count. cbn [filter]. destruct (P a); reflexivity. Qed.

Lemma block_rows_count_aux : forall f L X Y p px pj py pk, 0 < L -> p < n_planes f ->
  pj < ucols f p -> pk < urows f p ->
  count (in_brow p (urows f p * py + pk) (ucols f p * px + pj)) (block_rows f L X Y)
    = b2n ((X <=? px) && (px <? X + L) && (py =? Y)).
Proof.
  intros f L X Y p px pj py pk HL Hp Hj Hk.
  assert (CASES : f = NV12 \/ f = YUYV \/ p < 3) by (destruct f; cbn in Hp; auto; lia).
  assert (P3 : p = 0 \/ p = 1 \/ p = 2) by (destruct f; cbn in Hp; lia). clear CASES.
  destruct f; cbn in Hp; (destruct P3 as [-> | [-> | ->]]; try lia);
  unfold ucols, urows in *;
  match type of Hj with _ < ?u => let v := eval compute in u in change u with v in * end;
  match type of Hk with _ < ?u => let v := eval compute in u in change u with v in * end;
  cbn [block_rows]; rewrite !count_cons; cbn [count filter length]; unfold in_brow, count; cbn [filter length Nat.eqb andb b2n plus]; rewrite ?Nat.add_0_r, ?andb_false_r;
  repeat match goal with |- context [?a =? ?b] => destruct (Nat.eqb_spec a b); try lia end;
  repeat match goal with |- context [?a <=? ?b] => destruct (Nat.leb_spec a b); try lia end;
  repeat match goal with |- context [?a <? ?b] => destruct (Nat.ltb_spec a b); try lia end;
  cbn; lia.
Qed.

Lemma block_rows_count : forall f L X Y p r c, 0 < L -> p < n_planes f ->
  count (in_brow p r c) (block_rows f L X Y)
    = b2n ((X <=? c / ucols f p) && (c / ucols f p <? X + L) && (r / urows f p =? Y)).
Proof.
  intros f L X Y p r c HL Hp.
  pose proof (ucols_pos f p) as HC. pose proof (urows_pos f p) as HR.
  rewrite <- (block_rows_count_aux f L X Y p _ (c mod ucols f p) _ (r mod urows f p)) by
    (auto; apply Nat.mod_upper_bound; lia).
  rewrite <- !Nat.div_mod by lia. reflexivity.
Qed.

Lemma block_rows_range : forall f L X Y w h p r c n, In (p, r, c, n) (block_rows f L X Y) ->
  2 * X + 2 * L <= w -> 2 * Y + 2 <= h -> p < n_planes f /\ r < plane_rows f p h /\ c + n <= plane_cols f p w.
Proof.
  intros f L X Y w h p r c n I HX HY.
  pose proof (half_cols _ _ _ HX). pose proof (half_rows _ _ HY).
  destruct f; cbn [block_rows In] in I; repeat (destruct I as [I|I]; [injection I as <- <- <- <-|]);
    try (destruct I; fail); cbn [n_planes plane_rows plane_cols Nat.eqb]; lia.
Qed.

Lemma sample_unit : forall f p r c w h, w mod 2 = 0 -> h mod 2 = 0 -> p < n_planes f ->
  r < plane_rows f p h -> c < plane_cols f p w -> c / ucols f p < w / 2 /\ r / urows f p < h / 2.
Proof.
  intros f p r c w h Ew Eh Hp Hr Hc.
  pose proof (Nat.div_mod w 2 ltac:(lia)) as DW. pose proof (Nat.div_mod h 2 ltac:(lia)) as DH.
  split.
  - apply Nat.div_lt_upper_bound; [pose proof (ucols_pos f p); lia|].
    unfold ucols. destruct f; cbn [plane_cols] in *; try (destruct (p =? 0)); try lia;
      change (2 / 2) with 1; lia.
  - apply Nat.div_lt_upper_bound; [pose proof (urows_pos f p); lia|].
    unfold urows. destruct f; cbn [plane_rows] in *; try (destruct (p =? 0)); try lia;
      change (2 / 2) with 1; lia.
Qed.

(** * Bytes *)

(** All planes are large enough and exclusive. *)
Definition dst_planes (f : pixel_format) (ps : list plane) (w h : nat) : Prop :=
  (forall p, p < n_planes f -> exists pl, nth_error ps p = Some pl /\
     pgeom (sample_bytes f) (plane_cols f p w) (plane_rows f p h) pl) /\
  planes_disjoint ps.

Lemma sample_in : forall f ps w h p pl r c j, dst_planes f ps w h -> p < n_planes f -> nth_error ps p = Some pl ->
  r < plane_rows f p h -> c < plane_cols f p w -> j < sample_bytes f ->
  c * sample_bytes f + j < snd pl /\
  s_off (fst pl) <= s_off (fst pl) + (r * snd pl + c * sample_bytes f) + j < s_off (fst pl) + s_len (fst pl).
Proof.
  intros f ps w h p pl r c j [D _] Hp N Hr Hc Hj. destruct (D p Hp) as (pl' & N' & A & B & _).
  rewrite N in N'. injection N' as <-.
  pose proof (row_bound _ _ _ _ B Hr).
  assert (c * sample_bytes f + j < snd pl) by nia. lia.
Qed.

Lemma row_ev_covers : forall f ps w h val p' r' c' n' e, dst_planes f ps w h ->
  row_ev (sample_bytes f) ps val (p', r', c', n') e ->
  p' < n_planes f -> r' < plane_rows f p' h -> c' + n' <= plane_cols f p' w ->
  forall p pl r c j, p < n_planes f -> nth_error ps p = Some pl ->
  r < plane_rows f p h -> c < plane_cols f p w -> j < sample_bytes f ->
  covers (s_buf (fst pl)) (s_off (fst pl) + (r * snd pl + c * sample_bytes f) + j) e = in_brow p r c (p', r', c', n').
Proof.
  intros f ps w h val p' r' c' n' e D (pl' & N' & EB & EO & EL & BA & _) Hp' Hr' Hc' p pl r c j Hp N Hr Hc Hj.
  destruct (sample_in f ps w h p pl r c j D Hp N Hr Hc Hj) as [S1 S2].
  apply eq_true_iff_eq. rewrite covers_iff, in_brow_eq.
  destruct (Nat.eq_dec p p') as [->|NE].
  - rewrite N in N'. injection N' as <-. rewrite EB, EO, BA. rewrite EO in EL.
    destruct D as [D _]. destruct (D p' Hp) as (pl' & N' & A & B & _). rewrite N in N'. injection N' as <-.
    assert ((c' + n') * sample_bytes f <= snd pl) by nia.
    split.
    + intros (_ & Q1 & Q2).
      assert (r = r').
      { destruct (Nat.lt_trichotomy r r') as [L|[E|L]]; [|exact E|].
        - exfalso. assert (r * snd pl + snd pl <= r' * snd pl) by nia. lia.
        - exfalso. assert (r' * snd pl + snd pl <= r * snd pl) by nia. nia. }
      subst r'. split; [reflexivity|split; [reflexivity|]]. nia.
    + intros (_ & -> & Q). split; [reflexivity|]. split; nia.
  - split; [|tauto]. intros (Q0 & Q1 & Q2). exfalso.
    destruct D as [_ DJ]. eapply (DJ p p' pl pl' NE N N' (s_off (fst pl) + (r * snd pl + c * sample_bytes f) + j)).
    rewrite Q0, EB. rewrite EO in *. split; [reflexivity|]. split; [exact S2|]. lia.
Qed.

Lemma row_ev_sample : forall f ps w h val p r c n e b i, 0 < sample_bytes f ->
  row_ev (sample_bytes f) ps val (p, r, c, n) e ->
  p < n_planes f -> r < plane_rows f p h -> c + n <= plane_cols f p w ->
  covers b i e = true -> sample_byte f ps w h b i.
Proof.
  intros f ps w h val p r c n e b i HS (pl & N & EB & EO & EL & BA & _) Hp Hr Hc C.
  apply covers_iff in C. rewrite EB, EO, BA in C. destruct C as (-> & C1 & C2).
  set (d := i - (s_off (fst pl) + (r * snd pl + c * sample_bytes f))).
  assert (DD : i = s_off (fst pl) + (r * snd pl + c * sample_bytes f) + d) by (unfold d; lia).
  assert (DN : d < n * sample_bytes f) by (unfold d; lia).
  pose proof (Nat.div_mod d (sample_bytes f) ltac:(lia)) as DM.
  pose proof (Nat.mod_upper_bound d (sample_bytes f) ltac:(lia)) as MU.
  assert (d / sample_bytes f < n) by (apply Nat.div_lt_upper_bound; lia).
  exists p, pl, r, (c + d / sample_bytes f).
  split; [exact Hp|]. split; [exact N|]. split; [exact Hr|]. split; [lia|]. split; [reflexivity|]. rewrite DD. nia.
Qed.

Lemma sample_bytes_pos : forall f, 0 < sample_bytes f.
Proof. destruct f; cbn; lia. Qed.

(** * The whole walk *)

Lemma run_all_ok : forall E (l : list (out E)) evss,
  Forall2 (fun o evs => o = (evs, Ok tt)) l evss -> run_all l = (concat evss, Ok tt).
Proof.
  intros E l evss H. induction H as [|o evs l evss -> H IH]; [reflexivity|]. cbn [run_all concat]. rewrite IH. reflexivity.
Qed.

Definition block_evs (f : pixel_format) (ps : list plane) (g : vimpl -> nat -> comp -> nat -> nat -> f32)
    (blk : vimpl * quant * nat * nat) (evs : list wev) : Prop :=
  let '(vi, q, X, Y) := blk in
  Forall2 (row_ev (sample_bytes f) ps (stored q f (g vi X))) (block_rows f (vi_len vi) X Y) evs.

Lemma visit_runs : forall lm b f ps V w h g, w mod 2 = 0 -> h mod 2 = 0 -> block_ok f ps V w h g ->
  exists evss, visit lm b w h V = (concat evss, Ok tt) /\ Forall2 (block_evs f ps g) (blocks lm b w h) evss.
Proof.
  intros lm b f ps V w h g Ew Eh B. unfold visit. rewrite Ew, Eh. cbn [Nat.eqb andb].
  unfold visit_impl. rewrite positions_blocks by assumption. rewrite map_map.
  assert (A : forall vi q X Y, In (vi, q, X, Y) (blocks lm b w h) -> vector_spec vi q /\ in_image vi w h X Y)
    by (intros; eapply blocks_in_image; eauto).
  assert (G : exists evss,
    Forall2 (fun o evs => o = (evs, Ok tt))
      (map (fun x => let '(i, x0, y) := let '(vi, _, X, Y) := x in (vi, 2 * X, 2 * Y) in V i x0 y) (blocks lm b w h)) evss /\
    Forall2 (block_evs f ps g) (blocks lm b w h) evss).
  { induction (blocks lm b w h) as [|[[[vi q] X] Y] l IH].
    - exists []. split; constructor.
    - destruct IH as (evss & I1 & I2); [intros; apply A; right; assumption|].
      destruct (A vi q X Y) as [A1 A2]; [left; reflexivity|].
      destruct (B vi q X Y A1 A2) as (evs & E & F).
      exists (evs :: evss). split; constructor; auto. }
  destruct G as (evss & G1 & G2). exists evss. split; [|exact G2]. apply run_all_ok. exact G1.
Qed.

Lemma times_concat : forall evss b i, times (concat evss) b i = list_sum (map (fun evs => times evs b i) evss).
Proof.
  induction evss as [|e evss IH]; intros; [reflexivity|]. cbn [concat map list_sum fold_right].
  rewrite times_app, IH. reflexivity.
Qed.

Lemma count_sum : forall A (P : A -> bool) l, count P l = list_sum (map (fun a => b2n (P a)) l).
Proof. induction l as [|a l IH]; [reflexivity|]. rewrite count_cons, IH. reflexivity. Qed.

Lemma forall2_in_l : forall A B (R : A -> B -> Prop) l l' a, Forall2 R l l' -> In a l -> exists b, In b l' /\ R a b.
Proof.
  intros A B R l l' a H. induction H as [|x y l l' Rxy H IH]; intros I; [destruct I|].
  destruct I as [->|I]; [exists y; split; [left; reflexivity|exact Rxy]|].
  destruct (IH I) as (y' & I' & R'). exists y'. split; [right; assumption|assumption].
Qed.
Lemma forall2_in_r : forall A B (R : A -> B -> Prop) l l' b, Forall2 R l l' -> In b l' -> exists a, In a l /\ R a b.
Proof.
  intros A B R l l' b H. induction H as [|x y l l' Rxy H IH]; intros I; [destruct I|].
  destruct I as [->|I]; [exists x; split; [left; reflexivity|exact Rxy]|].
  destruct (IH I) as (x' & I' & R'). exists x'. split; [right; assumption|assumption].
Qed.

Section Walk.
  Variables (lm : libm) (b : backend) (f : pixel_format) (ps : list plane) (w h : nat).
  Variable g : vimpl -> nat -> comp -> nat -> nat -> f32.
  Hypothesis Ew : w mod 2 = 0.
  Hypothesis Eh : h mod 2 = 0.
  Hypothesis D : dst_planes f ps w h.

  Lemma block_times : forall blk evs p pl r c j, In blk (blocks lm b w h) -> block_evs f ps g blk evs ->
    p < n_planes f -> nth_error ps p = Some pl -> r < plane_rows f p h -> c < plane_cols f p w -> j < sample_bytes f ->
    times evs (s_buf (fst pl)) (s_off (fst pl) + (r * snd pl + c * sample_bytes f) + j)
      = b2n (in_block (c / ucols f p) (r / urows f p) blk).
  Proof.
    intros [[[vi q] X] Y] evs p pl r c j I B Hp N Hr Hc Hj.
    destruct (blocks_in_image lm b w h vi q X Y Ew Eh I) as [V [IX IY]].
    cbn [in_block]. rewrite <- block_rows_count by (try assumption; apply (vs_len _ _ V)).
    pose proof (fun p r c n HI => block_rows_range f (vi_len vi) X Y w h p r c n HI IX IY) as RNG.
    cbn [block_evs] in B. revert RNG.
    induction B as [|[[[p' r'] c'] n'] e rows evs R B IH]; intros RNG; [reflexivity|].
    rewrite count_cons. change (e :: evs) with ([e] ++ evs). rewrite times_app. rewrite IH; [|intros; apply RNG; right; assumption].
    f_equal. destruct (RNG p' r' c' n') as (R1 & R2 & R3); [left; reflexivity|].
    unfold times. cbn [filter]. rewrite (row_ev_covers f ps w h _ p' r' c' n' e D R R1 R2 R3 p pl r c j) by assumption.
    destruct (in_brow p r c (p', r', c', n')); reflexivity.
  Qed.

  Variable evss : list (list wev).
  Hypothesis EV : Forall2 (block_evs f ps g) (blocks lm b w h) evss.

  Lemma walk_once : forall p pl r c j,
    p < n_planes f -> nth_error ps p = Some pl -> r < plane_rows f p h -> c < plane_cols f p w -> j < sample_bytes f ->
    times (concat evss) (s_buf (fst pl)) (s_off (fst pl) + (r * snd pl + c * sample_bytes f) + j) = 1.
  Proof.
    intros p pl r c j Hp N Hr Hc Hj. rewrite times_concat.
    destruct (sample_unit f p r c w h Ew Eh Hp Hr Hc) as [U1 U2].
    destruct (blocks_once lm b w h _ _ Ew Eh U1 U2) as [C _]. rewrite <- C, count_sum. f_equal.
    assert (A : forall blk evs, In blk (blocks lm b w h) -> block_evs f ps g blk evs ->
      times evs (s_buf (fst pl)) (s_off (fst pl) + (r * snd pl + c * sample_bytes f) + j)
        = b2n (in_block (c / ucols f p) (r / urows f p) blk)) by (intros; apply block_times; assumption).
    clear C. induction EV as [|blk evs l evss' B1 B2 IH]; [reflexivity|]. cbn [map]. f_equal.
    - apply A; [left; reflexivity|assumption].
    - apply IH; [assumption|]. intros; apply A; [right; assumption|assumption].
  Qed.

  Lemma walk_outside : forall bb i, ~ sample_byte f ps w h bb i -> times (concat evss) bb i = 0.
  Proof.
    intros bb i H. unfold times. destruct (filter (covers bb i) (concat evss)) as [|e l] eqn:E; [reflexivity|]. exfalso. apply H.
    assert (I : In e (filter (covers bb i) (concat evss))) by (rewrite E; left; reflexivity).
    apply filter_In in I as [I C]. apply in_concat in I as (evs & I1 & I2).
    destruct (forall2_in_r _ _ _ _ _ _ EV I1) as ([[[vi q] X] Y] & J1 & J2). cbn [block_evs] in J2.
    destruct (blocks_in_image lm b w h vi q X Y Ew Eh J1) as [V [IX IY]].
    destruct (forall2_in_r _ _ _ _ _ _ J2 I2) as ([[[p r] c] n] & K1 & K2).
    destruct (block_rows_range f (vi_len vi) X Y w h p r c n K1 IX IY) as (R1 & R2 & R3).
    eapply row_ev_sample; eauto. apply sample_bytes_pos.
  Qed.

  Lemma walk_value : forall m p pl r c j,
    p < n_planes f -> nth_error ps p = Some pl -> r < plane_rows f p h -> c < plane_cols f p w -> j < sample_bytes f ->
    let '(vi, q, X) := block_at lm b w (c / ucols f p) in
    apply_all m (concat evss) (s_buf (fst pl)) (s_off (fst pl) + (r * snd pl + c * sample_bytes f) + j)
      = byte_of (stored q f (g vi X) p r c) j.
  Proof.
    intros m p pl r c j Hp N Hr Hc Hj.
    pose proof (walk_once p pl r c j Hp N Hr Hc Hj) as T.
    destruct (sample_unit f p r c w h Ew Eh Hp Hr Hc) as [U1 U2].
    destruct (blocks_once lm b w h _ _ Ew Eh U1 U2) as [_ C].
    destruct (block_at lm b w (c / ucols f p)) as [[vi q] X]. destruct C as [C1 C2].
    destruct (forall2_in_l _ _ _ _ _ _ EV C1) as (evs & I1 & I2).
    destruct (blocks_in_image lm b w h vi q X _ Ew Eh C1) as [V [IX IY]].
    (* the row of the block that holds the sample *)
    cbn [in_block] in C2.
    pose proof (block_rows_count f (vi_len vi) X (r / urows f p) p r c (vs_len _ _ V) Hp) as RC.
    rewrite C2 in RC. unfold b2n in RC.
    assert (EX : exists row, In row (block_rows f (vi_len vi) X (r / urows f p)) /\ in_brow p r c row = true).
    { unfold count in RC. destruct (filter (in_brow p r c) _) as [|row l] eqn:E; [discriminate RC|].
      exists row. apply filter_In. rewrite E. left; reflexivity. }
    destruct EX as ([[[p' r'] c'] n'] & J1 & J2).
    cbn [block_evs] in I2. destruct (forall2_in_l _ _ _ _ _ _ I2 J1) as (e & K1 & K2).
    destruct (block_rows_range f (vi_len vi) X _ w h p' r' c' n' J1 IX IY) as (R1 & R2 & R3).
    pose proof (row_ev_covers f ps w h _ p' r' c' n' e D K2 R1 R2 R3 p pl r c j Hp N Hr Hc Hj) as CV.
    rewrite J2 in CV. apply in_brow_eq in J2 as (<- & <- & Q).
    assert (IE : In e (concat evss)) by (apply in_concat; exists evs; auto).
    rewrite (apply_once _ _ _ _ e T IE CV).
    destruct K2 as (pl' & N' & EB & EO & EL & BL & BV). rewrite N in N'. injection N' as <-.
    rewrite EO. replace (s_off (fst pl) + (r * snd pl + c * sample_bytes f) + j - (s_off (fst pl) + (r * snd pl + c' * sample_bytes f)))
      with ((c - c') * sample_bytes f + j) by nia.
    rewrite BV by lia. replace (c' + (c - c')) with c by lia. reflexivity.
  Qed.

  (** The sample as a number *)
  Lemma walk_sample : forall m p pl r c,
    p < n_planes f -> nth_error ps p = Some pl -> r < plane_rows f p h -> c < plane_cols f p w ->
    let '(vi, q, X) := block_at lm b w (c / ucols f p) in
    sample_at (apply_all m (concat evss)) f pl r c = stored q f (g vi X) p r c.
  Proof.
    intros m p pl r c Hp N Hr Hc.
    pose proof (fun j => walk_value m p pl r c j Hp N Hr Hc) as W.
    destruct (sample_unit f p r c w h Ew Eh Hp Hr Hc) as [U1 U2].
    destruct (blocks_once lm b w h _ _ Ew Eh U1 U2) as [_ C].
    destruct (block_at lm b w (c / ucols f p)) as [[vi q] X]. destruct C as [C1 C2].
    destruct (blocks_in_image lm b w h vi q X _ Ew Eh C1) as [V _].
    unfold sample_at, sample_addr.
    destruct (Nat.eqb_spec (sample_bytes f) 2) as [E2|E2].
    - assert (R : (0 <= stored q f (g vi X) p r c < 65536)%Z).
      { unfold stored. destruct (unlayout f p r c) as [[k x] y]. unfold quantise.
        destruct f; try discriminate E2; apply (vs_q_u16 _ _ V). }
      pose proof (W 0 ltac:(lia)) as W0. pose proof (W 1 ltac:(lia)) as W1.
      rewrite Nat.add_0_r in W0. rewrite Nat.add_1_r in W1. rewrite W0, W1.
      unfold byte_of. change (256 ^ Z.of_nat 0)%Z with 1%Z. change (256 ^ Z.of_nat 1)%Z with 256%Z. rewrite Z.div_1_r.
      set (z := stored q f (g vi X) p r c) in *.
      assert (0 <= z / 256 < 256)%Z by (split; [apply Z.div_pos; lia|apply Z.div_lt_upper_bound; lia]).
      rewrite (Z.mod_small (z / 256)) by assumption.
      pose proof (Z.div_mod z 256 ltac:(lia)). lia.
    - assert (E1 : sample_bytes f = 1) by (destruct f; cbn in *; congruence).
      pose proof (W 0 ltac:(lia)) as W0. rewrite Nat.add_0_r in W0. rewrite W0.
      apply byte_of_0. unfold stored. destruct (unlayout f p r c) as [[k x] y]. unfold quantise.
      destruct f; try discriminate E1; first [apply (vs_q_u8 _ _ V) | apply (vs_q_u8i _ _ V)].
  Qed.
End Walk.
