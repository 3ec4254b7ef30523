(** Lemmas about [Resizer::resize]. *)

From Coq Require Import Arith Bool List ZArith Lia.
From Verif Require Import Base Types Planes ImageM F32 Vector Simd Formats Visit Convert Copy MultiThread Resize
  SpecGeom SpecVector SpecColor SpecConvert SpecRun SpecThreads SpecCopy SpecResize GeomProofs GeomProofs2 GeomProofs3
  ReadProofs WriteProofs VisitProofs ConvertProofs SplitProofs BandProofs ExecProofs ThreadProofs CopyProofs.
Import ListNotations.

Lemma desc_pixel : forall f p d, nth_error (plane_descs f) p = Some d ->
  ptype d = pixel_kind f p /\ pixel_size (ptype d) / bpp d = pixel_samples f p /\
  pixel_size (ptype d) = pixel_samples f p * sample_bytes f /\ 1 <= pixel_samples f p.
Proof.
  intros f p d H. destruct f, p as [|[|[|p]]]; cbn in H; try (destruct p; discriminate H); try discriminate H; injection H as <-;
    repeat split; cbn; lia.
Qed.

(** Even widths: the pixels make up all columns *)
Lemma pixels_all : forall f p w, p < n_planes f -> whole_pixels f w ->
  plane_cols f p w / pixel_samples f p * pixel_samples f p = plane_cols f p w.
Proof.
  intros f p w Hp Ew. pose proof (Nat.div_mod w 2 ltac:(lia)) as DW.
  assert (D4 : w mod 2 = 0 -> w * 2 = w / 2 * 4) by lia.
  destruct f; cbn [plane_cols pixel_samples]; cbn [whole_pixels] in Ew;
    try (destruct p as [|[|[|p]]]; cbn [Nat.eqb]; rewrite ?Nat.div_1_r; lia); rewrite ?Nat.div_1_r; try lia.
  - rewrite (D4 Ew), Nat.div_mul by lia. reflexivity.
  - rewrite Nat.div_mul by lia. reflexivity.
  - rewrite Nat.div_mul by lia. reflexivity.
  - rewrite Nat.div_mul by lia. reflexivity.
  - rewrite Nat.div_mul by lia. reflexivity.
Qed.

Lemma plane_views_ok : forall f p d sw dw sh dh sp dp, nth_error (plane_descs f) p = Some d ->
  usize (row_bytes f p sw) -> usize (row_bytes f p dw) -> 0 < snd sp -> 0 < snd dp ->
  whole_rows sp = plane_rows f p sh -> whole_rows dp = plane_rows f p dh ->
  plane_views sw dw (d, (sp, dp)) = Ok (view_of f sw sh p sp, view_of f dw dh p dp).
Proof.
  intros f p d sw dw sh dh [s sst] [t tst] D U1 U2 P1 P2 R1 R2. cbn [fst snd] in *. unfold whole_rows in R1, R2. cbn [fst snd] in *.
  destruct (desc_spec f p d D) as (_ & Hw & _ & Hb & _). destruct (desc_pixel f p d D) as (K & G & _).
  pose proof (sample_bytes_pos f) as SB. unfold row_bytes in U1, U2.
  unfold plane_views. rewrite !op_apply_ok;
    [|rewrite Hw; eapply usize_le; [|exact U2]; nia|rewrite Hw; eapply usize_le; [|exact U1]; nia]. cbn [bind].
  rewrite (proj2 (Nat.eqb_neq sst 0)), (proj2 (Nat.eqb_neq tst 0)) by lia. cbn [bind].
  rewrite G, K, !Hw, R1, R2. reflexivity.
Qed.

(** * The tasks *)

Lemma nth_error_seq : forall n p a, p < n -> nth_error (seq a n) p = Some (a + p).
Proof.
  intros n. induction n as [|n IH]; intros [|p] a H; try lia; cbn; [f_equal; lia|]. rewrite IH by lia. f_equal. lia.
Qed.

Lemma resize_with_nth : forall A (l : list A) n a p d, p < Nat.max (length l) n -> d = a ->
  nth_error (resize_with l (Nat.max (length l) n) a) p = Some (nth p l d).
Proof.
  intros A l n a p d Hp ->. unfold resize_with. destruct (Nat.lt_ge_cases p (length l)) as [L|G].
  - rewrite nth_error_app1 by exact L. apply nth_error_nth', L.
  - rewrite nth_error_app2 by exact G. rewrite nth_overflow by exact G.
    rewrite nth_error_repeat by lia. reflexivity.
Qed.

Lemma resize_with_length : forall A (l : list A) n a, length (resize_with l (Nat.max (length l) n) a) = Nat.max (length l) n.
Proof. intros. unfold resize_with. rewrite app_length, repeat_length. lia. Qed.

Definition states_for {F : fir} (rz : resizer F) (sps : list (slice * nat)) : list (fir_state F) :=
  resize_with (rz_fir rz) (Nat.max (length (rz_fir rz)) (length sps)) (fir_new F).

Definition runs_for {F : fir} (rz : resizer F) (m : mem) (src : image) (sps : list (slice * nat)) (dst : image) (dps : list (slice * nat)) :=
  map (resize_plane F (rz_alg rz) m (im_width src) (im_width dst)) (tasks_of F (im_format src) sps dps (states_for rz sps)).

Lemma tasks_length : forall F f sps dps (rz : resizer F),
  length (tasks_of F f sps dps (states_for rz sps)) = Nat.min (n_planes f) (Nat.min (length sps) (length dps)).
Proof.
  intros. unfold tasks_of, states_for. rewrite !combine_length, resize_with_length, n_planes_descs. lia.
Qed.

Lemma task_nth : forall F f sps dps (rz : resizer F) p sp dp, p < n_planes f -> nth_error sps p = Some sp -> nth_error dps p = Some dp ->
  exists d, nth_error (plane_descs f) p = Some d /\
    nth_error (tasks_of F f sps dps (states_for rz sps)) p = Some ((d, (sp, dp)), state_of rz p).
Proof.
  intros F f sps dps rz p sp dp Hp NS ND. destruct (jobs_get f sps dps p sp dp Hp NS ND) as (d & D & J).
  exists d. split; [exact D|]. apply combine_nth_some; [exact J|]. apply resize_with_nth; [|reflexivity].
  assert (p < length sps) by (apply nth_error_Some; congruence). lia.
Qed.

(** The result of one task as resize sees it *)
Definition plane_outcome {F : fir} (r : fir_state F * out unit) : fir_state F * out resize_error :=
  let '(st, (evs, r)) := r in
  (st, (evs, match r with Ok _ => Ok tt | Err _ => Panic PUnwrap | Panic p => Panic p | UB => UB end)).

Lemma runs_are : forall F (rz : resizer F) m src sps dst dps, im_format src = im_format dst ->
  resizable src sps -> resizable dst dps ->
  runs_for rz m src sps dst dps = map (fun p => plane_outcome (plane_run rz m src sps dst dps p)) (seq 0 (n_planes (im_format src))).
Proof.
  intros F rz m src sps dst dps EF (VS & _ & LS & PS & HS) (VD & _ & LD & PD & HD).
  destruct (valid_ready _ _ VS) as (_ & WS & _ & FS). destruct (valid_ready _ _ VD) as (_ & WD & _ & FD).
  rewrite <- EF in *. apply nth_error_ext. intros p.
  destruct (Nat.lt_ge_cases p (n_planes (im_format src))) as [Hp|Hp].
  - unfold runs_for. rewrite nth_error_map, nth_error_map, (nth_error_seq (n_planes (im_format src)) p 0) by exact Hp. cbn [option_map].
    destruct (nth_error sps p) as [sp|] eqn:NS; [|apply nth_error_None in NS; lia].
    destruct (nth_error dps p) as [dp|] eqn:ND; [|apply nth_error_None in ND; lia].
    destruct (task_nth F (im_format src) sps dps rz p sp dp Hp NS ND) as (d & D & T). rewrite T. cbn [option_map]. f_equal.
    unfold resize_plane, plane_run. cbn [Nat.add]. rewrite NS, ND.
    rewrite (plane_views_ok (im_format src) p d (im_width src) (im_width dst) (im_height src) (im_height dst) sp dp D).
    + rewrite <- EF. destruct (fir_resize _ _ _ _ _ _) as [st [evs r]]. reflexivity.
    + eapply usize_le; [apply (FS p sp Hp NS)|apply (wf_nth _ _ _ WS NS)].
    + eapply usize_le; [apply (FD p dp Hp ND)|apply (wf_nth _ _ _ WD ND)].
    + exact (PS p sp Hp NS).
    + exact (PD p dp Hp ND).
    + apply (HS p sp Hp NS).
    + apply (HD p dp Hp ND).
  - rewrite (proj2 (nth_error_None _ _)), (proj2 (nth_error_None _ _)); [reflexivity| |].
    + rewrite map_length, seq_length. exact Hp.
    + unfold runs_for. rewrite map_length, tasks_length. lia.
Qed.

(** * Runs of resize *)

Lemma resize_inv : forall F th m (rz : resizer F) src sps dst dps rz' o, im_format src = im_format dst ->
  im_planes src = Ok sps -> im_planes dst = Ok dps -> resize F th m rz src dst rz' o <->
  exists states',
    (if th then rayon_scope F (runs_for rz m src sps dst dps) states' o
     else stub_scope F (runs_for rz m src sps dst dps)
            (firstn (length (runs_for rz m src sps dst dps)) (states_for rz sps)) = (states', o)) /\
    rz' = Resizer (rz_alg rz) (states' ++ skipn (length (runs_for rz m src sps dst dps)) (states_for rz sps)).
Proof.
  intros F th m rz src sps dst dps rz' o EF ES ED. unfold resize.
  rewrite (proj2 (pixel_format_eqb_eq _ _) EF), ES, ED. cbn [negb lift bind]. reflexivity.
Qed.

(** The stub runs the closures to their end, or until one panics. *)
Lemma stub_ok : forall F (runs : list (fir_state F * out resize_error)) olds, length olds = length runs ->
  Forall (fun c => snd (snd c) = Ok tt) runs ->
  stub_scope F runs olds = (map fst runs, (concat (map (fun c => fst (snd c)) runs), Ok tt)).
Proof.
  intros F runs. induction runs as [|[st [evs r]] runs IH]; intros [|old olds] L A; try discriminate L; [reflexivity|].
  inversion A as [|? ? A1 A2]; subst. cbn in A1. subst r. cbn [stub_scope map concat fst snd].
  rewrite (IH olds); [reflexivity|injection L as L; exact L|exact A2].
Qed.

Lemma stub_inv : forall F (runs : list (fir_state F * out resize_error)) olds states evs r, length olds = length runs ->
  stub_scope F runs olds = (states, (evs, r)) ->
  length states = length runs /\
  (r = Ok tt -> Forall (fun c => snd (snd c) = Ok tt) runs) /\
  (r <> Ok tt -> exists c, In c runs /\ snd (snd c) <> Ok tt /\ r = snd (snd c)) /\
  (forall e, In e evs -> exists c, In c runs /\ In e (fst (snd c))).
Proof.
  intros F runs. induction runs as [|[st [ev r0]] runs IH]; intros [|old olds] states evs r L H; try discriminate L.
  - injection H as <- <- <-. split; [reflexivity|]. split; [constructor|]. split; [congruence|intros e []].
  - injection L as L. cbn [stub_scope] in H. destruct r0 as [[]|e0|p0|].
    + destruct (stub_scope F runs olds) as [states1 [evs1 r1]] eqn:E. injection H as <- <- <-.
      destruct (IH olds states1 evs1 r1 L E) as (A & B & C & D). split; [cbn; f_equal; exact A|]. split; [|split].
      * intros O. constructor; [reflexivity|apply B, O].
      * intros N. destruct (C N) as (c & I & X). exists c. split; [right; exact I|exact X].
      * intros e I. apply in_app_or in I as [I|I]; [eexists; split; [left; reflexivity|exact I]|].
        destruct (D e I) as (c & J & X). exists c. split; [right; exact J|exact X].
    + injection H as <- <- <-. split; [cbn; congruence|]. split; [discriminate|]. split.
      * intros _. eexists. split; [left; reflexivity|]. split; [discriminate|reflexivity].
      * intros e I. eexists. split; [left; reflexivity|exact I].
    + injection H as <- <- <-. split; [cbn; congruence|]. split; [discriminate|]. split.
      * intros _. eexists. split; [left; reflexivity|]. split; [discriminate|reflexivity].
      * intros e I. eexists. split; [left; reflexivity|exact I].
    + injection H as <- <- <-. split; [cbn; congruence|]. split; [discriminate|]. split.
      * intros _. eexists. split; [left; reflexivity|]. split; [discriminate|reflexivity].
      * intros e I. eexists. split; [left; reflexivity|exact I].
Qed.

Lemma states_firstn : forall F (rz : resizer F) m src sps dst dps,
  length (firstn (length (runs_for rz m src sps dst dps)) (states_for rz sps)) = length (runs_for rz m src sps dst dps).
Proof.
  intros. apply firstn_length_le. unfold runs_for. rewrite map_length, tasks_length. unfold states_for.
  rewrite resize_with_length. lia.
Qed.

(** Result and stores of a call, with or without threads *)
Lemma resize_outcome : forall F th m (rz : resizer F) src sps dst dps rz' o, im_format src = im_format dst ->
  im_planes src = Ok sps -> im_planes dst = Ok dps -> resize F th m rz src dst rz' o ->
  let runs := runs_for rz m src sps dst dps in
  (snd o = Ok tt <-> Forall (fun c => snd (snd c) = Ok tt) runs) /\
  (snd o <> Ok tt -> exists c, In c runs /\ snd (snd c) <> Ok tt /\ snd o = snd (snd c)) /\
  (forall e, In e (fst o) -> exists c, In c runs /\ In e (fst (snd c))) /\
  (snd o = Ok tt -> interleaving (map (fun c => fst (snd c)) runs) (fst o) /\
                    rz' = Resizer (rz_alg rz) (map fst runs ++ skipn (length runs) (states_for rz sps))).
Proof.
  intros F th m rz src sps dst dps rz' o EF ES ED R runs. apply (resize_inv F th m rz src sps dst dps rz' o EF ES ED) in R.
  destruct R as (states' & R & ->). fold runs in R |- *. destruct th.
  - destruct R as (IL & -> & R).
    assert (A : snd o = Ok tt <-> Forall (fun c => snd (snd c) = Ok tt) runs).
    { destruct R as [[A O]|(c & I & N & O)]; [tauto|]. split.
      - intros O'. rewrite O in O'. contradiction.
      - intros A. rewrite Forall_forall in A. destruct (N (A c I)). }
    split; [exact A|]. split; [|split].
    + intros N. destruct R as [[_ O]|R]; [contradiction|exact R].
    + intros e I. destruct (interleaving_In _ _ e IL I) as (t & I1 & I2). apply in_map_iff in I1 as (c & <- & I1). eauto.
    + intros O. split; [exact IL|reflexivity].
  - destruct o as [evs r]. pose proof (states_firstn F rz m src sps dst dps : length (firstn (length runs) (states_for rz sps)) = length runs) as SF.
    destruct (stub_inv F runs _ states' evs r SF R) as (L & A & B & D).
    cbn [fst snd]. split; [split; [exact A|]|].
    + intros ALL. rewrite (stub_ok F runs _ SF ALL) in R. injection R as _ _ <-. reflexivity.
    + split; [exact B|]. split; [exact D|]. intros O. specialize (A O).
      rewrite (stub_ok F runs _ SF A) in R. injection R as <- <- <-.
      split; [apply interleaving_concat|reflexivity].
Qed.

(** There is always a run. *)
Lemma resize_total : forall F th m (rz : resizer F) src dst, exists rz' o, resize F th m rz src dst rz' o.
Proof.
  intros F th m rz src dst. unfold resize. destruct (negb _); [eauto|].
  destruct (_ <- lift (im_planes src) ;; _) as [[sps dps]| | |]; [|eauto..].
  fold (states_for rz sps). fold (runs_for rz m src sps dst dps). set (runs := runs_for rz m src sps dst dps).
  destruct th.
  - assert (X : Forall (fun c : fir_state F * out resize_error => snd (snd c) = Ok tt) runs \/
                exists c, In c runs /\ snd (snd c) <> Ok tt).
    { clearbody runs. induction runs as [|c runs [IH|(d & I & N)]]; [left; constructor| |right; exists d; split; [right|]; assumption].
      destruct c as [st [evs r]]. destruct r as [[]| | |]; [left; constructor; [reflexivity|exact IH]|right..];
        (eexists; split; [left; reflexivity|discriminate]). }
    destruct X as [A|(c & I & N)].
    + eexists _, (concat (map (fun c => fst (snd c)) runs), Ok tt), _. split; [|reflexivity].
      split; [apply interleaving_concat|]. split; [reflexivity|]. left. auto.
    + eexists _, (concat (map (fun c => fst (snd c)) runs), snd (snd c)), _. split; [|reflexivity].
      split; [apply interleaving_concat|]. split; [reflexivity|]. right. exists c. auto.
  - destruct (stub_scope F runs (firstn (length runs) (states_for rz sps))) as [st o] eqn:E. eexists _, o, st. split; reflexivity.
Qed.

(** * Rows of a view *)

Lemma view_row_true : forall E addr f w h p pl r, p < n_planes f -> whole_pixels f w ->
  plane_fits f w h p pl -> usize (snd pl) -> 0 < snd pl -> whole_rows pl = plane_rows f p h -> words_aligned addr f [pl] ->
  @view_row E addr (view_of f w h p pl) r =
    Ok (if r <? plane_rows f p h then Some (Slice (s_buf (fst pl)) (s_off (fst pl) + r * snd pl) (row_bytes f p w)) else None).
Proof.
  intros E addr f w h p pl r Hp Ew [F1 F2] U P R AL. destruct (desc_exists f p Hp) as (d & D).
  destruct (desc_pixel f p d D) as (K & G & S & G1). pose proof (pixels_all f p w Hp Ew) as PA.
  unfold view_row, view_of. cbn [ad_plane ad_stride ad_width ad_type]. unfold chunks_exact.
  rewrite (proj2 (Nat.eqb_neq _ _)) by lia. cbn [bind]. unfold whole_rows in R.
  destruct (Nat.ltb_spec r (plane_rows f p h)) as [L|L].
  - rewrite nth_error_map, nth_error_seq by (rewrite R; exact L). cbn [option_map Nat.add].
    assert (W : plane_cols f p w / pixel_samples f p * pixel_size (pixel_kind f p) = row_bytes f p w).
    { rewrite <- K, S. unfold row_bytes. rewrite <- PA at 2. lia. }
    rewrite umul_ok by (rewrite W; eapply usize_le; [exact F1|exact U]). rewrite W. cbn [bind].
    unfold index_range. cbn [s_len s_buf s_off]. rewrite (proj2 (Nat.leb_le _ _) F1). cbn [Nat.leb andb bind s_buf s_off s_len].
    rewrite Nat.sub_0_r, Nat.add_0_r.
    assert (EV : sample_bytes f = 2 -> Z.even (addr (s_buf (fst pl)) + Z.of_nat (s_off (fst pl) + r * snd pl)) = true).
    { intros S2. destruct (AL S2 pl (or_introl eq_refl)) as [A B]. apply Nat.even_spec in B as [k Hk].
      rewrite Nat2Z.inj_add, Hk, Z.add_assoc, Z.even_add, A.
      replace (Z.of_nat (r * (2 * k))) with (2 * Z.of_nat (r * k))%Z by lia. rewrite Z.even_mul. reflexivity. }
    destruct (pixel_kind f p) eqn:PK; try reflexivity.
    assert (S2 : sample_bytes f = 2) by (destruct f; cbn in PK; try discriminate PK; try reflexivity; destruct (p =? 0); discriminate PK).
    rewrite (EV S2). reflexivity.
  - rewrite (proj2 (nth_error_None _ _)); [reflexivity|]. rewrite map_length, seq_length, R. exact L.
Qed.

(** Whatever the view: the rows it hands out are inside the plane. *)
Lemma view_row_inside : forall E addr v r row, @view_row E addr v r = Ok (Some row) ->
  s_buf row = s_buf (ad_plane v) /\ s_off (ad_plane v) <= s_off row /\ s_off row + s_len row <= s_off (ad_plane v) + s_len (ad_plane v) /\
  s_len row = ad_width v * pixel_size (ad_type v) /\ r < s_len (ad_plane v) / ad_stride v.
Proof.
  intros E addr v r row H. unfold view_row, chunks_exact in H. destruct (Nat.eqb_spec (ad_stride v) 0) as [|NZ]; [discriminate H|].
  cbn [bind] in H. destruct (nth_error _ r) as [row0|] eqn:N; [|discriminate H].
  rewrite nth_error_map in N. destruct (nth_error (seq 0 _) r) as [r'|] eqn:NS; [|discriminate N]. cbn [option_map] in N.
  assert (L : r < s_len (ad_plane v) / ad_stride v) by (rewrite <- (seq_length (s_len (ad_plane v) / ad_stride v) 0); apply nth_error_Some; congruence).
  rewrite nth_error_seq in NS by exact L. injection NS as <-. injection N as <-.
  destruct (umul_cases E (ad_width v) (pixel_size (ad_type v))) as [[UM _]|[UM _]]; rewrite UM in H; [|discriminate H]. cbn [bind] in H.
  set (n := ad_width v * pixel_size (ad_type v)) in *.
  unfold index_range in H. cbn [s_len s_buf s_off Nat.leb andb] in H.
  destruct (Nat.leb_spec n (ad_stride v)) as [LE|]; [|discriminate H]. cbn [bind] in H.
  assert (R : row = Slice (s_buf (ad_plane v)) (s_off (ad_plane v) + r * ad_stride v + 0) (n - 0)).
  { destruct (ad_type v); cbn [s_buf s_off s_len] in H; try (injection H as <-; reflexivity).
    destruct (_ || _); [injection H as <-; reflexivity|discriminate H]. }
  subst row. cbn [s_buf s_off s_len]. pose proof (Nat.mul_div_le (s_len (ad_plane v)) (ad_stride v) NZ).
  repeat split; try lia; try nia.
Qed.
