(** What the writers store for one block. *)

From Coq Require Import List ZArith Bool Arith Lia.
From Verif Require Import Base Types Planes ImageM F32 Vector SpecVector SpecGeom GeomProofs
  Color SpecColor SpecConvert Formats ReadProofs.
Import ListNotations.

(** * Samples and rows *)

(** A row of a block: plane, row, first column and number of columns (in samples) *)
Definition brow := (nat * nat * nat * nat)%type.

(** The rows stored for block ([X], [Y]) of [L] by 1 units of 2x2 pixels *)
Definition block_rows (f : pixel_format) (L X Y : nat) : list brow :=
  let y := 2 * Y in
  match f with
  | I420 | I010 | I012 => [(0, y, 2 * X, 2 * L); (0, y + 1, 2 * X, 2 * L); (1, Y, X, L); (2, Y, X, L)]
  | I422 | I210 | I212 =>
      [(0, y, 2 * X, 2 * L); (0, y + 1, 2 * X, 2 * L);
       (1, y, X, L); (1, y + 1, X, L); (2, y, X, L); (2, y + 1, X, L)]
  | I444 | I410 | I412 =>
      [(0, y, 2 * X, 2 * L); (0, y + 1, 2 * X, 2 * L);
       (1, y, 2 * X, 2 * L); (1, y + 1, 2 * X, 2 * L);
       (2, y, 2 * X, 2 * L); (2, y + 1, 2 * X, 2 * L)]
  | NV12 => [(0, y, 2 * X, 2 * L); (0, y + 1, 2 * X, 2 * L); (1, Y, 2 * X, 2 * L)]
  | YUYV =>
      [(0, y, 4 * X, 2 * L); (0, y, 4 * X + 2 * L, 2 * L);
       (0, y + 1, 4 * X, 2 * L); (0, y + 1, 4 * X + 2 * L, 2 * L)]
  | RGBA | BGRA => [(0, y, 8 * X, 8 * L); (0, y + 1, 8 * X, 8 * L)]
  | RGB | BGR => [(0, y, 6 * X, 6 * L); (0, y + 1, 6 * X, 6 * L)]
  end.

(** Component and (top left) pixel of a sample: inverse of [layout] *)
Definition unlayout (f : pixel_format) (p r c : nat) : comp * nat * nat :=
  match f with
  | I420 | I010 | I012 =>
      match p with 0 => (CY, c, r) | 1 => (CU, 2 * c, 2 * r) | _ => (CV, 2 * c, 2 * r) end
  | I422 | I210 | I212 =>
      match p with 0 => (CY, c, r) | 1 => (CU, 2 * c, r) | _ => (CV, 2 * c, r) end
  | I444 | I410 | I412 =>
      match p with 0 => (CY, c, r) | 1 => (CU, c, r) | _ => (CV, c, r) end
  | NV12 =>
      match p with 0 => (CY, c, r) | _ => (if Nat.even c then CU else CV, 2 * (c / 2), 2 * r) end
  | YUYV =>
      if Nat.even c then (CY, c / 2, r)
      else (if Nat.even (c / 2) then CU else CV, 2 * (c / 4), r)
  | RGBA => (match c mod 4 with 0 => CR | 1 => CG | 2 => CB | _ => CA end, c / 4, r)
  | BGRA => (match c mod 4 with 0 => CB | 1 => CG | 2 => CR | _ => CA end, c / 4, r)
  | RGB => (match c mod 3 with 0 => CR | 1 => CG | _ => CB end, c / 3, r)
  | BGR => (match c mod 3 with 0 => CB | 1 => CG | _ => CR end, c / 3, r)
  end.

(** Integer stored in a sample, when the components have the values [g] *)
Definition stored (q : quant) (f : pixel_format) (g : comp -> nat -> nat -> f32) (p r c : nat) : Z :=
  let '(k, x, y) := unlayout f p r c in quantise q f (g k x y).

(** Byte [j] of a number *)
Definition byte_of (z : Z) (j : nat) : Z := ((z / 256 ^ Z.of_nat j) mod 256)%Z.

Definition bytes_are (size n : nat) (g : nat -> Z) (bytes : list Z) : Prop :=
  length bytes = n * size /\
  forall k j, k < n -> j < size -> nth (k * size + j) bytes 0%Z = byte_of (g k) j.

(** The store of one row *)
Definition row_ev (size : nat) (pls : list plane) (val : nat -> nat -> nat -> Z) (row : brow) (e : wev) : Prop :=
  let '(p, r, c, n) := row in
  exists pl, nth_error pls p = Some pl /\ w_buf e = s_buf (fst pl) /\
    w_off e = s_off (fst pl) + (r * snd pl + c * size) /\
    w_off e + length (w_bytes e) <= s_off (fst pl) + s_len (fst pl) /\
    bytes_are size n (fun k => val p r (c + k)) (w_bytes e).

Definition block_ok (f : pixel_format) (pls : list plane) (V : visitor) (w h : nat)
    (g : vimpl -> nat -> comp -> nat -> nat -> f32) : Prop :=
  forall vi q X Y, vector_spec vi q -> in_image vi w h X Y ->
  exists evs, V vi (2 * X) (2 * Y) = (evs, Ok tt) /\
    Forall2 (row_ev (sample_bytes f) pls (stored q f (g vi X))) (block_rows f (vi_len vi) X Y) evs.

(** * Stores *)

Lemma byte_of_0 : forall z, (0 <= z < 256)%Z -> byte_of z 0 = z.
Proof. intros. unfold byte_of. change (256 ^ Z.of_nat 0)%Z with 1%Z. rewrite Z.div_1_r. apply Z.mod_small. assumption. Qed.

Lemma word_bytes : forall l i z, word_at l i = z -> (0 <= byte_at l i < 256)%Z -> (0 <= byte_at l (S i) < 256)%Z ->
  byte_at l i = byte_of z 0 /\ byte_at l (S i) = byte_of z 1.
Proof.
  intros l i z H A B. unfold word_at in H. unfold byte_of.
  change (256 ^ Z.of_nat 0)%Z with 1%Z. change (256 ^ Z.of_nat 1)%Z with 256%Z. rewrite Z.div_1_r. subst z.
  assert (D : ((byte_at l i + 256 * byte_at l (S i)) / 256 = byte_at l (S i))%Z).
  { rewrite Z.mul_comm, Z.div_add by lia. rewrite Z.div_small by assumption. lia. }
  split.
  - rewrite Z.mul_comm, Z.mod_add by lia. symmetry. apply Z.mod_small; assumption.
  - rewrite D. symmetry. apply Z.mod_small; assumption.
Qed.

Definition qp (q : quant) (p : prim) : f32 -> Z := match p with U8 => q_u8 q | U16 => q_u16 q end.

Definition bytes1 (vi : vimpl) (p : prim) (v : vec) : list Z :=
  match p with U8 => vi_write_u8 vi v | U16 => vi_write_u16 vi v end.
Definition bytes2 (vi : vimpl) (p : prim) (a b : vec) : list Z :=
  match p with U8 => vi_write_u8_2x vi a b | U16 => vi_write_u16_2x vi a b end.

Lemma bytes1_are : forall vi q p v, vector_spec vi q ->
  bytes_are (psize p) (vi_len vi) (fun k => qp q p (v k)) (bytes1 vi p v).
Proof.
  intros vi q p v S. destruct p; cbn [psize qp bytes1]; split.
  - rewrite (vs_write_u8_len _ _ S). lia.
  - intros k j Hk Hj. assert (j = 0) as -> by lia. replace (k * 1 + 0) with k by lia.
    change (byte_at (vi_write_u8 vi v) k = byte_of (q_u8 q (v k)) 0).
    rewrite (vs_write_u8 _ _ S) by assumption. symmetry; apply byte_of_0, (vs_q_u8 _ _ S).
  - rewrite (vs_write_u16_len _ _ S). lia.
  - intros k j Hk Hj.
    destruct (word_bytes (vi_write_u16 vi v) (2 * k) _ (vs_write_u16 _ _ S v k Hk)) as [A B];
      try apply (vs_bytes_u16 _ _ S).
    destruct j as [|[|]]; [..|lia].
    + replace (k * 2 + 0) with (2 * k) by lia. exact A.
    + replace (k * 2 + 1) with (Datatypes.S (2 * k)) by lia. exact B.
Qed.

Lemma bytes2_are : forall vi q p a b, vector_spec vi q ->
  bytes_are (psize p) (2 * vi_len vi) (fun k => qp q p (stream (vi_len vi) (a, b) k)) (bytes2 vi p a b).
Proof.
  intros vi q p a b S. destruct p; cbn [psize qp bytes2]; split.
  - rewrite (vs_write_u8_2x_len _ _ S). lia.
  - intros k j Hk Hj. assert (j = 0) as -> by lia. replace (k * 1 + 0) with k by lia.
    pose proof (vs_write_u8_2x _ _ S a b k Hk) as E. unfold byte_at in E. rewrite E.
    symmetry; apply byte_of_0, (vs_q_u8 _ _ S).
  - rewrite (vs_write_u16_2x_len _ _ S). lia.
  - intros k j Hk Hj.
    destruct (word_bytes (vi_write_u16_2x vi a b) (2 * k) _ (vs_write_u16_2x _ _ S a b k Hk)) as [A B];
      try apply (vs_bytes_u16_2x _ _ S).
    destruct j as [|[|]]; [..|lia].
    + replace (k * 2 + 0) with (2 * k) by lia. exact A.
    + replace (k * 2 + 1) with (Datatypes.S (2 * k)) by lia. exact B.
Qed.

Lemma bytes_are_ext : forall size n g g' l, (forall k, k < n -> g k = g' k) ->
  bytes_are size n g l -> bytes_are size n g' l.
Proof. intros size n g g' l E [A B]. split; [exact A|]. intros. rewrite <- E by assumption. auto. Qed.

Lemma raw_write_ok : forall E s off bytes, off + length bytes <= s_len s ->
  @raw_write E s off bytes = ([Wev (s_buf s) (s_off s + off) bytes], Ok tt).
Proof.
  intros. unfold raw_write. destruct (Nat.leb_spec off (s_len s)); [|lia].
  destruct (Nat.leb_spec (off + length bytes) (s_len s)); [reflexivity|lia].
Qed.

Lemma write_ok : forall vi q p s off v, vector_spec vi q -> off + vi_len vi * psize p <= s_len s ->
  write vi p s off v = ([Wev (s_buf s) (s_off s + off) (bytes1 vi p v)], Ok tt).
Proof.
  intros vi q p s off v S H. unfold write. fold (bytes1 vi p v).
  destruct (bytes1_are vi q p v S) as [L _]. apply raw_write_ok. lia.
Qed.
Lemma write_2x_ok : forall vi q p s off a b, vector_spec vi q -> off + 2 * vi_len vi * psize p <= s_len s ->
  write_2x vi p s off a b = ([Wev (s_buf s) (s_off s + off) (bytes2 vi p a b)], Ok tt).
Proof.
  intros vi q p s off a b S H. unfold write_2x. fold (bytes2 vi p a b).
  destruct (bytes2_are vi q p a b S) as [L _]. apply raw_write_ok. lia.
Qed.
Lemma write_4x_ok : forall vi q s off v, vector_spec vi q -> off + 8 * vi_len vi <= s_len s ->
  write_4x vi s off v = ([Wev (s_buf s) (s_off s + off) (vi_write_u8_4x vi v)], Ok tt).
Proof. intros vi q s off v S H. apply raw_write_ok. rewrite (vs_write_4x_len _ _ S). exact H. Qed.
Lemma write_3x_ok : forall vi q s off v, vector_spec vi q -> off + 6 * vi_len vi <= s_len s ->
  write_3x vi s off v = ([Wev (s_buf s) (s_off s + off) (vi_write_u8_3x vi v)], Ok tt).
Proof. intros vi q s off v S H. apply raw_write_ok. rewrite (vs_write_3x_len _ _ S). exact H. Qed.

(** * Rows *)

Lemma vmulf_lane : forall vi v max k, vmulf (VO := vec_ops vi) v max k = fmul (v k) max.
Proof. reflexivity. Qed.
Lemma vmulf_stream : forall vi n a b max k,
  stream n (vmulf (VO := vec_ops vi) a max, vmulf (VO := vec_ops vi) b max) k = fmul (stream n (a, b) k) max.
Proof. intros. exact (stream_map n (fun x => fmul x max) a b k). Qed.

Lemma row1 : forall size vi q pr pls val p r c off s st v, vector_spec vi q ->
  nth_error pls p = Some (s, st) -> size = psize pr -> off = r * st + c * psize pr ->
  off + vi_len vi * psize pr <= s_len s ->
  (forall k, k < vi_len vi -> qp q pr (v k) = val p r (c + k)) ->
  row_ev size pls val (p, r, c, vi_len vi) (Wev (s_buf s) (s_off s + off) (bytes1 vi pr v)).
Proof.
  intros size vi q pr pls val p r c off s st v S N -> -> B V. exists (s, st). cbn [fst snd w_buf w_off w_bytes].
  pose proof (bytes1_are vi q pr v S) as BA. repeat split; auto.
  - destruct BA as [-> _]. lia.
  - apply BA.
  - intros. rewrite <- V by assumption. apply BA; assumption.
Qed.
Lemma row2 : forall size vi q pr pls val p r c off s st a b, vector_spec vi q ->
  nth_error pls p = Some (s, st) -> size = psize pr -> off = r * st + c * psize pr ->
  off + 2 * vi_len vi * psize pr <= s_len s ->
  (forall k, k < 2 * vi_len vi -> qp q pr (stream (vi_len vi) (a, b) k) = val p r (c + k)) ->
  row_ev size pls val (p, r, c, 2 * vi_len vi) (Wev (s_buf s) (s_off s + off) (bytes2 vi pr a b)).
Proof.
  intros size vi q pr pls val p r c off s st a b S N -> -> B V. exists (s, st). cbn [fst snd w_buf w_off w_bytes].
  pose proof (bytes2_are vi q pr a b S) as BA. repeat split; auto.
  - destruct BA as [-> _]. lia.
  - apply BA.
  - intros. rewrite <- V by assumption. apply BA; assumption.
Qed.

(** Address computations and stores; bounds come from the context *)
Ltac wsteps S :=
  repeat (match goal with
    | U : usize ?n |- context [uadd ?a ?b] => rewrite (uadd_le _ a b n) by first [exact U | lia]
    | U : usize ?n |- context [offset ?r ?st ?x ?sz] => rewrite (offset_ok r st x sz n) by first [exact U | lia]
    | |- context [write ?vi ?p ?s ?o ?v] => rewrite (write_ok vi _ p s o v S) by lia
    | |- context [write_2x ?vi ?p ?s ?o ?a ?b] => rewrite (write_2x_ok vi _ p s o a b S) by lia
    end; cbn [bind obind]); cbn [run_all app].

(** Primitive type and kind of a planar format *)
Definition prim_of (f : pixel_format) : prim := if sample_bytes f =? 2 then U16 else U8.

Inductive kind := KI420 | KI422 | KI444 | KNV12 | KYUYV | KRGBA (reverse : bool) | KRGB (reverse : bool).
Definition kind_of (f : pixel_format) : kind :=
  match f with
  | I420 | I010 | I012 => KI420
  | I422 | I210 | I212 => KI422
  | I444 | I410 | I412 => KI444
  | NV12 => KNV12
  | YUYV => KYUYV
  | RGBA => KRGBA false | BGRA => KRGBA true
  | RGB => KRGB false | BGR => KRGB true
  end.

Definition maxf (f : pixel_format) : f32 := f32_of_Z (max_level f).

Lemma psize_of : forall f, psize (prim_of f) = sample_bytes f.
Proof. destruct f; reflexivity. Qed.
Lemma quantise_qp : forall q f v, sampling_of f <> SRGB -> quantise q f v = qp q (prim_of f) (fmul v (maxf f)).
Proof. intros q f v H. destruct f; cbn in H; try reflexivity; congruence. Qed.
Lemma quantise_rgb : forall q f v, sampling_of f = SRGB -> quantise q f v = q_u8i q (fmul v (maxf f)).
Proof. intros q f v H. destruct f; cbn in H; try reflexivity; discriminate. Qed.

(** Component functions of the sources *)
Definition g420 (fy : vimpl -> nat -> nat -> f32) (fu fv : vimpl -> nat -> nat -> nat -> f32)
    (vi : vimpl) (X : nat) (c : comp) (x y : nat) : f32 :=
  match c with
  | CY => fy vi x y
  | CU => fu vi X (x / 2) (y / 2)
  | _ => fv vi X (x / 2) (y / 2)
  end.
Definition g422 (fy fu fv : vimpl -> nat -> nat -> f32)
    (vi : vimpl) (X : nat) (c : comp) (x y : nat) : f32 :=
  match c with
  | CY => fy vi x y
  | CU => fu vi (x / 2) y
  | _ => fv vi (x / 2) y
  end.
Definition g444 (fy fu fv : vimpl -> nat -> nat -> f32)
    (vi : vimpl) (X : nat) (c : comp) (x y : nat) : f32 :=
  match c with
  | CY => fy vi x y
  | CU => fu vi x y
  | _ => fv vi x y
  end.
Definition grgb (pix : vimpl -> nat -> nat -> pixel)
    (vi : vimpl) (X : nat) (c : comp) (x y : nat) : f32 :=
  match c with
  | CR => fst3 (fst (pix vi x y))
  | CG => snd3 (fst (pix vi x y))
  | CB => thd3 (fst (pix vi x y))
  | _ => snd (pix vi x y)
  end.

Ltac kinds H := match goal with f : pixel_format |- _ => destruct f; cbn in H; try discriminate H end.

Lemma i420_block : forall f py pu pv w h S fy fu fv,
  kind_of f = KI420 ->
  pgeom (sample_bytes f) w h py -> pgeom (sample_bytes f) (w / 2) (h / 2) pu -> pgeom (sample_bytes f) (w / 2) (h / 2) pv ->
  i420_is S w h fy fu fv ->
  block_ok f [py; pu; pv] (i420_visit (prim_of f) (maxf f) py pu pv S) w h (g420 fy fu fv).
Proof.
  intros f (sy, st) (su, ut) (sv, vt) w h S fy fu fv Kf GY GU GV IS vi q X Y V I.
  destruct (IS vi q X Y V I) as (y00 & y01 & y10 & y11 & u & v & E & A & B & C & D). destruct I as (HX & HY).
  pose proof (vs_len _ _ V) as HL. pose proof (psize_pos (prim_of f)) as HP. rewrite <- psize_of in *.
  pose proof (half_cols _ _ _ HX) as HX2. pose proof (half_rows _ _ HY) as HY2.
  destruct (geom_rows _ _ _ _ _ (2 * Y + 1) (2 * X) (2 * vi_len vi) GY) as (Y1 & Y2 & Y3); [lia..|].
  destruct (geom_rows _ _ _ _ _ Y X (vi_len vi) GU) as (U1 & U2 & U3); [lia..|].
  destruct (geom_rows _ _ _ _ _ Y X (vi_len vi) GV) as (V1 & V2 & V3); [lia..|].
  assert (2 * Y + 1 <= (2 * Y + 1) * st) by (apply le_mul; nia).
  unfold i420_visit. rewrite E. cbn [obind]. rewrite !div2X. wsteps V.
  eexists. split; [reflexivity|].
  assert (QQ : forall x, quantise q f x = qp q (prim_of f) (fmul x (maxf f))) by (intros; apply quantise_qp; kinds Kf; discriminate).
  replace (block_rows f (vi_len vi) X Y) with (block_rows I420 (vi_len vi) X Y) by (kinds Kf; reflexivity).
  assert (UL : unlayout f = unlayout I420) by (kinds Kf; reflexivity).
  cbn [block_rows].
  repeat constructor; [eapply (row2 _ vi q)|eapply (row2 _ vi q)|eapply (row1 _ vi q)|eapply (row1 _ vi q)]; eauto; try reflexivity; try lia;
    intros k Hk; unfold stored; rewrite UL; cbn [unlayout]; rewrite QQ; cbn [g420]; rewrite ?div2X, ?vmulf_stream, ?vmulf_lane.
  - rewrite A by assumption. reflexivity.
  - rewrite B by assumption. reflexivity.
  - rewrite C by assumption. reflexivity.
  - rewrite D by assumption. reflexivity.
Qed.

Lemma i422_block : forall f py pu pv w h S fy fu fv,
  kind_of f = KI422 ->
  pgeom (sample_bytes f) w h py -> pgeom (sample_bytes f) (w / 2) h pu -> pgeom (sample_bytes f) (w / 2) h pv ->
  i422_is S w h fy fu fv ->
  block_ok f [py; pu; pv] (i422_visit (prim_of f) (maxf f) py pu pv S) w h (g422 fy fu fv).
Proof.
  intros f (sy, st) (su, ut) (sv, vt) w h S fy fu fv Kf GY GU GV IS vi q X Y V I.
  destruct (IS vi q X Y V I) as (y00 & y01 & y10 & y11 & u0 & u1 & v0 & v1 & E & A & B & C0 & C1 & D0 & D1). destruct I as (HX & HY).
  pose proof (vs_len _ _ V) as HL. pose proof (psize_pos (prim_of f)) as HP. rewrite <- psize_of in *.
  pose proof (half_cols _ _ _ HX) as HX2.
  destruct (geom_rows _ _ _ _ _ (2 * Y + 1) (2 * X) (2 * vi_len vi) GY) as (Y1 & Y2 & Y3); [lia..|].
  destruct (geom_rows _ _ _ _ _ (2 * Y + 1) X (vi_len vi) GU) as (U1 & U2 & U3); [lia..|].
  destruct (geom_rows _ _ _ _ _ (2 * Y + 1) X (vi_len vi) GV) as (V1 & V2 & V3); [lia..|].
  assert (2 * Y + 1 <= (2 * Y + 1) * st) by (apply le_mul; nia).
  unfold i422_visit. rewrite E. cbn [obind]. rewrite !div2X. wsteps V.
  eexists. split; [reflexivity|].
  assert (QQ : forall x, quantise q f x = qp q (prim_of f) (fmul x (maxf f))) by (intros; apply quantise_qp; kinds Kf; discriminate).
  replace (block_rows f (vi_len vi) X Y) with (block_rows I422 (vi_len vi) X Y) by (kinds Kf; reflexivity).
  assert (UL : unlayout f = unlayout I422) by (kinds Kf; reflexivity).
  cbn [block_rows].
  repeat constructor; [eapply (row2 _ vi q)|eapply (row2 _ vi q)|eapply (row1 _ vi q)..]; eauto; try reflexivity; try lia;
    intros k Hk; unfold stored; rewrite UL; cbn [unlayout]; rewrite QQ; cbn [g422]; rewrite ?div2X, ?vmulf_stream, ?vmulf_lane.
  - rewrite A by assumption. reflexivity.
  - rewrite B by assumption. reflexivity.
  - rewrite C0 by assumption. reflexivity.
  - rewrite C1 by assumption. reflexivity.
  - rewrite D0 by assumption. reflexivity.
  - rewrite D1 by assumption. reflexivity.
Qed.

Lemma i444_block : forall f py pu pv w h S fy fu fv,
  kind_of f = KI444 ->
  pgeom (sample_bytes f) w h py -> pgeom (sample_bytes f) w h pu -> pgeom (sample_bytes f) w h pv ->
  i444_is S w h fy fu fv ->
  block_ok f [py; pu; pv] (i444_visit (prim_of f) (maxf f) py pu pv S) w h (g444 fy fu fv).
Proof.
  intros f (sy, st) (su, ut) (sv, vt) w h S fy fu fv Kf GY GU GV IS vi q X Y V I.
  destruct (IS vi q X Y V I) as (y00 & u00 & v00 & y01 & u01 & v01 & y10 & u10 & v10 & y11 & u11 & v11 & E & A).
  destruct I as (HX & HY).
  pose proof (vs_len _ _ V) as HL. pose proof (psize_pos (prim_of f)) as HP. rewrite <- psize_of in *.
  destruct (geom_rows _ _ _ _ _ (2 * Y + 1) (2 * X) (2 * vi_len vi) GY) as (Y1 & Y2 & Y3); [lia..|].
  destruct (geom_rows _ _ _ _ _ (2 * Y + 1) (2 * X) (2 * vi_len vi) GU) as (U1 & U2 & U3); [lia..|].
  destruct (geom_rows _ _ _ _ _ (2 * Y + 1) (2 * X) (2 * vi_len vi) GV) as (V1 & V2 & V3); [lia..|].
  assert (2 * Y + 1 <= (2 * Y + 1) * st) by (apply le_mul; nia).
  unfold i444_visit. rewrite E. cbn [obind p4_y p4_u p4_v]. wsteps V.
  eexists. split; [reflexivity|].
  assert (QQ : forall x, quantise q f x = qp q (prim_of f) (fmul x (maxf f))) by (intros; apply quantise_qp; kinds Kf; discriminate).
  replace (block_rows f (vi_len vi) X Y) with (block_rows I444 (vi_len vi) X Y) by (kinds Kf; reflexivity).
  assert (UL : unlayout f = unlayout I444) by (kinds Kf; reflexivity).
  cbn [block_rows].
  repeat constructor; eapply (row2 _ vi q); eauto; try reflexivity; try lia;
    intros k Hk; unfold stored; rewrite UL; cbn [unlayout]; rewrite QQ; cbn [g444]; rewrite ?vmulf_stream;
    destruct (A k Hk) as (A1 & A2 & A3 & A4 & A5 & A6); rewrite ?A1, ?A2, ?A3, ?A4, ?A5, ?A6; reflexivity.
Qed.

Lemma even_add2 : forall X k, Nat.even (2 * X + k) = Nat.even k.
Proof. intros. rewrite Nat.even_add, Nat.even_mul. cbn. destruct (Nat.even k); reflexivity. Qed.
Lemma add2_half : forall X k, (2 * X + k) / 2 = X + k / 2.
Proof. intros. rewrite Nat.mul_comm, Nat.add_comm, Nat.div_add by lia. lia. Qed.

Lemma nv12_block : forall f py puv w h S fy fu fv,
  kind_of f = KNV12 ->
  pgeom (sample_bytes f) w h py -> pgeom (sample_bytes f) w (h / 2) puv ->
  i420_is S w h fy fu fv ->
  block_ok f [py; puv] (nv12_visit (prim_of f) (maxf f) py puv S) w h (g420 fy fu fv).
Proof.
  intros f (sy, st) (su, ut) w h S fy fu fv Kf GY GU IS vi q X Y V I.
  destruct (IS vi q X Y V I) as (y00 & y01 & y10 & y11 & u & v & E & A & B & C & D). destruct I as (HX & HY).
  pose proof (vs_len _ _ V) as HL. pose proof (psize_pos (prim_of f)) as HP. rewrite <- psize_of in *.
  pose proof (half_rows _ _ HY) as HY2.
  destruct (geom_rows _ _ _ _ _ (2 * Y + 1) (2 * X) (2 * vi_len vi) GY) as (Y1 & Y2 & Y3); [lia..|].
  destruct (geom_rows _ _ _ _ _ Y (2 * X) (2 * vi_len vi) GU) as (U1 & U2 & U3); [lia..|].
  assert (2 * Y + 1 <= (2 * Y + 1) * st) by (apply le_mul; nia).
  unfold nv12_visit. rewrite E. cbn [obind]. rewrite !div2X. wsteps V.
  pose proof (vs_zip _ _ V (vmulf (VO := vec_ops vi) u (maxf f)) (vmulf (VO := vec_ops vi) v (maxf f))) as Z.
  cbn [vzip vec_ops]. destruct (vi_zip vi _ _) as (uv0, uv1). wsteps V.
  eexists. split; [reflexivity|].
  assert (QQ : forall x, quantise q f x = qp q (prim_of f) (fmul x (maxf f))) by (intros; apply quantise_qp; kinds Kf; discriminate).
  replace (block_rows f (vi_len vi) X Y) with (block_rows NV12 (vi_len vi) X Y) by (kinds Kf; reflexivity).
  assert (UL : unlayout f = unlayout NV12) by (kinds Kf; reflexivity).
  cbn [block_rows].
  repeat constructor; eapply (row2 _ vi q); eauto; try reflexivity; try lia;
    intros k Hk; unfold stored; rewrite UL; cbn [unlayout]; rewrite QQ; rewrite ?vmulf_stream.
  - cbn [g420]. rewrite A by assumption. reflexivity.
  - cbn [g420]. rewrite B by assumption. reflexivity.
  - rewrite Z by assumption. rewrite even_add2, add2_half.
    assert (k / 2 < vi_len vi) by (apply Nat.div_lt_upper_bound; lia).
    destruct (Nat.even k); cbn [g420]; rewrite !div2X, vmulf_lane.
    + rewrite C by assumption. reflexivity.
    + rewrite D by assumption. reflexivity.
Qed.

Lemma yuyv_block : forall f pl w h S fy fu fv,
  kind_of f = KYUYV ->
  pgeom (sample_bytes f) (w * 2) h pl ->
  i422_is S w h fy fu fv ->
  block_ok f [pl] (yuyv_visit (prim_of f) (maxf f) pl S) w h (g422 fy fu fv).
Proof.
  intros f (s, st) w h S fy fu fv Kf G IS vi q X Y V I.
  destruct (IS vi q X Y V I) as (y00 & y01 & y10 & y11 & u0 & u1 & v0 & v1 & E & A & B & C0 & C1 & D0 & D1).
  destruct I as (HX & HY).
  pose proof (vs_len _ _ V) as HL. pose proof (psize_pos (prim_of f)) as HP. rewrite <- psize_of in *.
  destruct (geom_rows _ _ _ _ _ (2 * Y + 1) (4 * X) (4 * vi_len vi) G) as (Y1 & Y2 & Y3); [lia..|].
  assert (2 * Y + 1 <= (2 * Y + 1) * st) by (apply le_mul; nia).
  unfold yuyv_visit. rewrite E. cbn [obind]. wsteps V. cbn [vzip vec_ops].
  set (n := vi_len vi) in *. set (mx := maxf f).
  pose proof (vs_zip _ _ V (vmulf (VO := vec_ops vi) u0 mx) (vmulf (VO := vec_ops vi) v0 mx)) as Z0.
  pose proof (vs_zip _ _ V (vmulf (VO := vec_ops vi) u1 mx) (vmulf (VO := vec_ops vi) v1 mx)) as Z1.
  destruct (vi_zip vi (vmulf u0 mx) _) as (uv00, uv01). destruct (vi_zip vi (vmulf u1 mx) _) as (uv10, uv11).
  unfold write_yuyv. cbn [vzip vec_ops].
  pose proof (vs_zip _ _ V (vmulf (VO := vec_ops vi) y00 mx) uv00) as W0.
  pose proof (vs_zip _ _ V (vmulf (VO := vec_ops vi) y01 mx) uv01) as W1.
  pose proof (vs_zip _ _ V (vmulf (VO := vec_ops vi) y10 mx) uv10) as W2.
  pose proof (vs_zip _ _ V (vmulf (VO := vec_ops vi) y11 mx) uv11) as W3.
  destruct (vi_zip vi (vmulf y00 mx) _) as (a0, b0). destruct (vi_zip vi (vmulf y01 mx) _) as (a1, b1).
  destruct (vi_zip vi (vmulf y10 mx) _) as (a2, b2). destruct (vi_zip vi (vmulf y11 mx) _) as (a3, b3).
  fold n in Z0, Z1, W0, W1, W2, W3. fold n.
  wsteps V.
  eexists. split; [reflexivity|].
  assert (QQ : forall x, quantise q f x = qp q (prim_of f) (fmul x mx)) by (intros; apply quantise_qp; kinds Kf; discriminate).
  replace (block_rows f n X Y) with (block_rows YUYV n X Y) by (kinds Kf; reflexivity).
  assert (UL : unlayout f = unlayout YUYV) by (kinds Kf; reflexivity).
  (* luma and chroma of pixel [j] of a row, found in lane [k] of half [o] *)
  assert (E4 : forall j, (4 * X + j) / 2 = 2 * X + j / 2).
  { intros. replace (4 * X + j) with (2 * (2 * X) + j) by lia. apply add2_half. }
  assert (E44 : forall j, (4 * X + j) / 4 = X + j / 4).
  { intros. rewrite Nat.mul_comm, Nat.add_comm, Nat.div_add by lia. lia. }
  assert (E22 : forall j, j / 4 = j / 2 / 2) by (intros; rewrite Nat.div_div by lia; reflexivity).
  assert (EE : forall j, Nat.even (4 * X + j) = Nat.even j).
  { intros. replace (4 * X + j) with (2 * (2 * X) + j) by lia. apply even_add2. }
  assert (ROW : forall (y0 y1 u v uv0 uv1 : vec) (r : nat),
    (forall k, k < 2 * n -> stream n (y0, y1) k = fy vi (2 * X + k) r) ->
    (forall k, k < n -> u k = fu vi (X + k) r) -> (forall k, k < n -> v k = fv vi (X + k) r) ->
    (forall k, k < 2 * n -> stream n (uv0, uv1) k
       = (if Nat.even k then vmulf (VO := vec_ops vi) u mx else vmulf (VO := vec_ops vi) v mx) (k / 2)) ->
    forall j, j < 4 * n ->
    qp q (prim_of f) (if Nat.even j then stream n (vmulf (VO := vec_ops vi) y0 mx, vmulf (VO := vec_ops vi) y1 mx) (j / 2)
                      else stream n (uv0, uv1) (j / 2))
    = stored q f (g422 fy fu fv vi X) 0 r (4 * X + j)).
  { intros y0 y1 u v uv0 uv1 r H1 H2 H3 H4 j Hj. unfold stored. rewrite UL. cbn [unlayout].
    rewrite EE, E4, E44, even_add2, E22.
    assert (j / 2 < 2 * n) by (apply Nat.div_lt_upper_bound; lia).
    assert (j / 2 / 2 < n) by (apply Nat.div_lt_upper_bound; lia).
    destruct (Nat.even j); rewrite QQ.
    - rewrite vmulf_stream, H1 by assumption. reflexivity.
    - rewrite H4 by assumption. destruct (Nat.even (j / 2)); cbn [g422]; rewrite div2X, vmulf_lane, ?H2, ?H3 by assumption; reflexivity. }
  assert (HI : forall k, Nat.even (2 * n + k) = Nat.even k) by (intros; apply even_add2).
  assert (HJ : forall k, (2 * n + k) / 2 = n + k / 2) by (intros; apply add2_half).
  cbn [block_rows]. unfold n in *.
  repeat constructor; eapply (row2 _ vi q); eauto; try reflexivity; try nia; fold n;
    intros k Hk; (assert (HK2 : k / 2 < n) by (apply Nat.div_lt_upper_bound; unfold n in *; lia)).
  - rewrite W0 by assumption. rewrite <- (ROW y00 y01 u0 v0 uv00 uv01) by (first [assumption | lia]).
    rewrite !stream_left by assumption. destruct (Nat.even k); reflexivity.
  - rewrite W1 by assumption. rewrite <- Nat.add_assoc. rewrite <- (ROW y00 y01 u0 v0 uv00 uv01) by (first [assumption | lia]).
    rewrite HI, HJ, !stream_right. destruct (Nat.even k); reflexivity.
  - rewrite W2 by assumption. rewrite <- (ROW y10 y11 u1 v1 uv10 uv11) by (first [assumption | lia]).
    rewrite !stream_left by assumption. destruct (Nat.even k); reflexivity.
  - rewrite W3 by assumption. rewrite <- Nat.add_assoc. rewrite <- (ROW y10 y11 u1 v1 uv10 uv11) by (first [assumption | lia]).
    rewrite HI, HJ, !stream_right. destruct (Nat.even k); reflexivity.
Qed.

Lemma row4 : forall vi q pls val p r c off s st v, vector_spec vi q ->
  nth_error pls p = Some (s, st) -> off = r * st + c ->
  off + 8 * vi_len vi <= s_len s ->
  (forall k j, k < 2 * vi_len vi -> j < 4 -> q_u8i q (ch4 (vi_len vi) v j k) = val p r (c + (4 * k + j))) ->
  row_ev 1 pls val (p, r, c, 8 * vi_len vi) (Wev (s_buf s) (s_off s + off) (vi_write_u8_4x vi v)).
Proof.
  intros vi q pls val p r c off s st v S N -> B V. exists (s, st). cbn [fst snd w_buf w_off w_bytes].
  rewrite (vs_write_4x_len _ _ S). repeat split; auto; try lia.
  { rewrite (vs_write_4x_len _ _ S). lia. }
  intros k j Hk Hj. assert (j = 0) as -> by lia.
  pose proof (Nat.div_mod k 4 ltac:(lia)) as DM. pose proof (Nat.mod_upper_bound k 4 ltac:(lia)) as MB.
  assert (HK : k / 4 < 2 * vi_len vi) by (apply Nat.div_lt_upper_bound; lia).
  replace (k * 1 + 0) with (4 * (k / 4) + k mod 4) by lia.
  pose proof (vs_write_4x _ _ S v _ _ HK MB) as E. unfold byte_at in E. rewrite E, V by assumption.
  rewrite <- DM. symmetry. apply byte_of_0. rewrite DM. rewrite <- V by assumption. apply (vs_q_u8i _ _ S).
Qed.

Lemma row3 : forall vi q pls val p r c off s st v, vector_spec vi q ->
  nth_error pls p = Some (s, st) -> off = r * st + c ->
  off + 6 * vi_len vi <= s_len s ->
  (forall k j, k < 2 * vi_len vi -> j < 3 -> q_u8i q (ch3 (vi_len vi) v j k) = val p r (c + (3 * k + j))) ->
  row_ev 1 pls val (p, r, c, 6 * vi_len vi) (Wev (s_buf s) (s_off s + off) (vi_write_u8_3x vi v)).
Proof.
  intros vi q pls val p r c off s st v S N -> B V. exists (s, st). cbn [fst snd w_buf w_off w_bytes].
  rewrite (vs_write_3x_len _ _ S). repeat split; auto; try lia.
  { rewrite (vs_write_3x_len _ _ S). lia. }
  intros k j Hk Hj. assert (j = 0) as -> by lia.
  pose proof (Nat.div_mod k 3 ltac:(lia)) as DM. pose proof (Nat.mod_upper_bound k 3 ltac:(lia)) as MB.
  assert (HK : k / 3 < 2 * vi_len vi) by (apply Nat.div_lt_upper_bound; lia).
  replace (k * 1 + 0) with (3 * (k / 3) + k mod 3) by lia.
  pose proof (vs_write_3x _ _ S v _ _ HK MB) as E. unfold byte_at in E. rewrite E, V by assumption.
  rewrite <- DM. symmetry. apply byte_of_0. rewrite DM. rewrite <- V by assumption. apply (vs_q_u8i _ _ S).
Qed.

Lemma mulmod_split : forall a x j, 0 < a -> j < a -> (a * x + j) mod a = j /\ (a * x + j) / a = x.
Proof.
  intros a x j Ha Hj. rewrite Nat.mul_comm, (Nat.add_comm (x * a)). split.
  - rewrite Nat.mod_add by lia. apply Nat.mod_small; assumption.
  - rewrite Nat.div_add by lia. rewrite Nat.div_small by assumption. reflexivity.
Qed.

Lemma rgba_block_ok : forall f pl w h S pix rev,
  kind_of f = KRGBA rev ->
  pgeom (sample_bytes f) (w * 4) h pl ->
  rgba_is S w h pix ->
  block_ok f [pl] (rgba_visit rev (maxf f) pl S) w h (grgb pix).
Proof.
  intros f (s, st) w h S pix rev Kf G IS vi q X Y V I.
  destruct (IS vi q X Y V I) as (p00 & p01 & p10 & p11 & E & A).
  destruct I as (HX & HY).
  pose proof (vs_len _ _ V) as HL.
  assert (SB : sample_bytes f = 1) by (kinds Kf; reflexivity). rewrite SB in *.
  destruct (geom_rows _ _ _ _ _ (2 * Y + 1) (8 * X) (8 * vi_len vi) G) as (Y1 & Y2 & Y3); [lia..|].
  assert (2 * Y + 1 <= (2 * Y + 1) * st) by (apply le_mul; nia).
  unfold rgba_visit. rewrite E. cbn [obind psize px00 px01 px10 px11]. wsteps V.
  rewrite !(write_4x_ok vi q) by (first [assumption | lia]). cbn [run_all app].
  eexists. split; [reflexivity|].
  assert (QQ : forall x, quantise q f x = q_u8i q (fmul x (maxf f))) by (intros; apply quantise_rgb; kinds Kf; reflexivity).
  replace (block_rows f (vi_len vi) X Y) with (block_rows RGBA (vi_len vi) X Y) by (kinds Kf; reflexivity).
  cbn [block_rows].
  assert (ROW : forall r p0 p1, (forall k, k < 2 * vi_len vi -> pxs (vi_len vi) p0 p1 k = pix vi (2 * X + k) r) ->
    forall k j, k < 2 * vi_len vi -> j < 4 ->
    q_u8i q (ch4 (vi_len vi) (rgba_multiply_and_reverse rev vi p0 (maxf f), rgba_multiply_and_reverse rev vi p1 (maxf f)) j k)
      = stored q f (grgb pix vi X) 0 r (8 * X + (4 * k + j))).
  { intros r p0 p1 H0 k j Hk Hj. specialize (H0 k Hk). unfold stored.
    replace (8 * X + (4 * k + j)) with (4 * (2 * X + k) + j) by lia.
    destruct (mulmod_split 4 (2 * X + k) j) as [M D]; [lia..|].
    assert (C : q_u8i q (ch4 (vi_len vi) (rgba_multiply_and_reverse rev vi p0 (maxf f), rgba_multiply_and_reverse rev vi p1 (maxf f)) j k)
      = q_u8i q (fmul (grgb pix vi X (match j with 0 => if rev then CB else CR | 1 => CG | 2 => if rev then CR else CB | _ => CA end) (2 * X + k) r) (maxf f))).
    { unfold pxs in H0. unfold grgb, rgba_multiply_and_reverse.
      destruct j as [|[|[|[|]]]]; [..|lia]; destruct rev; cbn [ch4 fst snd]; rewrite vmulf_stream, <- H0; reflexivity. }
    rewrite C. clear - M D QQ Kf Hj.
    destruct f; cbn in Kf; try discriminate Kf; injection Kf as <-; cbn [unlayout]; rewrite M, D;
      destruct j as [|[|[|[|]]]]; try lia; rewrite QQ; reflexivity. }
  repeat constructor; eapply (row4 vi q); eauto; try reflexivity; try lia;
    apply ROW; intros k Hk; apply A; assumption.
Qed.

Lemma rgb_block_ok : forall f pl w h S pix rev,
  kind_of f = KRGB rev ->
  pgeom (sample_bytes f) (w * 3) h pl ->
  rgba_is S w h pix ->
  block_ok f [pl] (rgb_visit rev (maxf f) pl S) w h (grgb pix).
Proof.
  intros f (s, st) w h S pix rev Kf G IS vi q X Y V I.
  destruct (IS vi q X Y V I) as (p00 & p01 & p10 & p11 & E & A).
  destruct I as (HX & HY).
  pose proof (vs_len _ _ V) as HL.
  assert (SB : sample_bytes f = 1) by (kinds Kf; reflexivity). rewrite SB in *.
  destruct (geom_rows _ _ _ _ _ (2 * Y + 1) (6 * X) (6 * vi_len vi) G) as (Y1 & Y2 & Y3); [lia..|].
  assert (2 * Y + 1 <= (2 * Y + 1) * st) by (apply le_mul; nia).
  unfold rgb_visit. rewrite E. cbn [obind psize px00 px01 px10 px11]. wsteps V.
  rewrite !(write_3x_ok vi q) by (first [assumption | lia]). cbn [run_all app].
  eexists. split; [reflexivity|].
  assert (QQ : forall x, quantise q f x = q_u8i q (fmul x (maxf f))) by (intros; apply quantise_rgb; kinds Kf; reflexivity).
  replace (block_rows f (vi_len vi) X Y) with (block_rows RGB (vi_len vi) X Y) by (kinds Kf; reflexivity).
  cbn [block_rows].
  assert (ROW : forall r p0 p1, (forall k, k < 2 * vi_len vi -> pxs (vi_len vi) p0 p1 k = pix vi (2 * X + k) r) ->
    forall k j, k < 2 * vi_len vi -> j < 3 ->
    q_u8i q (ch3 (vi_len vi) (rgb_multiply_and_reverse rev vi p0 (maxf f), rgb_multiply_and_reverse rev vi p1 (maxf f)) j k)
      = stored q f (grgb pix vi X) 0 r (6 * X + (3 * k + j))).
  { intros r p0 p1 H0 k j Hk Hj. specialize (H0 k Hk). unfold stored.
    replace (6 * X + (3 * k + j)) with (3 * (2 * X + k) + j) by lia.
    destruct (mulmod_split 3 (2 * X + k) j) as [M D]; [lia..|].
    assert (C : q_u8i q (ch3 (vi_len vi) (rgb_multiply_and_reverse rev vi p0 (maxf f), rgb_multiply_and_reverse rev vi p1 (maxf f)) j k)
      = q_u8i q (fmul (grgb pix vi X (match j with 0 => if rev then CB else CR | 1 => CG | _ => if rev then CR else CB end) (2 * X + k) r) (maxf f))).
    { unfold pxs in H0. unfold grgb, rgb_multiply_and_reverse.
      destruct j as [|[|[|]]]; [..|lia]; destruct rev; cbn [ch3 fst snd]; rewrite vmulf_stream, <- H0; reflexivity. }
    rewrite C. clear - M D QQ Kf Hj.
    destruct f; cbn in Kf; try discriminate Kf; injection Kf as <-; cbn [unlayout]; rewrite M, D;
      destruct j as [|[|[|]]]; try lia; rewrite QQ; reflexivity. }
  repeat constructor; eapply (row3 vi q); eauto; try reflexivity; try lia;
    apply ROW; intros k Hk; apply A; assumption.
Qed.
