(** C70: the result does not depend on how the samples are packed. *)

From Coq Require Import List ZArith Bool Arith Lia.
From Verif Require Import Base Types Planes ImageM F32 Vector Simd Formats Visit Convert
  SpecGeom SpecVector SpecColor SpecConvert SpecRun GeomProofs SimdProofs ColorProofs VisitProofs ConvertProofs ExecProofs PropConvert PropFidelity.
Import ListNotations.

(** Formats that hold the same samples in another order: RGB, BGR, RGBA and BGRA;
    I420 and NV12; I422 and YUYV *)
Definition same_contents (f g : pixel_format) : Prop := sampling_of f = sampling_of g /\ max_level f = max_level g.

(** Two images that show the same picture: same size, same color information,
    same samples (alpha aside) *)
Definition same_picture (m1 : mem) (im1 : image) (ps1 : list (slice * nat)) (m2 : mem) (im2 : image) (ps2 : list (slice * nat)) : Prop :=
  same_contents (im_format im1) (im_format im2) /\ im_color im1 = im_color im2 /\
  im_width im1 = im_width im2 /\ im_height im1 = im_height im2 /\
  forall c x y, c <> CA -> in_image im1 x y -> given m1 im1 ps1 c x y = given m2 im2 ps2 c x y.

(** The alpha of the pictures, which is 1 where there is none *)
Definition same_alpha (m1 : mem) (im1 : image) (ps1 : list (slice * nat)) (m2 : mem) (im2 : image) (ps2 : list (slice * nat)) : Prop :=
  forall x y, in_image im1 x y -> given m1 im1 ps1 CA x y = given m2 im2 ps2 CA x y.

Lemma quantise_contents : forall q f g v, same_contents f g -> quantise q f v = quantise q g v.
Proof. intros q f g v (S & M). destruct f, g; try discriminate S; try discriminate M; reflexivity. Qed.

Lemma norm_contents : forall m1 m2 f g ps1 ps2 c x y, same_contents f g -> component m1 f ps1 c x y = component m2 g ps2 c x y ->
  norm m1 f ps1 c x y = norm m2 g ps2 c x y.
Proof. intros m1 m2 f g ps1 ps2 c x y (_ & M) E. unfold norm. rewrite E, M. reflexivity. Qed.

Lemma target_contents : forall L n f g color pix X c x y, same_contents f g ->
  code_target L n f color pix X c x y = code_target L n g color pix X c x y.
Proof. intros L n f g color pix X c x y (S & _). unfold code_target, target. rewrite S. reflexivity. Qed.

(** No component but alpha looks at alpha *)
Lemma target_opaque : forall L n f color pix X c x y, c <> CA -> has_comp f c = true ->
  code_target L n f color pix X c x y = code_target L n f color (fun x y => (fst (pix x y), fone)) X c x y.
Proof.
  intros L n f color pix X c x y NA HC. unfold code_target, target, chroma420, yuv_px, has_comp in *.
  destruct (sampling_of f), color as [|i]; destruct c; try discriminate HC; try congruence; reflexivity.
Qed.

Lemma recolored_fst : forall L cs cd p a, fst (recolored L cs cd p) = fst (recolored L cs cd (fst p, a)).
Proof. intros L cs cd p a. unfold recolored. destruct (same_light cs cd); reflexivity. Qed.

Lemma color_info_eqb_eq : forall a b, color_info_eqb a b = true -> a = b.
Proof.
  intros a b H. unfold color_info_eqb in H. destruct (color_info_eq_dec a b); [assumption|discriminate].
Qed.

(** The group of columns a column is in *)
Lemma group_inside : forall b w x, w mod 2 = 0 -> x < w ->
  let n := lanes (column_backend b w x) in
  let X := x / 2 / n * n in X <= x / 2 < X + n /\ 2 * X + 2 * n <= w.
Proof.
  intros b w x E H n X. pose proof (Nat.div_mod x 2 ltac:(lia)) as D. pose proof (Nat.mod_upper_bound x 2 ltac:(lia)) as M.
  pose proof (Nat.div_mod w 2 ltac:(lia)) as Dw. rewrite E in Dw.
  assert (P : 0 < n) by (unfold n; destruct (column_backend b w x); cbn; lia).
  pose proof (Nat.div_mod (x / 2) n ltac:(lia)) as D2. pose proof (Nat.mod_upper_bound (x / 2) n ltac:(lia)) as M2.
  assert (XE : X = n * (x / 2 / n)) by (unfold X; lia). split; [lia|].
  assert (CB : n = lanes b /\ x < vector_columns (lanes b) w \/ n = 1).
  { unfold n, column_backend. destruct (Nat.ltb_spec x (vector_columns (lanes b) w)); [left; auto|right; reflexivity]. }
  destruct CB as [(N & V)|N]; [|rewrite N, Nat.div_1_r in *; lia].
  unfold vector_columns in V. rewrite <- N in V. set (k := x / 2 / n) in *.
  pose proof (Nat.div_mod w (n * 2) ltac:(lia)) as Q. set (j := w / (n * 2)) in *. clearbody j.
  assert (k < j); [|nia]. clear XE. clearbody k. nia.
Qed.

Lemma pictures_agree : forall lm b m1 src1 sps1 dst1 dps1 m2 src2 sps2 dst2 dps2 (alpha : bool),
  converts lm b m1 src1 sps1 dst1 dps1 -> converts lm b m2 src2 sps2 dst2 dps2 ->
  same_picture m1 src1 sps1 m2 src2 sps2 -> (alpha = true -> same_alpha m1 src1 sps1 m2 src2 sps2) ->
  same_contents (im_format dst1) (im_format dst2) -> im_color dst1 = im_color dst2 ->
  same_image_kind src1 dst1 = same_image_kind src2 dst2 ->
  forall c x y, has_comp (im_format dst1) c = true -> has_comp (im_format dst2) c = true -> in_image dst1 x y ->
  (c = CA -> alpha = true) ->
  stored lm b m1 src1 dst1 dps1 c x y = stored lm b m2 src2 dst2 dps2 c x y.
Proof.
  intros lm b m1 src1 sps1 dst1 dps1 m2 src2 sps2 dst2 dps2 alpha C1 C2 (SC & SCO & SW & SH & G) GA DC DCO SK c x y H1 H2 HI AL.
  pose proof (converts_convertible _ _ _ _ _ _ _ C1) as K1. pose proof (converts_convertible _ _ _ _ _ _ _ C2) as K2.
  assert (W : im_width dst2 = im_width dst1) by (rewrite <- (cv_width _ _ _ _ K1), <- (cv_width _ _ _ _ K2); auto).
  assert (H : im_height dst2 = im_height dst1) by (rewrite <- (cv_height _ _ _ _ K1), <- (cv_height _ _ _ _ K2); auto).
  assert (SRC : forall x y, x < im_width dst1 -> y < im_height dst1 -> in_image src1 x y)
    by (intros u v U V; split; [rewrite (cv_width _ _ _ _ K1)|rewrite (cv_height _ _ _ _ K1)]; assumption).
  rewrite (stored_code _ _ _ _ _ _ _ C1 c x y H1 HI), (stored_code _ _ _ _ _ _ _ C2 c x y H2) by (destruct HI; split; lia).
  cbv zeta. rewrite W. set (cb := column_backend b (im_width dst1) x).
  rewrite (quantise_contents _ _ _ _ DC). do 2 f_equal. unfold code_value. rewrite SK.
  assert (CGA : c <> CA \/ alpha = true) by (destruct c; auto; left; discriminate).
  destruct (same_image_kind src2 dst2) eqn:SK2.
  - assert (F1 : im_format src1 = im_format dst1) by (unfold same_image_kind in SK; apply andb_true_iff in SK as [E _]; apply pixel_format_eqb_eq, E).
    assert (F2 : im_format src2 = im_format dst2) by (unfold same_image_kind in SK2; apply andb_true_iff in SK2 as [E _]; apply pixel_format_eqb_eq, E).
    apply norm_contents; [exact DC|]. rewrite <- F1, <- F2. destruct HI.
    destruct CGA as [N|A]; [apply (G c x y N); auto|]. destruct c; try (apply (G _ x y); [discriminate|auto]). apply (GA A x y). auto.
  - rewrite (target_contents _ _ _ _ _ _ _ _ _ _ DC), <- DCO, <- SCO. clear SK SK2.
    set (L := vi_lane (impl_of lm cb)).
    assert (NO : forall c' x' y', (c' <> CA \/ alpha = true) -> x' < im_width dst1 -> y' < im_height dst1 ->
      norm m1 (im_format src1) sps1 c' x' y' = norm m2 (im_format src2) sps2 c' x' y').
    { intros c' x' y' A X' Y'. apply norm_contents; [exact SC|]. destruct A as [A|A]; [apply (G c' x' y' A); auto|].
      destruct c'; try (apply (G _ x' y'); [discriminate|auto]). apply (GA A x' y'). auto. }
    assert (PX : forall x' y', x' < im_width dst1 -> y' < im_height dst1 ->
      fst (source_pixel L m1 (im_format src1) (im_color src1) sps1 x' y') = fst (source_pixel L m2 (im_format src2) (im_color src1) sps2 x' y') /\
      (alpha = true -> source_pixel L m1 (im_format src1) (im_color src1) sps1 x' y' = source_pixel L m2 (im_format src2) (im_color src1) sps2 x' y')).
    { intros x' y' X' Y'. unfold source_pixel. destruct SC as (S & _). rewrite S.
      rewrite !(NO CR x' y'), !(NO CG x' y'), !(NO CB x' y'), !(NO CY x' y'), !(NO CU x' y'), !(NO SpecGeom.CV x' y') by (try (left; discriminate); assumption).
      split; [destruct (sampling_of (im_format src2)), (im_color src1); reflexivity|]. intros A. rewrite (NO CA x' y') by auto. reflexivity. }
    assert (VL : vi_len (impl_of lm cb) = lanes cb) by (destruct cb; reflexivity). rewrite VL.
    pose proof (group_inside b (im_width dst1) x (cv_even_w _ _ _ _ K1) (proj1 HI)) as GI. cbv zeta in GI. fold cb in GI. destruct GI as (X1 & X2).
    destruct CGA as [N|A].
    + rewrite (target_opaque _ _ (im_format dst2) _ (fun x y => recolored L (im_color src1) (im_color dst1) (source_pixel L m1 _ _ _ x y)) _ c x y N H2).
      rewrite (target_opaque _ _ (im_format dst2) _ (fun x y => recolored L (im_color src1) (im_color dst1) (source_pixel L m2 _ _ _ x y)) _ c x y N H2).
      apply (code_target_same _ _ _ _ _ _ (im_width dst1) (im_height dst1)); try apply K1; try apply HI; try assumption.
      intros x' y' X' Y'. rewrite (recolored_fst _ _ _ (source_pixel L m1 _ _ _ _ _) fone), (recolored_fst _ _ _ (source_pixel L m2 _ _ _ _ _) fone).
      rewrite (proj1 (PX x' y' X' Y')). reflexivity.
    + apply (code_target_same _ _ _ _ _ _ (im_width dst1) (im_height dst1)); try apply K1; try apply HI; try assumption.
      intros x' y' X' Y'. rewrite (proj2 (PX x' y' X' Y') A). reflexivity.
Qed.

(** The same picture in two packings gives the same samples in two packings, on
    the same back end.  One exception: where one of the two conversions has the
    same YUV format and color information on both sides, it copies (C20), and
    the other one does not (C23). *)
Theorem C70_packing : forall lm b m1 src1 sps1 dst1 dps1 m2 src2 sps2 dst2 dps2,
  converts lm b m1 src1 sps1 dst1 dps1 -> converts lm b m2 src2 sps2 dst2 dps2 -> bytes_ok m1 -> bytes_ok m2 ->
  same_picture m1 src1 sps1 m2 src2 sps2 -> same_contents (im_format dst1) (im_format dst2) -> im_color dst1 = im_color dst2 ->
  (sampling_of (im_format src1) = SRGB \/ same_image_kind src1 dst1 = same_image_kind src2 dst2) ->
  forall c x y, has_comp (im_format dst1) c = true -> has_comp (im_format dst2) c = true -> in_image dst1 x y ->
  (c = CA -> has_comp (im_format src1) CA = has_comp (im_format src2) CA /\ same_alpha m1 src1 sps1 m2 src2 sps2) ->
  stored lm b m1 src1 dst1 dps1 c x y = stored lm b m2 src2 dst2 dps2 c x y.
Proof.
  intros lm b m1 src1 sps1 dst1 dps1 m2 src2 sps2 dst2 dps2 C1 C2 B1 B2 SP DC DCO SK c x y H1 H2 HI AL.
  assert (CC : same_image_kind src1 dst1 = same_image_kind src2 dst2 \/ same_image_kind src1 dst1 <> same_image_kind src2 dst2)
    by (destruct (same_image_kind src1 dst1), (same_image_kind src2 dst2); auto; right; discriminate).
  destruct CC as [E|NE].
  - apply (pictures_agree lm b m1 src1 sps1 dst1 dps1 m2 src2 sps2 dst2 dps2 (match c with CA => true | _ => false end)); try assumption.
    + intros A. destruct c; try discriminate A. apply AL. reflexivity.
    + intros ->. reflexivity.
  - destruct SK as [SS|]; [|contradiction].
    assert (ES : im_color src1 = im_color dst1).
    { destruct SP as (_ & SCO & _). unfold same_image_kind in NE. rewrite SCO, DCO in *.
      destruct (color_info_eqb (im_color src2) (im_color dst2)) eqn:EC; [|rewrite !andb_false_r in NE; congruence].
      apply color_info_eqb_eq, EC. }
    assert (SD : sampling_of (im_format dst1) = SRGB).
    { destruct (sampling_of (im_format dst1)) eqn:D; try reflexivity; exfalso; apply NE; unfold same_image_kind.
      all: assert (F1 : pixel_format_eqb (im_format src1) (im_format dst1) = false) by (destruct (im_format src1), (im_format dst1); try reflexivity; congruence).
      all: destruct SP as ((S & _) & _); destruct DC as (S' & _).
      all: assert (F2 : pixel_format_eqb (im_format src2) (im_format dst2) = false) by (destruct (im_format src2), (im_format dst2); try reflexivity; congruence).
      all: rewrite F1, F2; reflexivity. }
    destruct SP as ((S & _) & SCO & SW & SH & G). pose proof (converts_convertible _ _ _ _ _ _ _ C1) as K1. pose proof (converts_convertible _ _ _ _ _ _ _ C2) as K2.
    assert (HS : in_image src1 x y) by (destruct HI; split; [rewrite (cv_width _ _ _ _ K1)|rewrite (cv_height _ _ _ _ K1)]; assumption).
    assert (HD : in_image dst2 x y) by (destruct HS; split; [rewrite <- (cv_width _ _ _ _ K2)|rewrite <- (cv_height _ _ _ _ K2)]; lia).
    destruct (C21_rgb_repack_lossless _ _ _ _ _ _ _ C1 B1 SS SD ES x y HI) as (R1 & A1).
    destruct (C21_rgb_repack_lossless _ _ _ _ _ _ _ C2 B2 ltac:(congruence) ltac:(destruct DC as (S' & _); congruence) ltac:(congruence) x y HD) as (R2 & A2).
    destruct c; try (unfold has_comp in H1; rewrite SD in H1; discriminate H1).
    1, 2, 3: match goal with |- stored _ _ _ _ _ _ ?c _ _ = _ => rewrite (proj1 (R1 c ltac:(cbn; auto))), (proj1 (R2 c ltac:(cbn; auto))) end; apply G; [discriminate|exact HS].
    rewrite (A1 H1), (A2 H2). destruct (AL eq_refl) as (-> & A). destruct (has_comp (im_format src2) CA); [apply (A x y HS)|reflexivity].
Qed.
Print Assumptions C70_packing.

(** The same 2 x 2 picture as RGB and as BGRA, converted to I420 and to NV12 *)
Definition pack_mem : mem := fun b i =>
  match b with
  | 0 => ex_mem 0 i
  | _ => if i mod 4 =? 3 then 77%Z else ex_mem 0 (7 * (i / 8) + 3 * (i mod 8 / 4) + (2 - i mod 4))
  end.
Definition bgra_planes : list (slice * nat) := [(Slice 2 0 16, 8)].
Definition bgra_picture : image := ex_image BGRA 2 2 ex_rgb bgra_planes.
Definition nv12_picture : image := ex_image NV12 2 2 ex_yuv nv12_planes.

Example C70_example : forall b,
  converts ex_lm b pack_mem ex_rgb22 ex_rgb_planes (ex_i420 3 ex_yuv) (ex_yuv_planes 3) /\
  converts ex_lm b pack_mem bgra_picture bgra_planes nv12_picture nv12_planes /\
  bytes_ok pack_mem /\ same_picture pack_mem ex_rgb22 ex_rgb_planes pack_mem bgra_picture bgra_planes /\
  same_contents I420 NV12 /\
  map (fun c => stored ex_lm b pack_mem ex_rgb22 (ex_i420 3 ex_yuv) (ex_yuv_planes 3) c 1 1) [CY; CU; SpecGeom.CV]
    = map (fun c => stored ex_lm b pack_mem bgra_picture nv12_picture nv12_planes c 1 1) [CY; CU; SpecGeom.CV].
Proof.
  intros b. split; [ex_converts b|]. split.
  { apply runs; [| |apply nv12_disjoint|discriminate|vm_compute; reflexivity];
      (split; [reflexivity|split; [repeat constructor; cbn; unfold usize; cbn; lia|reflexivity]]). }
  split.
  { intros [|k] i; unfold pack_mem; [apply ex_mem_bytes|]. destruct (_ =? _); [lia|apply ex_mem_bytes]. }
  split; [|split; [split; reflexivity|destruct b; vm_compute; reflexivity]].
  repeat (split; [reflexivity|]). split; [split; reflexivity|]. repeat (split; [reflexivity|]).
  intros c x y N (X & Y). cbn in X, Y. destruct x as [|[|x]], y as [|[|y]]; try lia; destruct c; try reflexivity; congruence.
Qed.

(** The exception: a flat I420 picture is copied to I420, but its luma changes on the way to NV12. *)
Theorem C70_copy_refuted : forall b,
  let m := flat_mem 100 90 160 4 1 in
  converts ex_lm b m (ex_i420 0 ex_yuv) (ex_yuv_planes 0) (ex_i420 1 ex_yuv) (ex_yuv_planes 1) /\
  converts ex_lm b m (ex_i420 0 ex_yuv) (ex_yuv_planes 0) nv12_picture nv12_planes /\
  same_contents I420 NV12 /\
  stored ex_lm b m (ex_i420 0 ex_yuv) (ex_i420 1 ex_yuv) (ex_yuv_planes 1) CY 0 0 = Some 100%Z /\
  stored ex_lm b m (ex_i420 0 ex_yuv) nv12_picture nv12_planes CY 0 0 = Some 99%Z.
Proof.
  intros b m. split; [ex_converts b|]. split.
  { apply runs; [| |apply nv12_disjoint|discriminate|vm_compute; reflexivity];
      (split; [reflexivity|split; [repeat constructor; cbn; unfold usize; cbn; lia|reflexivity]]). }
  split; [split; reflexivity|]. destruct b; vm_compute; split; reflexivity.
Qed.
Print Assumptions C70_copy_refuted.
