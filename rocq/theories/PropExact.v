(** C30 - C33, C37: the color code over exact arithmetic. *)

From Coq Require Import List ZArith Bool Reals Lia Lra Psatz.
From Verif Require Import Types F32 Vector Color ColorR SpecColor SpecReal.
Import ListNotations.
From Flocq Require Import Core.
Local Open Scope R_scope.

(** The code of src/color, computing with real numbers *)
Definition to_yuv (s : color_space) (t : color_transfer) (p : color_primaries) (r g b : R) : R * R * R :=
  rgb_to_yuv (F := R) (V := R) (M := bool) s t (rgb_to_xyz_mat p) r g b.
Definition to_rgb (s : color_space) (t : color_transfer) (p : color_primaries) (y u v : R) : R * R * R :=
  yuv_to_rgb (F := R) (V := R) (M := bool) s t (xyz_to_rgb_mat p) y u v.

Lemma triple_eq : forall a b c a' b' c' : R, a = a' -> b = b' -> c = c' -> (a, b, c) = (a', b', c').
Proof. intros; subst; reflexivity. Qed.

Ltac lits :=
  unfold R_lit;
  repeat match goal with
  | |- context [IZR (10 ^ ?k)] => let v := eval vm_compute in (10 ^ k)%Z in change (10 ^ k)%Z with v
  | H : context [IZR (10 ^ ?k)] |- _ => let v := eval vm_compute in (10 ^ k)%Z in change (10 ^ k)%Z with v in H
  end.

Ltac run_color :=
  cbv [to_yuv to_rgb rgb_to_yuv yuv_to_rgb convert_rgb_to_yuv_matrix convert_yuv_to_rgb_matrix
       BT601_RGB_TO_YUV BT709_RGB_TO_YUV BT2020_RGB_TO_YUV BT601_YUV_TO_RGB BT709_YUV_TO_RGB BT2020_YUV_TO_RGB
       mk_rgb_to_yuv mk_yuv_to_rgb mk_mat nth iY iU iV iR iG iB lit0 lit1 lit2 lit_half
       vadd vmul splat vmulf R_vops lane_vops fadd fsub fmul fdiv fneg flit R_ops]; lits.

(** * C30, C31, C32 *)

(** The code computes what the standards define. *)
Theorem C30_matrix_formula : forall s k t p, weights_of s = Some k -> s <> SpBT2020 ->
  (forall r g b, to_yuv s t p r g b = (luma k r g b, cb k r g b, cr k r g b)) /\
  (forall y u v, to_rgb s t p y u v = (red k y u v, green k y u v, blue k y u v)).
Proof.
  intros s k t p W N. split; intros; destruct s; cbn in W; try discriminate W; injection W as <-; try congruence;
    run_color; unfold cb, cr, green, red, blue, luma, bt601, bt709, w_g; cbn [w_r w_b]; apply triple_eq; field.
Qed.
Print Assumptions C30_matrix_formula.

(** Both directions undo each other, for BT.601 and BT.709. *)
Theorem C30_inverse : forall s t p, s = SpBT601 \/ s = SpBT709 ->
  (forall r g b, let '(y, u, v) := to_yuv s t p r g b in to_rgb s t p y u v = (r, g, b)) /\
  (forall y u v, let '(r, g, b) := to_rgb s t p y u v in to_yuv s t p r g b = (y, u, v)).
Proof.
  intros s t p [-> | ->]; split; intros; run_color; apply triple_eq; field.
Qed.
Print Assumptions C30_inverse.

Example C30_example : to_yuv SpBT601 TLinear PrBT709 1 0 0 = (299 / 1000, - (299 / 1772), 1 / 2).
Proof. run_color; apply triple_eq; field. Qed.

(** Not so for BT.2020: the matrix has 0.322 instead of 0.678 for green.  White
    does not come back, and it is far from neutral. *)
Theorem C30_refuted : forall t p,
  exists r g b, let '(y, u, v) := to_yuv SpBT2020 t p r g b in to_rgb SpBT2020 t p y u v <> (r, g, b).
Proof.
  intros t p. exists 1, 1, 1. run_color. intros H. injection H as _ H _. lra.
Qed.
Print Assumptions C30_refuted.

(** The matrix of Recommendation BT.2020 is not what the code uses, for any
    color with green. *)
Theorem C30_bt2020_formula : forall t p r g b,
  let '(y, _, _) := to_yuv SpBT2020 t p r g b in y = luma bt2020 r g b - 356 / 1000 * g.
Proof. intros. run_color. unfold luma, bt2020, w_g; cbn [w_r w_b]. field. Qed.
Print Assumptions C30_bt2020_formula.

(** Gray is neutral in BT.601 and BT.709. *)
Theorem C31_gray_neutral : forall s t p x, s = SpBT601 \/ s = SpBT709 -> to_yuv s t p x x x = (x, 0, 0).
Proof. intros s t p x [-> | ->]; run_color; apply triple_eq; field. Qed.
Print Assumptions C31_gray_neutral.

Theorem C31_neutral_gray : forall s t p y, s = SpBT601 \/ s = SpBT709 -> to_rgb s t p y 0 0 = (y, y, y).
Proof. intros s t p x [-> | ->]; run_color; apply triple_eq; field. Qed.
Print Assumptions C31_neutral_gray.

Example C31_example : to_yuv SpBT709 TSRGB PrBT709 (1 / 2) (1 / 2) (1 / 2) = (1 / 2, 0, 0).
Proof. apply C31_gray_neutral; auto. Qed.

(** In BT.2020 no gray but black is neutral: its luma is 0.644 of what it
    should be, and the chroma is off by up to 0.24. *)
Theorem C31_refuted : forall t p x, x <> 0 ->
  let '(y, u, v) := to_yuv SpBT2020 t p x x x in y = 644 / 1000 * x /\ u <> 0 /\ v <> 0.
Proof.
  intros t p x H. run_color. split; [field|].
  split; intros E; apply H.
  - replace x with (IZR 0 + x) by ring. revert E. intros E.
    match type of E with ?l = _ => replace l with (x * (1780 / 9407)) in E by field end. lra.
  - match type of E with ?l = _ => replace l with (x * (1780 / 7373)) in E by field end. lra.
Qed.
Print Assumptions C31_refuted.

(** Colors of the unit cube stay in range, also in the code's BT.2020. *)
Theorem C32_range : forall s t p r g b, s = SpBT601 \/ s = SpBT709 \/ s = SpBT2020 ->
  0 <= r <= 1 -> 0 <= g <= 1 -> 0 <= b <= 1 ->
  let '(y, u, v) := to_yuv s t p r g b in
  0 <= y <= 1 /\ - (1 / 2) <= u <= 1 / 2 /\ - (1 / 2) <= v <= 1 / 2.
Proof. intros s t p r g b [-> |[-> | ->]] HR HG HB; run_color; lra. Qed.
Print Assumptions C32_range.

(** The bounds are attained. *)
Example C32_example : forall t p,
  to_yuv SpBT601 t p 1 1 1 = (1, 0, 0) /\ snd (fst (to_yuv SpBT601 t p 0 0 1)) = 1 / 2 /\ snd (to_yuv SpBT709 t p 0 1 1) = - (1 / 2).
Proof. intros. run_color. cbn [fst snd]. split; [apply triple_eq; field|split; field]. Qed.

(** * C33 *)

(** The formulas of C18 (SpecColor.v), over the reals: encoding is the level of
    the standard divided by full scale. *)
Ltac run_range :=
  cbv [decode_yuv encode_y encode_c expand_y expand_c compress_y compress_c rgb_yuv yuv_rgb weights_to_yuv weights_to_rgb luma_weights dot
       fadd fsub fmul fdiv fneg flit R_ops yc_space yc_full_range yc_transfer yc_primaries]; lits.

Theorem C33_encode_levels : forall i y u,
  encode_y i y = y_level (yc_full_range i) 1 y /\ encode_c i u = c_level (yc_full_range i) 1 u.
Proof.
  intros [t p s full] y u. run_range. unfold y_level, c_level. destruct full; split; field.
Qed.
Print Assumptions C33_encode_levels.

(** Without quantisation, a color survives being encoded and decoded, in full
    and in limited range. *)
Theorem C33_round_trip : forall i r g b, yc_space i = SpBT601 \/ yc_space i = SpBT709 ->
  let '(y, u, v) := rgb_yuv R_lane (yc_space i) (yc_transfer i) (yc_primaries i) (r, g, b) in
  decode_yuv R_lane i (encode_y i y) (encode_c i u) (encode_c i v) = (r, g, b).
Proof.
  intros [t p s full] r g b S. cbn [yc_space] in S. destruct S as [-> | ->]; destruct full; run_range; apply triple_eq; field.
Qed.
Print Assumptions C33_round_trip.

(** ... and so do the samples *)
Theorem C33_levels_round_trip : forall i y u v, yc_space i = SpBT601 \/ yc_space i = SpBT709 ->
  let '(y', u', v') := rgb_yuv R_lane (yc_space i) (yc_transfer i) (yc_primaries i) (decode_yuv R_lane i y u v) in
  (encode_y i y', encode_c i u', encode_c i v') = (y, u, v).
Proof.
  intros [t p s full] y u v S. cbn [yc_space] in S. destruct S as [-> | ->]; destruct full; run_range; apply triple_eq; field.
Qed.
Print Assumptions C33_levels_round_trip.

(** In limited range the encoded colors use exactly the nominal range. *)
Theorem C32_encoded_range : forall i r g b,
  yc_space i = SpBT601 \/ yc_space i = SpBT709 \/ yc_space i = SpBT2020 ->
  0 <= r <= 1 -> 0 <= g <= 1 -> 0 <= b <= 1 ->
  let '(y, u, v) := to_yuv (yc_space i) (yc_transfer i) (yc_primaries i) r g b in
  if yc_full_range i
  then 0 <= encode_y i y <= 1 /\ 0 <= encode_c i u <= 1 /\ 0 <= encode_c i v <= 1
  else 16 / 255 <= encode_y i y <= 235 / 255 /\ 16 / 255 <= encode_c i u <= 240 / 255 /\ 16 / 255 <= encode_c i v <= 240 / 255.
Proof.
  intros i r g b S HR HG HB. pose proof (C32_range (yc_space i) (yc_transfer i) (yc_primaries i) r g b S HR HG HB) as B.
  destruct (to_yuv _ _ _ _ _ _) as [[y u] v]. destruct B as (BY & BU & BV).
  destruct i as [t p s full]. destruct full; run_range; lra.
Qed.
Print Assumptions C32_encoded_range.

(** Limited range: white is 235/255, black 16/255, neutral chroma 128/255. *)
Example C33_example : forall t p s, let i := YuvCI t p s false in
  encode_y i 1 = 235 / 255 /\ encode_y i 0 = 16 / 255 /\ encode_c i 0 = 128 / 255 /\ encode_c i (1 / 2) = 240 / 255.
Proof. intros. unfold i. run_range. repeat split; field. Qed.

(** * C37 *)

(** Linear light from one set of primaries to another, as the conversion does
    it (src/color/primaries.rs) *)
Definition change_primaries (p q : color_primaries) (r g b : R) : R * R * R :=
  let '(x, y, z) := rgb_to_xyz (F := R) (V := R) (M := bool) (rgb_to_xyz_mat p) r g b in
  xyz_to_rgb (F := R) (V := R) (M := bool) (xyz_to_rgb_mat q) x y z.

Ltac run_primaries :=
  cbv [change_primaries rgb_to_xyz xyz_to_rgb rgb_to_xyz_mat xyz_to_rgb_mat
       ST240_RGB_TO_XYZ ST240_XYZ_TO_RGB BT709_RGB_TO_XYZ BT709_XYZ_TO_RGB BT2020_RGB_TO_XYZ BT2020_XYZ_TO_RGB
       mk_mat nth lit0 vadd vmulf vmul splat R_vops lane_vops fadd fmul flit R_ops]; lits.

(** Nothing changes when the primaries are the same, but for the seven digits
    the coefficients are given with. *)
Theorem C37_same_primaries : forall p r g b top,
  Rabs r <= top -> Rabs g <= top -> Rabs b <= top ->
  let '(r', g', b') := change_primaries p p r g b in
  Rabs (r' - r) <= 1 / 100000 * top /\ Rabs (g' - g) <= 1 / 100000 * top /\ Rabs (b' - b) <= 1 / 100000 * top.
Proof.
  intros p r g b top HR HG HB. apply Rabs_le_inv in HR, HG, HB.
  destruct p; run_primaries; repeat split; apply Rabs_le; lra.
Qed.
Print Assumptions C37_same_primaries.

(** The lights of colors within [top] *)
Lemma xyz_bound : forall p r g b top, Rabs r <= top -> Rabs g <= top -> Rabs b <= top ->
  let '(x, y, z) := rgb_to_xyz (F := R) (V := R) (M := bool) (rgb_to_xyz_mat p) r g b in
  Rabs x <= 11 / 10 * top /\ Rabs y <= 11 / 10 * top /\ Rabs z <= 11 / 10 * top.
Proof.
  intros p r g b top HR HG HB. apply Rabs_le_inv in HR, HG, HB. destruct p; run_primaries; repeat split; apply Rabs_le; lra.
Qed.
Lemma xyz_back : forall q x y z top, Rabs x <= 11 / 10 * top -> Rabs y <= 11 / 10 * top -> Rabs z <= 11 / 10 * top ->
  let '(r, g, b) := xyz_to_rgb (F := R) (V := R) (M := bool) (xyz_to_rgb_mat q) x y z in
  let '(x', y', z') := rgb_to_xyz (F := R) (V := R) (M := bool) (rgb_to_xyz_mat q) r g b in
  Rabs (x' - x) <= 1 / 1000000 * top /\ Rabs (y' - y) <= 1 / 1000000 * top /\ Rabs (z' - z) <= 1 / 1000000 * top.
Proof.
  intros q x y z top X Y Z. apply Rabs_le_inv in X, Y, Z. destruct q; run_primaries; repeat split; apply Rabs_le; lra.
Qed.
Lemma rgb_near : forall p r g b,
  let '(x, y, z) := rgb_to_xyz (F := R) (V := R) (M := bool) (rgb_to_xyz_mat p) r g b in
  forall x' y' z' top, Rabs r <= top -> Rabs g <= top -> Rabs b <= top ->
  Rabs (x' - x) <= 1 / 1000000 * top -> Rabs (y' - y) <= 1 / 1000000 * top -> Rabs (z' - z) <= 1 / 1000000 * top ->
  let '(r', g', b') := xyz_to_rgb (F := R) (V := R) (M := bool) (xyz_to_rgb_mat p) x' y' z' in
  Rabs (r' - r) <= 1 / 100000 * top /\ Rabs (g' - g) <= 1 / 100000 * top /\ Rabs (b' - b) <= 1 / 100000 * top.
Proof.
  intros p r g b. destruct p; run_primaries; intros x' y' z' top HR HG HB X Y Z; apply Rabs_le_inv in HR, HG, HB, X, Y, Z;
    repeat split; apply Rabs_le; lra.
Qed.

(** Going to other primaries and back *)
Theorem C37_there_and_back : forall p q r g b top,
  Rabs r <= top -> Rabs g <= top -> Rabs b <= top ->
  let '(r1, g1, b1) := change_primaries p q r g b in
  let '(r', g', b') := change_primaries q p r1 g1 b1 in
  Rabs (r' - r) <= 1 / 100000 * top /\ Rabs (g' - g) <= 1 / 100000 * top /\ Rabs (b' - b) <= 1 / 100000 * top.
Proof.
  intros p q r g b top HR HG HB. unfold change_primaries.
  pose proof (xyz_bound p r g b top HR HG HB) as X. pose proof (rgb_near p r g b) as N.
  destruct (rgb_to_xyz (rgb_to_xyz_mat p) r g b) as [[x y] z]. destruct X as (X & Y & Z).
  pose proof (xyz_back q x y z top X Y Z) as B. destruct (xyz_to_rgb (xyz_to_rgb_mat q) x y z) as [[r1 g1] b1].
  destruct (rgb_to_xyz (rgb_to_xyz_mat q) r1 g1 b1) as [[x' y'] z']. destruct B as (BX & BY & BZ).
  exact (N x' y' z' top HR HG HB BX BY BZ).
Qed.
Print Assumptions C37_there_and_back.

(** White, and every other gray, stays what it is between all primaries. *)
Theorem C37_white : forall p q x, 0 <= x ->
  let '(r', g', b') := change_primaries p q x x x in
  Rabs (r' - x) <= 1 / 100000 * x /\ Rabs (g' - x) <= 1 / 100000 * x /\ Rabs (b' - x) <= 1 / 100000 * x.
Proof.
  intros p q x H. destruct p, q; run_primaries; repeat split; apply Rabs_le; lra.
Qed.
Print Assumptions C37_white.

(** Other colors do change: the red of BT.2020 is outside of BT.709. *)
Example C37_example : let '(r, g, b) := change_primaries PrBT2020 PrBT709 1 0 0 in 1 < r /\ g < 0 /\ b < 0.
Proof. run_primaries. lra. Qed.
