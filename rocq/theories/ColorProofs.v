(** The vectorised color conversion computes, in every lane, the formulas of
    SpecColor.v. *)

From Coq Require Import List ZArith Bool Arith Lia.
From Verif Require Import Base Types Planes ImageM F32 Vector SpecVector SpecGeom GeomProofs
  Color SpecColor SpecConvert SpecRun Formats ReadProofs.
Import ListNotations.

(** Lane [k] of three vectors *)
Definition at3 (v : vec * vec * vec) (k : nat) : f32 * f32 * f32 :=
  let '(a, b, c) := v in (a k, b k, c k).
Definition stream3 (n : nat) (p0 p1 : vec * vec * vec) (k : nat) : f32 * f32 * f32 :=
  if k <? n then at3 p0 k else at3 p1 (k - n).

(** The arithmetic is not to be evaluated here. *)
Local Opaque f32_add f32_sub f32_mul f32_div f32_neg f32_sqrt f32_lit.

(** * Single lanes *)

Lemma scaled_to_linear_lane : forall vi t v k,
  scaled_to_linear (VO := vec_ops vi) t v k = eotf (vi_lane vi) t (v k).
Proof. intros vi [] v k; reflexivity. Qed.
Lemma linear_to_scaled_lane : forall vi t v k,
  linear_to_scaled (VO := vec_ops vi) t v k = oetf (vi_lane vi) t (v k).
Proof. intros vi [] v k; reflexivity. Qed.
Lemma rgb_to_xyz_lane : forall vi p r g b k,
  at3 (rgb_to_xyz (VO := vec_ops vi) (rgb_to_xyz_mat p) r g b) k = to_xyz p (r k, g k, b k).
Proof. intros vi [] r g b k; reflexivity. Qed.
Lemma xyz_to_rgb_lane : forall vi p r g b k,
  at3 (xyz_to_rgb (VO := vec_ops vi) (xyz_to_rgb_mat p) r g b) k = from_xyz p (r k, g k, b k).
Proof. intros vi [] r g b k; reflexivity. Qed.
Lemma xyz_to_lms_lane : forall vi x y z k,
  at3 (xyz_to_lms (VO := vec_ops vi) x y z) k = to_lms (x k, y k, z k).
Proof. reflexivity. Qed.
Lemma lms_to_xyz_lane : forall vi x y z k,
  at3 (lms_to_xyz (VO := vec_ops vi) x y z) k = from_lms (x k, y k, z k).
Proof. reflexivity. Qed.

Lemma pq_lin_lane : forall vi v k, pq_scaled_to_linear (VO := vec_ops vi) v k = eotf (vi_lane vi) TBT2100PQ (v k).
Proof. reflexivity. Qed.
Lemma pq_scl_lane : forall vi v k, pq_linear_to_scaled (VO := vec_ops vi) v k = oetf (vi_lane vi) TBT2100PQ (v k).
Proof. reflexivity. Qed.
Lemma hlg_lin_lane : forall vi v k, hlg_scaled_to_linear (VO := vec_ops vi) v k = eotf (vi_lane vi) TBT2100HLG (v k).
Proof. reflexivity. Qed.
Lemma hlg_scl_lane : forall vi v k, hlg_linear_to_scaled (VO := vec_ops vi) v k = oetf (vi_lane vi) TBT2100HLG (v k).
Proof. reflexivity. Qed.

Lemma pq_yuv_to_rgb_lane : forall vi t p y u v k,
  at3 (pq_yuv_to_rgb (VO := vec_ops vi) t (xyz_to_rgb_mat p) y u v) k
    = yuv_rgb (vi_lane vi) SpICtCpPQ t p (y k, u k, v k).
Proof.
  intros. unfold pq_yuv_to_rgb. cbv zeta.
  match goal with |- context [lms_to_xyz ?a ?b ?c] =>
    pose proof (lms_to_xyz_lane vi a b c k) as H1; destruct (lms_to_xyz a b c) as [[x1 y1] z1] end.
  match goal with |- context [xyz_to_rgb ?m ?a ?b ?c] =>
    pose proof (xyz_to_rgb_lane vi p a b c k) as H2; destruct (xyz_to_rgb m a b c) as [[r g] b'] end.
  cbn [at3] in *. rewrite !linear_to_scaled_lane. rewrite !pq_lin_lane in H1.
  unfold yuv_rgb, ictcp_rgb. rewrite H1 in H2.
  match type of H2 with _ = ?R => match goal with |- _ = map3 _ ?R' => change R' with R; rewrite <- H2 end end.
  reflexivity.
Qed.

Lemma hlg_yuv_to_rgb_lane : forall vi t p y u v k,
  at3 (hlg_yuv_to_rgb (VO := vec_ops vi) t (xyz_to_rgb_mat p) y u v) k
    = yuv_rgb (vi_lane vi) SpICtCpHLG t p (y k, u k, v k).
Proof.
  intros. unfold hlg_yuv_to_rgb. cbv zeta.
  match goal with |- context [lms_to_xyz ?a ?b ?c] =>
    pose proof (lms_to_xyz_lane vi a b c k) as H1; destruct (lms_to_xyz a b c) as [[x1 y1] z1] end.
  match goal with |- context [xyz_to_rgb ?m ?a ?b ?c] =>
    pose proof (xyz_to_rgb_lane vi p a b c k) as H2; destruct (xyz_to_rgb m a b c) as [[r g] b'] end.
  cbn [at3] in *. rewrite !linear_to_scaled_lane. rewrite !hlg_lin_lane in H1.
  unfold yuv_rgb, ictcp_rgb. rewrite H1 in H2.
  match type of H2 with _ = ?R => match goal with |- _ = map3 _ ?R' => change R' with R; rewrite <- H2 end end.
  reflexivity.
Qed.

Lemma yuv_to_rgb_lane : forall vi s t p y u v k,
  at3 (yuv_to_rgb (VO := vec_ops vi) s t (xyz_to_rgb_mat p) y u v) k
    = yuv_rgb (vi_lane vi) s t p (y k, u k, v k).
Proof.
  intros vi s t p y u v k. destruct s; try reflexivity.
  - apply pq_yuv_to_rgb_lane.
  - apply hlg_yuv_to_rgb_lane.
Qed.

Lemma pq_rgb_to_yuv_lane : forall vi t p r g b k,
  at3 (pq_rgb_to_yuv (VO := vec_ops vi) t (rgb_to_xyz_mat p) r g b) k
    = rgb_yuv (vi_lane vi) SpICtCpPQ t p (r k, g k, b k).
Proof.
  intros. unfold pq_rgb_to_yuv. cbv zeta.
  match goal with |- context [rgb_to_xyz ?m ?a ?b ?c] =>
    pose proof (rgb_to_xyz_lane vi p a b c k) as H1; destruct (rgb_to_xyz m a b c) as [[x1 y1] z1] end.
  match goal with |- context [xyz_to_lms ?a ?b ?c] =>
    pose proof (xyz_to_lms_lane vi a b c k) as H2; destruct (xyz_to_lms a b c) as [[l m] s] end.
  cbn [at3] in H1, H2. rewrite !scaled_to_linear_lane in H1.
  unfold rgb_yuv, ictcp_lms. rewrite H1 in H2. cbn [map3].
  match type of H2 with _ = ?R => match goal with |- context [to_lms ?R'] => change (to_lms R') with R; rewrite <- H2 end end.
  cbn [map3]. rewrite <- !pq_scl_lane. reflexivity.
Qed.

Lemma hlg_rgb_to_yuv_lane : forall vi t p r g b k,
  at3 (hlg_rgb_to_yuv (VO := vec_ops vi) t (rgb_to_xyz_mat p) r g b) k
    = rgb_yuv (vi_lane vi) SpICtCpHLG t p (r k, g k, b k).
Proof.
  intros. unfold hlg_rgb_to_yuv. cbv zeta.
  match goal with |- context [rgb_to_xyz ?m ?a ?b ?c] =>
    pose proof (rgb_to_xyz_lane vi p a b c k) as H1; destruct (rgb_to_xyz m a b c) as [[x1 y1] z1] end.
  match goal with |- context [xyz_to_lms ?a ?b ?c] =>
    pose proof (xyz_to_lms_lane vi a b c k) as H2; destruct (xyz_to_lms a b c) as [[l m] s] end.
  cbn [at3] in H1, H2. rewrite !scaled_to_linear_lane in H1.
  unfold rgb_yuv, ictcp_lms. rewrite H1 in H2. cbn [map3].
  match type of H2 with _ = ?R => match goal with |- context [to_lms ?R'] => change (to_lms R') with R; rewrite <- H2 end end.
  cbn [map3]. rewrite <- !hlg_scl_lane. reflexivity.
Qed.

Lemma rgb_to_yuv_lane : forall vi s t p r g b k,
  at3 (rgb_to_yuv (VO := vec_ops vi) s t (rgb_to_xyz_mat p) r g b) k
    = rgb_yuv (vi_lane vi) s t p (r k, g k, b k).
Proof.
  intros vi s t p r g b k. destruct s; try reflexivity.
  - apply pq_rgb_to_yuv_lane.
  - apply hlg_rgb_to_yuv_lane.
Qed.

(** * Change of transfer function and primaries *)

Lemma tp_pixel_lane : forall vi cs cd px k,
  let px' := tp_pixel cs cd vi px in
  (px_r px' k, px_g px' k, px_b px' k)
    = recolor (vi_lane vi) (ci_transfer cs) (ci_transfer cd) (ci_primaries cs) (ci_primaries cd)
        (px_r px k, px_g px k, px_b px k) /\
  px_a px' = px_a px.
Proof.
  intros. unfold px', tp_pixel, recolor. cbv zeta.
  match goal with |- context [rgb_to_xyz ?m ?a ?b ?c] =>
    pose proof (rgb_to_xyz_lane vi (ci_primaries cs) a b c k) as H1; destruct (rgb_to_xyz m a b c) as [[x1 y1] z1] end.
  match goal with |- context [xyz_to_rgb ?m ?a ?b ?c] =>
    pose proof (xyz_to_rgb_lane vi (ci_primaries cd) a b c k) as H2; destruct (xyz_to_rgb m a b c) as [[r g] b'] end.
  cbn [at3 px_r px_g px_b px_a] in *. rewrite !scaled_to_linear_lane in H1. split; [|reflexivity].
  rewrite !linear_to_scaled_lane. cbn [map3]. rewrite <- H1, <- H2. reflexivity.
Qed.

Lemma tp_convert_is : forall cs cd S w h pix, rgba_is S w h pix ->
  rgba_is (tp_convert_read cs cd S) w h (fun vi x y =>
    (recolor (vi_lane vi) (ci_transfer cs) (ci_transfer cd) (ci_primaries cs) (ci_primaries cd) (fst (pix vi x y)),
     snd (pix vi x y))).
Proof.
  intros cs cd S w h pix H vi q X Y V I. destruct (H vi q X Y V I) as (p00 & p01 & p10 & p11 & E & K).
  unfold tp_convert_read. rewrite E. cbn [bind px00 px01 px10 px11].
  do 4 eexists. split; [reflexivity|]. intros k Hk. destruct (K k Hk) as [K0 K1].
  rewrite <- K0, <- K1. clear K0 K1.
  assert (G : forall a b, pxs (vi_len vi) (tp_pixel cs cd vi a) (tp_pixel cs cd vi b) k =
     (recolor (vi_lane vi) (ci_transfer cs) (ci_transfer cd) (ci_primaries cs) (ci_primaries cd)
        (fst (pxs (vi_len vi) a b k)), snd (pxs (vi_len vi) a b k))).
  { intros a b. unfold pxs, stream; cbn [fst snd].
    destruct (k <? vi_len vi).
    - destruct (tp_pixel_lane vi cs cd a k) as [A B]. rewrite A, B. reflexivity.
    - destruct (tp_pixel_lane vi cs cd b (k - vi_len vi)) as [A B]. rewrite A, B. reflexivity. }
  split; apply G.
Qed.

(** * YUV to RGB *)

(** Repeating every chroma element for two pixels *)
Lemma zip_self : forall vi q u, vector_spec vi q ->
  exists l r, vzip (VOps := vec_ops vi) u u = (l, r) /\
    forall k, k < 2 * vi_len vi -> stream (vi_len vi) (l, r) k = u (k / 2).
Proof.
  intros vi q u S. cbn [vzip vec_ops]. destruct (vi_zip vi u u) as (l, r) eqn:E.
  exists l, r. split; [reflexivity|]. intros k Hk. rewrite <- E, (vs_zip _ _ S) by assumption.
  destruct (Nat.even k); reflexivity.
Qed.

Lemma stream3_stream : forall n a0 b0 c0 a1 b1 c1 k,
  stream3 n (a0, b0, c0) (a1, b1, c1) k = (stream n (a0, a1) k, stream n (b0, b1) k, stream n (c0, c1) k).
Proof. intros. unfold stream3, stream. cbn [fst snd at3]. destruct (k <? n); reflexivity. Qed.

(** Both halves of a row through the same per-lane function *)
Lemma stream3_fun : forall n (g : f32 * f32 * f32 -> f32 * f32 * f32) p0 p1 y0 u0 v0 y1 u1 v1 k,
  (forall j, at3 p0 j = g (y0 j, u0 j, v0 j)) -> (forall j, at3 p1 j = g (y1 j, u1 j, v1 j)) ->
  stream3 n p0 p1 k = g (stream n (y0, y1) k, stream n (u0, u1) k, stream n (v0, v1) k).
Proof.
  intros. unfold stream3, stream. cbn [fst snd]. destruct (k <? n); auto.
Qed.

Lemma yx4_uv_to_rgb_lane : forall vi q s t p y00 y01 y10 y11 u v, vector_spec vi q ->
  exists p00 p01 p10 p11,
    yx4_uv_to_rgb (VO := vec_ops vi) s t (xyz_to_rgb_mat p) y00 y01 y10 y11 u v = (p00, p01, p10, p11) /\
    forall k, k < 2 * vi_len vi ->
      stream3 (vi_len vi) p00 p01 k = yuv_rgb (vi_lane vi) s t p (stream (vi_len vi) (y00, y01) k, u (k / 2), v (k / 2)) /\
      stream3 (vi_len vi) p10 p11 k = yuv_rgb (vi_lane vi) s t p (stream (vi_len vi) (y10, y11) k, u (k / 2), v (k / 2)).
Proof.
  intros vi q s t p y00 y01 y10 y11 u v S.
  destruct (zip_self vi q u S) as (lu & ru & EU & KU). destruct (zip_self vi q v S) as (lv & rv & EV & KV).
  assert (G : forall f, (forall y u v j, at3 (f y u v) j = yuv_rgb (vi_lane vi) s t p (y j, u j, v j)) ->
    forall k, k < 2 * vi_len vi ->
      stream3 (vi_len vi) (f y00 lu lv) (f y01 ru rv) k
        = yuv_rgb (vi_lane vi) s t p (stream (vi_len vi) (y00, y01) k, u (k / 2), v (k / 2)) /\
      stream3 (vi_len vi) (f y10 lu lv) (f y11 ru rv) k
        = yuv_rgb (vi_lane vi) s t p (stream (vi_len vi) (y10, y11) k, u (k / 2), v (k / 2))).
  { intros f Hf k Hk. rewrite <- (KU k Hk), <- (KV k Hk). split; apply stream3_fun; intros; apply Hf. }
  destruct s; cbn [yx4_uv_to_rgb]; unfold convert_yx4_uv_to_rgb_matrix, bt2100_yx4_uv_to_rgb;
    rewrite EU, EV; do 4 eexists; (split; [reflexivity|]).
  - apply (G (convert_yuv_to_rgb_matrix (VO := vec_ops vi) BT601_YUV_TO_RGB)). reflexivity.
  - apply (G (convert_yuv_to_rgb_matrix (VO := vec_ops vi) BT709_YUV_TO_RGB)). reflexivity.
  - apply (G (convert_yuv_to_rgb_matrix (VO := vec_ops vi) BT2020_YUV_TO_RGB)). reflexivity.
  - apply (G (pq_yuv_to_rgb (VO := vec_ops vi) t (xyz_to_rgb_mat p))). intros; apply pq_yuv_to_rgb_lane.
  - apply (G (hlg_yuv_to_rgb (VO := vec_ops vi) t (xyz_to_rgb_mat p))). intros; apply hlg_yuv_to_rgb_lane.
Qed.

(** RGB of a row of a block, alpha one *)
Lemma pxs_opaque : forall vi r0 g0 b0 r1 g1 b1 k,
  pxs (vi_len vi) (RgbaPixel r0 g0 b0 (splat (VOps := vec_ops vi) lit1))
      (RgbaPixel r1 g1 b1 (splat (VOps := vec_ops vi) lit1)) k
  = (stream3 (vi_len vi) (r0, g0, b0) (r1, g1, b1) k, fone).
Proof.
  intros. unfold pxs. cbn [px_r px_g px_b px_a]. rewrite stream3_stream. f_equal.
  unfold stream; cbn [fst snd]; destruct (k <? vi_len vi); reflexivity.
Qed.

Lemma half_shift : forall X k, (2 * X + k) / 2 = X + k / 2.
Proof. intros. rewrite Nat.mul_comm, Nat.add_comm, Nat.div_add by lia. lia. Qed.
Lemma half_lt : forall k n, k < 2 * n -> k / 2 < n.
Proof. intros. apply Nat.div_lt_upper_bound; lia. Qed.
Lemma half_odd : forall Y, (2 * Y + 1) / 2 = Y.
Proof. intros. rewrite half_shift. change (1 / 2) with 0. lia. Qed.
Lemma half_even : forall Y, (2 * Y) / 2 = Y.
Proof. apply div2X. Qed.

Lemma i420_to_rgb_is : forall yc S w h fy fu fv,
  i420_is S w h fy (fun vi _ => fu vi) (fun vi _ => fv vi) ->
  rgba_is (i420_to_rgb_read yc S) w h (fun vi x y =>
    (decode_yuv (vi_lane vi) yc (fy vi x y) (fu vi (x / 2) (y / 2)) (fv vi (x / 2) (y / 2)), fone)).
Proof.
  intros yc S w h fy fu fv H vi q X Y V I.
  destruct (H vi q X Y V I) as (y00 & y01 & y10 & y11 & u & v & E & K0 & K1 & KU & KV).
  unfold i420_to_rgb_read. rewrite E. cbn [bind].
  destruct (yc_full_range yc) eqn:F; cbn [negb]; cbv zeta;
  match goal with |- context [yx4_uv_to_rgb ?s ?t (xyz_to_rgb_mat ?p) ?a ?b ?c ?d ?uu ?vv] =>
    destruct (yx4_uv_to_rgb_lane vi q s t p a b c d uu vv V) as ([[r00 g00] c00] & [[r01 g01] c01] &
      [[r10 g10] c10] & [[r11 g11] c11] & EX & KX); rewrite EX end;
  do 4 eexists; (split; [reflexivity|]); intros k Hk; destruct (KX k Hk) as [A B];
  rewrite !pxs_opaque, A, B, half_odd, half_even, half_shift; unfold decode_yuv; rewrite F; cbn [expand_y expand_c];
  rewrite <- (KU (k / 2)), <- (KV (k / 2)) by (apply half_lt; exact Hk);
  rewrite <- (K0 k Hk), <- (K1 k Hk).
  - split; reflexivity.
  - unfold stream; cbn [fst snd]. destruct (k <? vi_len vi); split; reflexivity.
Qed.

(** A row: chroma [l], [r] repeats [u] *)
Lemma yuv_row_lane : forall vi s t p y0 y1 lu ru lv rv u v k,
  stream (vi_len vi) (lu, ru) k = u (k / 2) -> stream (vi_len vi) (lv, rv) k = v (k / 2) ->
  stream3 (vi_len vi) (yuv_to_rgb (VO := vec_ops vi) s t (xyz_to_rgb_mat p) y0 lu lv)
                      (yuv_to_rgb (VO := vec_ops vi) s t (xyz_to_rgb_mat p) y1 ru rv) k
  = yuv_rgb (vi_lane vi) s t p (stream (vi_len vi) (y0, y1) k, u (k / 2), v (k / 2)).
Proof. intros. rewrite <- H, <- H0. apply stream3_fun; intros; apply yuv_to_rgb_lane. Qed.

Lemma i422_to_rgb_is : forall yc S w h fy fu fv,
  i422_is S w h fy fu fv ->
  rgba_is (i422_to_rgb_read yc S) w h (fun vi x y =>
    (decode_yuv (vi_lane vi) yc (fy vi x y) (fu vi (x / 2) y) (fv vi (x / 2) y), fone)).
Proof.
  intros yc S w h fy fu fv H vi q X Y V I.
  destruct (H vi q X Y V I) as (y00 & y01 & y10 & y11 & u0 & u1 & v0 & v1 & E & K0 & K1 & KU0 & KU1 & KV0 & KV1).
  unfold i422_to_rgb_read. rewrite E. cbn [bind].
  destruct (yc_full_range yc) eqn:F; cbn [negb]; cbv zeta;
  do 4 (match goal with |- context [vzip (VOps := vec_ops vi) ?a ?a] =>
    let l := fresh "l" in let r := fresh "r" in let EE := fresh "EE" in let L := fresh "L" in
    destruct (zip_self vi q a V) as (l & r & EE & L); rewrite EE; clear EE end);
  do 4 (match goal with |- context [yuv_to_rgb ?s ?t ?m ?a ?b ?c] =>
    let r := fresh "R" in let g := fresh "G" in let b' := fresh "B" in let EE := fresh "EY" in
    destruct (yuv_to_rgb s t m a b c) as [[r g] b'] eqn:EE end);
  do 4 eexists; (split; [reflexivity|]); intros k Hk;
  rewrite !pxs_opaque, <- EY, <- EY0, <- EY1, <- EY2;
  rewrite (yuv_row_lane _ _ _ _ _ _ _ _ _ _ _ _ _ (L k Hk) (L0 k Hk));
  rewrite (yuv_row_lane _ _ _ _ _ _ _ _ _ _ _ _ _ (L1 k Hk) (L2 k Hk));
  rewrite half_shift; unfold decode_yuv; rewrite F; cbn [expand_y expand_c];
  rewrite <- (KU0 (k / 2)), <- (KV0 (k / 2)), <- (KU1 (k / 2)), <- (KV1 (k / 2)) by (apply half_lt; exact Hk);
  rewrite <- (K0 k Hk), <- (K1 k Hk).
  - split; reflexivity.
  - unfold stream; cbn [fst snd]. destruct (k <? vi_len vi); split; reflexivity.
Qed.

Lemma i444_convert_lane : forall yc vi y u v,
  exists r g b, i444_convert_yuv_to_rgb yc vi (I444Pixel y u v) = RgbaPixel r g b (splat (VOps := vec_ops vi) lit1) /\
    forall k, at3 (r, g, b) k = decode_yuv (vi_lane vi) yc (y k) (u k) (v k).
Proof.
  intros. unfold i444_convert_yuv_to_rgb, decode_yuv.
  destruct (yc_full_range yc) eqn:F; cbn [negb expand_y expand_c]; cbv zeta;
  match goal with |- context [yuv_to_rgb ?s ?t ?m ?a ?b ?c] =>
    pose proof (yuv_to_rgb_lane vi s t (yc_primaries yc) a b c) as H;
    destruct (yuv_to_rgb s t m a b c) as [[r g] b'] end;
  do 3 eexists; (split; [reflexivity|]); intros k; rewrite H; reflexivity.
Qed.

Lemma i444_to_rgb_is : forall yc S w h fy fu fv,
  i444_is S w h fy fu fv ->
  rgba_is (i444_to_rgb_read yc S) w h (fun vi x y =>
    (decode_yuv (vi_lane vi) yc (fy vi x y) (fu vi x y) (fv vi x y), fone)).
Proof.
  intros yc S w h fy fu fv H vi q X Y V I.
  destruct (H vi q X Y V I) as (y00 & u00 & v00 & y01 & u01 & v01 & y10 & u10 & v10 & y11 & u11 & v11 & E & K).
  unfold i444_to_rgb_read. rewrite E. cbn [bind b4_00 b4_01 b4_10 b4_11].
  destruct (i444_convert_lane yc vi y00 u00 v00) as (r00 & g00 & b00 & -> & L00).
  destruct (i444_convert_lane yc vi y01 u01 v01) as (r01 & g01 & b01 & -> & L01).
  destruct (i444_convert_lane yc vi y10 u10 v10) as (r10 & g10 & b10 & -> & L10).
  destruct (i444_convert_lane yc vi y11 u11 v11) as (r11 & g11 & b11 & -> & L11).
  do 4 eexists; (split; [reflexivity|]); intros k Hk.
  destruct (K k Hk) as (<- & <- & <- & <- & <- & <-). rewrite !pxs_opaque.
  set (g := fun p => decode_yuv (vi_lane vi) yc (fst3 p) (snd3 p) (thd3 p)).
  split; f_equal; apply (stream3_fun (vi_len vi) g); intros j; unfold g, fst3, snd3, thd3; cbn [fst snd]; auto.
Qed.

(** * RGB to YUV *)

Lemma i444_encode_lane : forall yc vi px,
  exists y u v, i444_convert_rgb_to_yuv yc vi px = I444Pixel y u v /\
    forall k, (y k, u k, v k) =
      let c := rgb_yuv (vi_lane vi) (yc_space yc) (yc_transfer yc) (yc_primaries yc) (px_r px k, px_g px k, px_b px k) in
      (encode_y yc (fst3 c), encode_c yc (snd3 c), encode_c yc (thd3 c)).
Proof.
  intros. unfold i444_convert_rgb_to_yuv, encode_y, encode_c.
  match goal with |- context [rgb_to_yuv ?s ?t ?m ?a ?b ?c] =>
    pose proof (rgb_to_yuv_lane vi s t (yc_primaries yc) a b c) as H;
    destruct (rgb_to_yuv s t m a b c) as [[r g] b'] end.
  destruct (yc_full_range yc) eqn:F; cbn [negb compress_y compress_c]; cbv zeta;
  do 3 eexists; (split; [reflexivity|]); intros k; rewrite <- H; reflexivity.
Qed.

(** The YUV color of a pixel *)
Definition yuv_px (L : lane_ops f32) (yc : yuv_color_info) (p : pixel) : f32 * f32 * f32 :=
  rgb_yuv L (yc_space yc) (yc_transfer yc) (yc_primaries yc) (fst p).

Lemma rgb_to_i444_is : forall yc S w h pix,
  rgba_is S w h pix ->
  i444_is (rgb_to_i444_read yc S) w h
    (fun vi x y => encode_y yc (fst3 (yuv_px (vi_lane vi) yc (pix vi x y))))
    (fun vi x y => encode_c yc (snd3 (yuv_px (vi_lane vi) yc (pix vi x y))))
    (fun vi x y => encode_c yc (thd3 (yuv_px (vi_lane vi) yc (pix vi x y)))).
Proof.
  intros yc S w h pix H vi q X Y V I. destruct (H vi q X Y V I) as (p00 & p01 & p10 & p11 & E & K).
  unfold rgb_to_i444_read. rewrite E. cbn [bind px00 px01 px10 px11].
  destruct (i444_encode_lane yc vi p00) as (y00 & u00 & v00 & -> & L00).
  destruct (i444_encode_lane yc vi p01) as (y01 & u01 & v01 & -> & L01).
  destruct (i444_encode_lane yc vi p10) as (y10 & u10 & v10 & -> & L10).
  destruct (i444_encode_lane yc vi p11) as (y11 & u11 & v11 & -> & L11).
  do 12 eexists; (split; [reflexivity|]); intros k Hk. destruct (K k Hk) as (<- & <-).
  assert (G : forall (pa pb : rgba_pixel vec) ya ua va yb ub vb,
    (forall k, (ya k, ua k, va k) =
      let c := rgb_yuv (vi_lane vi) (yc_space yc) (yc_transfer yc) (yc_primaries yc) (px_r pa k, px_g pa k, px_b pa k) in
      (encode_y yc (fst3 c), encode_c yc (snd3 c), encode_c yc (thd3 c))) ->
    (forall k, (yb k, ub k, vb k) =
      let c := rgb_yuv (vi_lane vi) (yc_space yc) (yc_transfer yc) (yc_primaries yc) (px_r pb k, px_g pb k, px_b pb k) in
      (encode_y yc (fst3 c), encode_c yc (snd3 c), encode_c yc (thd3 c))) ->
    stream (vi_len vi) (ya, yb) k = encode_y yc (fst3 (yuv_px (vi_lane vi) yc (pxs (vi_len vi) pa pb k))) /\
    stream (vi_len vi) (ua, ub) k = encode_c yc (snd3 (yuv_px (vi_lane vi) yc (pxs (vi_len vi) pa pb k))) /\
    stream (vi_len vi) (va, vb) k = encode_c yc (thd3 (yuv_px (vi_lane vi) yc (pxs (vi_len vi) pa pb k)))).
  { intros pa pb ya ua va yb ub vb Ha Hb. unfold yuv_px, pxs, stream; cbn [fst snd].
    destruct (k <? vi_len vi).
    - specialize (Ha k). cbv zeta in Ha. injection Ha as -> -> ->. auto.
    - specialize (Hb (k - vi_len vi)). cbv zeta in Hb. injection Hb as -> -> ->. auto. }
  destruct (G p00 p01 y00 u00 v00 y01 u01 v01 L00 L01) as (A1 & A2 & A3).
  destruct (G p10 p11 y10 u10 v10 y11 u11 v11 L10 L11) as (B1 & B2 & B3).
  auto 10.
Qed.

(** Chroma of 4:2:2: mean of the chroma of two neighbours *)
Lemma i422_encode_lane : forall yc vi q p0 p1, vector_spec vi q ->
  exists y0 y1 u v, i422_convert_rgb_to_yuv yc vi p0 p1 = ((y0, y1), u, v) /\
    (forall k, k < 2 * vi_len vi ->
       stream (vi_len vi) (y0, y1) k = encode_y yc (fst3 (yuv_px (vi_lane vi) yc (pxs (vi_len vi) p0 p1 k)))) /\
    (forall k, k < vi_len vi ->
       u k = encode_c yc (fdiv (fadd (snd3 (yuv_px (vi_lane vi) yc (pxs (vi_len vi) p0 p1 (2 * k))))
                                     (snd3 (yuv_px (vi_lane vi) yc (pxs (vi_len vi) p0 p1 (2 * k + 1))))) (flit 2 0)) /\
       v k = encode_c yc (fdiv (fadd (thd3 (yuv_px (vi_lane vi) yc (pxs (vi_len vi) p0 p1 (2 * k))))
                                     (thd3 (yuv_px (vi_lane vi) yc (pxs (vi_len vi) p0 p1 (2 * k + 1))))) (flit 2 0))).
Proof.
  intros yc vi q p0 p1 S. unfold i422_convert_rgb_to_yuv.
  pose proof (rgb_to_yuv_lane vi (yc_space yc) (yc_transfer yc) (yc_primaries yc) (px_r p0) (px_g p0) (px_b p0)) as H0.
  pose proof (rgb_to_yuv_lane vi (yc_space yc) (yc_transfer yc) (yc_primaries yc) (px_r p1) (px_g p1) (px_b p1)) as H1.
  cbv zeta.
  destruct (rgb_to_yuv _ _ _ (px_r p0) _ _) as [[y0 u0] v0]. destruct (rgb_to_yuv _ _ _ (px_r p1) _ _) as [[y1 u1] v1].
  assert (G : forall k, (stream (vi_len vi) (y0, y1) k, stream (vi_len vi) (u0, u1) k, stream (vi_len vi) (v0, v1) k)
     = yuv_px (vi_lane vi) yc (pxs (vi_len vi) p0 p1 k)).
  { intros k. unfold yuv_px, pxs, stream; cbn [fst snd]. destruct (k <? vi_len vi); [rewrite <- H0|rewrite <- H1]; reflexivity. }
  pose proof (vs_unzip _ _ S u0 u1) as U. pose proof (vs_unzip _ _ S v0 v1) as W.
  cbn [vunzip vec_ops].
  destruct (vi_unzip vi u0 u1) as (ua, ub). destruct (vi_unzip vi v0 v1) as (va, vb). cbn [fst snd] in U, W.
  unfold encode_y, encode_c.
  destruct (yc_full_range yc) eqn:F; cbn [negb]; cbn [compress_y compress_c];
  do 4 eexists; (split; [reflexivity|]); (split; [intros k Hk|intros k Hk;
    destruct (U k Hk) as [U1 U2]; destruct (W k Hk) as [W1 W2]]); rewrite <- !G; unfold fst3, snd3, thd3; cbn [fst snd].
  - reflexivity.
  - rewrite <- U1, <- U2, <- W1, <- W2. split; reflexivity.
  - unfold stream; cbn [fst snd]; destruct (k <? vi_len vi); reflexivity.
  - rewrite <- U1, <- U2, <- W1, <- W2. split; reflexivity.
Qed.

Lemma rgb_to_i422_is : forall yc S w h pix,
  rgba_is S w h pix ->
  i422_is (rgb_to_i422_read yc S) w h
    (fun vi x y => encode_y yc (fst3 (yuv_px (vi_lane vi) yc (pix vi x y))))
    (fun vi cx y => encode_c yc (fdiv (fadd (snd3 (yuv_px (vi_lane vi) yc (pix vi (2 * cx) y)))
                                            (snd3 (yuv_px (vi_lane vi) yc (pix vi (2 * cx + 1) y)))) (flit 2 0)))
    (fun vi cx y => encode_c yc (fdiv (fadd (thd3 (yuv_px (vi_lane vi) yc (pix vi (2 * cx) y)))
                                            (thd3 (yuv_px (vi_lane vi) yc (pix vi (2 * cx + 1) y)))) (flit 2 0))).
Proof.
  intros yc S w h pix H vi q X Y V I. destruct (H vi q X Y V I) as (p00 & p01 & p10 & p11 & E & K).
  unfold rgb_to_i422_read. rewrite E. cbn [bind px00 px01 px10 px11].
  destruct (i422_encode_lane yc vi q p00 p01 V) as (y00 & y01 & u0 & v0 & -> & L0 & C0).
  destruct (i422_encode_lane yc vi q p10 p11 V) as (y10 & y11 & u1 & v1 & -> & L1 & C1).
  do 8 eexists; (split; [reflexivity|]). repeat split; intros k Hk.
  - rewrite L0 by assumption. destruct (K k Hk) as [-> _]. reflexivity.
  - rewrite L1 by assumption. destruct (K k Hk) as [_ ->]. reflexivity.
  - destruct (C0 k Hk) as [-> _]. destruct (K (2 * k)) as [-> _]; [lia|]. destruct (K (2 * k + 1)) as [-> _]; [lia|].
    rewrite Nat.mul_add_distr_l, Nat.add_assoc. reflexivity.
  - destruct (C1 k Hk) as [-> _]. destruct (K (2 * k)) as [_ ->]; [lia|]. destruct (K (2 * k + 1)) as [_ ->]; [lia|].
    rewrite Nat.mul_add_distr_l, Nat.add_assoc. reflexivity.
  - destruct (C0 k Hk) as [_ ->]. destruct (K (2 * k)) as [-> _]; [lia|]. destruct (K (2 * k + 1)) as [-> _]; [lia|].
    rewrite Nat.mul_add_distr_l, Nat.add_assoc. reflexivity.
  - destruct (C1 k Hk) as [_ ->]. destruct (K (2 * k)) as [_ ->]; [lia|]. destruct (K (2 * k + 1)) as [_ ->]; [lia|].
    rewrite Nat.mul_add_distr_l, Nat.add_assoc. reflexivity.
Qed.

(** Chroma of 4:2:0.  Matrix color spaces: the chroma of the mean color.
    ICtCp: what the code computes for element [cx - X] of a block of [n]
    elements at [X]. *)

Definition chroma420 (L : lane_ops f32) (n : nat) (yc : yuv_color_info) (pix : nat -> nat -> pixel)
    (sel : f32 * f32 * f32 -> f32) (X cx cy : nat) : f32 :=
  if is_ictcp (yc_space yc)
  then
    let a := sel (yuv_px L yc (pix (X + cx) (2 * cy))) in
    let b := sel (yuv_px L yc (pix (X + n + cx) (2 * cy))) in
    fdiv (fadd (fadd (fadd a b) a) a) (flit 4 0)
  else
    let rgb x y := fst (pix x y) in
    sel (rgb_yuv L (yc_space yc) (yc_transfer yc) (yc_primaries yc)
      (mean4 (rgb (2 * cx) (2 * cy)) (rgb (2 * cx) (2 * cy + 1))
             (rgb (2 * cx + 1) (2 * cy)) (rgb (2 * cx + 1) (2 * cy + 1)))).

(** Average of a channel over four pixels *)
Lemma unzip_mean : forall vi q a0 a1 b0 b1 k, vector_spec vi q -> k < vi_len vi ->
  let '(s0, s1) := vunzip (VOps := vec_ops vi) (vadd (VOps := vec_ops vi) a0 b0) (vadd (VOps := vec_ops vi) a1 b1) in
  fadd (s0 k) (s1 k) =
  fadd (fadd (stream (vi_len vi) (a0, a1) (2 * k)) (stream (vi_len vi) (b0, b1) (2 * k)))
       (fadd (stream (vi_len vi) (a0, a1) (2 * k + 1)) (stream (vi_len vi) (b0, b1) (2 * k + 1))).
Proof.
  intros vi q a0 a1 b0 b1 k S Hk. cbn [vunzip vec_ops].
  match goal with |- context [vi_unzip vi ?a ?b] => pose proof (vs_unzip _ _ S a b k Hk) as H;
    destruct (vi_unzip vi a b) as (s0, s1) end.
  cbn [fst snd] in H. destruct H as [-> ->]. f_equal; unfold stream; cbn [fst snd].
  - destruct (2 * k <? vi_len vi); reflexivity.
  - destruct (2 * k + 1 <? vi_len vi); reflexivity.
Qed.

Lemma rgbx4_matrix_lane : forall vi q (m : mat f32) L s t p p00 p01 p10 p11, vector_spec vi q ->
  (forall r g b k, at3 (convert_rgb_to_yuv_matrix (VO := vec_ops vi) m r g b) k = rgb_yuv L s t p (r k, g k, b k)) ->
  exists y00 y01 y10 y11 u v,
    rgbx4_to_yx4_uv_matrix (VO := vec_ops vi) m (px_r p00, px_r p01, px_r p10, px_r p11)
      (px_g p00, px_g p01, px_g p10, px_g p11) (px_b p00, px_b p01, px_b p10, px_b p11)
      = ((y00, y01, y10, y11), u, v) /\
    (forall k, stream (vi_len vi) (y00, y01) k = fst3 (rgb_yuv L s t p (fst (pxs (vi_len vi) p00 p01 k)))) /\
    (forall k, stream (vi_len vi) (y10, y11) k = fst3 (rgb_yuv L s t p (fst (pxs (vi_len vi) p10 p11 k)))) /\
    (forall k, k < vi_len vi ->
      let c := rgb_yuv L s t p
        (mean4 (fst (pxs (vi_len vi) p00 p01 (2 * k))) (fst (pxs (vi_len vi) p10 p11 (2 * k)))
               (fst (pxs (vi_len vi) p00 p01 (2 * k + 1))) (fst (pxs (vi_len vi) p10 p11 (2 * k + 1)))) in
      u k = snd3 c /\ v k = thd3 c).
Proof.
  intros vi q m L s t p p00 p01 p10 p11 S H. unfold rgbx4_to_yx4_uv_matrix. cbv zeta.
  pose proof (fun k => unzip_mean vi q (px_r p00) (px_r p01) (px_r p10) (px_r p11) k S) as MR.
  pose proof (fun k => unzip_mean vi q (px_g p00) (px_g p01) (px_g p10) (px_g p11) k S) as MG.
  pose proof (fun k => unzip_mean vi q (px_b p00) (px_b p01) (px_b p10) (px_b p11) k S) as MB.
  destruct (vunzip (vadd (px_r p00) _) _) as (r0, r1).
  destruct (vunzip (vadd (px_g p00) _) _) as (g0, g1).
  destruct (vunzip (vadd (px_b p00) _) _) as (b0, b1).
  do 6 eexists; (split; [reflexivity|]).
  assert (HY : forall r g b k, calc_y (VO := vec_ops vi) m r g b k = fst3 (rgb_yuv L s t p (r k, g k, b k))).
  { intros. rewrite <- H. reflexivity. }
  split; [|split].
  - intros k. unfold pxs, stream; cbn [fst snd]. destruct (k <? vi_len vi); apply HY.
  - intros k. unfold pxs, stream; cbn [fst snd]. destruct (k <? vi_len vi); apply HY.
  - intros k Hk. specialize (MR k Hk). specialize (MG k Hk). specialize (MB k Hk). cbv zeta.
    unfold mean4, pxs; cbn [fst snd]. rewrite <- MR, <- MG, <- MB.
    pose proof (H (vmulf (VO := vec_ops vi) (vadd (VOps := vec_ops vi) r0 r1) (flit 25 2))
                  (vmulf (VO := vec_ops vi) (vadd (VOps := vec_ops vi) g0 g1) (flit 25 2))
                  (vmulf (VO := vec_ops vi) (vadd (VOps := vec_ops vi) b0 b1) (flit 25 2)) k) as HH.
    match type of HH with _ = ?R => match goal with |- context [snd3 ?R'] => change R' with R end end.
    rewrite <- HH. split; reflexivity.
Qed.

Lemma rgbx4_ictcp_lane : forall vi f m L s t p p00 p01 p10 p11,
  (forall r g b k, at3 (f t m r g b) k = rgb_yuv L s t p (r k, g k, b k)) ->
  exists y00 y01 y10 y11 u v,
    bt2100_rgbx4_to_yx4_uv (VO := vec_ops vi) f t m (px_r p00, px_r p01, px_r p10, px_r p11)
      (px_g p00, px_g p01, px_g p10, px_g p11) (px_b p00, px_b p01, px_b p10, px_b p11)
      = ((y00, y01, y10, y11), u, v) /\
    (forall k, stream (vi_len vi) (y00, y01) k = fst3 (rgb_yuv L s t p (fst (pxs (vi_len vi) p00 p01 k)))) /\
    (forall k, stream (vi_len vi) (y10, y11) k = fst3 (rgb_yuv L s t p (fst (pxs (vi_len vi) p10 p11 k)))) /\
    (forall k, k < vi_len vi -> forall (sel : f32 * f32 * f32 -> f32) w, (sel = snd3 /\ w = u \/ sel = thd3 /\ w = v) ->
      w k = let a := sel (rgb_yuv L s t p (fst (pxs (vi_len vi) p00 p01 k))) in
            let b := sel (rgb_yuv L s t p (fst (pxs (vi_len vi) p00 p01 (vi_len vi + k)))) in
            fdiv (fadd (fadd (fadd a b) a) a) (flit 4 0)).
Proof.
  intros vi f m L s t p p00 p01 p10 p11 H. unfold bt2100_rgbx4_to_yx4_uv. cbv zeta.
  pose proof (H (px_r p00) (px_g p00) (px_b p00)) as H00. pose proof (H (px_r p01) (px_g p01) (px_b p01)) as H01.
  pose proof (H (px_r p10) (px_g p10) (px_b p10)) as H10. pose proof (H (px_r p11) (px_g p11) (px_b p11)) as H11.
  destruct (f t m (px_r p00) _ _) as [[y00 u00] v00]. destruct (f t m (px_r p01) _ _) as [[y01 u01] v01].
  destruct (f t m (px_r p10) _ _) as [[y10 u10] v10]. destruct (f t m (px_r p11) _ _) as [[y11 u11] v11].
  cbn [at3] in *.
  do 6 eexists; (split; [reflexivity|]). split; [|split].
  - intros k. unfold pxs, stream; cbn [fst snd]. destruct (k <? vi_len vi); [rewrite <- H00|rewrite <- H01]; reflexivity.
  - intros k. unfold pxs, stream; cbn [fst snd]. destruct (k <? vi_len vi); [rewrite <- H10|rewrite <- H11]; reflexivity.
  - intros k Hk sel w Hw. unfold pxs; cbn [fst snd]. rewrite !stream_left, !stream_right by assumption.
    rewrite <- H00, <- H01. destruct Hw as [[-> ->]|[-> ->]]; reflexivity.
Qed.

Lemma rgb_to_i420_is : forall yc S w h pix,
  rgba_is S w h pix ->
  i420_is (rgb_to_i420_read yc S) w h
    (fun vi x y => encode_y yc (fst3 (yuv_px (vi_lane vi) yc (pix vi x y))))
    (fun vi X cx cy => encode_c yc (chroma420 (vi_lane vi) (vi_len vi) yc (pix vi) snd3 X cx cy))
    (fun vi X cx cy => encode_c yc (chroma420 (vi_lane vi) (vi_len vi) yc (pix vi) thd3 X cx cy)).
Proof.
  intros yc S w h pix H vi q X Y V I. destruct (H vi q X Y V I) as (p00 & p01 & p10 & p11 & E & K).
  unfold rgb_to_i420_read. rewrite E. cbn [bind].
  assert (G : exists y00 y01 y10 y11 u v,
    rgbx4_to_yx4_uv (VO := vec_ops vi) (yc_space yc) (yc_transfer yc) (rgb_to_xyz_mat (yc_primaries yc))
      (px_r p00, px_r p01, px_r p10, px_r p11)
      (px_g p00, px_g p01, px_g p10, px_g p11) (px_b p00, px_b p01, px_b p10, px_b p11)
      = ((y00, y01, y10, y11), u, v) /\
    (forall k, k < 2 * vi_len vi -> stream (vi_len vi) (y00, y01) k = fst3 (yuv_px (vi_lane vi) yc (pix vi (2 * X + k) (2 * Y)))) /\
    (forall k, k < 2 * vi_len vi -> stream (vi_len vi) (y10, y11) k = fst3 (yuv_px (vi_lane vi) yc (pix vi (2 * X + k) (2 * Y + 1)))) /\
    (forall k, k < vi_len vi ->
      u k = chroma420 (vi_lane vi) (vi_len vi) yc (pix vi) snd3 X (X + k) Y /\
      v k = chroma420 (vi_lane vi) (vi_len vi) yc (pix vi) thd3 X (X + k) Y)).
  { unfold chroma420, yuv_px.
    assert (EK : forall k, 2 * (X + k) = 2 * X + 2 * k) by (intros; lia).
    assert (EK1 : forall k, 2 * (X + k) + 1 = 2 * X + (2 * k + 1)) by (intros; lia).
    assert (EI : forall k, X + (X + k) = 2 * X + k) by (intros; lia).
    assert (EJ : forall k, X + vi_len vi + (X + k) = 2 * X + (vi_len vi + k)) by (intros; lia).
    destruct (yc_space yc) eqn:ES; cbn [rgbx4_to_yx4_uv is_ictcp].
    1,2,3: match goal with |- context [rgbx4_to_yx4_uv_matrix ?m _ _ _] =>
        destruct (rgbx4_matrix_lane vi q m (vi_lane vi) (yc_space yc) (yc_transfer yc) (yc_primaries yc) p00 p01 p10 p11 V)
        as (y00 & y01 & y10 & y11 & u & v & -> & A & B & C); [intros; rewrite ES; reflexivity|] end;
      rewrite ES in *;
      do 6 eexists; (split; [reflexivity|]);
      (split; [intros k Hk; rewrite A; destruct (K k Hk) as [-> _]; reflexivity|]);
      (split; [intros k Hk; rewrite B; destruct (K k Hk) as [_ ->]; reflexivity|]);
      intros k Hk; destruct (C k Hk) as [-> ->]; rewrite EK1, EK;
      destruct (K (2 * k)) as [-> ->]; [lia|]; destruct (K (2 * k + 1)) as [-> ->]; [lia|]; split; reflexivity.
    1,2: match goal with |- context [bt2100_rgbx4_to_yx4_uv ?f ?t ?m _ _ _] =>
        destruct (rgbx4_ictcp_lane vi f m (vi_lane vi) (yc_space yc) (yc_transfer yc) (yc_primaries yc) p00 p01 p10 p11)
        as (y00 & y01 & y10 & y11 & u & v & -> & A & B & C);
        [intros; rewrite ES; first [apply pq_rgb_to_yuv_lane | apply hlg_rgb_to_yuv_lane]|] end;
      rewrite ES in *;
      do 6 eexists; (split; [reflexivity|]);
      (split; [intros k Hk; rewrite A; destruct (K k Hk) as [-> _]; reflexivity|]);
      (split; [intros k Hk; rewrite B; destruct (K k Hk) as [_ ->]; reflexivity|]);
      intros k Hk; rewrite (C k Hk snd3 u), (C k Hk thd3 v) by auto; rewrite EI, EJ;
      destruct (K k) as [-> _]; [lia|]; destruct (K (vi_len vi + k)) as [-> _]; [lia|]; split; reflexivity. }
  destruct G as (y00 & y01 & y10 & y11 & u & v & EG & A & B & C). rewrite EG. cbv zeta.
  unfold encode_y, encode_c.
  destruct (yc_full_range yc) eqn:F; cbn [compress_y compress_c];
  do 6 eexists; (split; [reflexivity|]); (split; [intros k Hk|split; [intros k Hk|split; intros k Hk]]).
  - apply A; assumption.
  - apply B; assumption.
  - destruct (C k Hk) as [<- _]. reflexivity.
  - destruct (C k Hk) as [_ <-]. reflexivity.
  - rewrite <- A by assumption. unfold stream; cbn [fst snd]; destruct (k <? vi_len vi); reflexivity.
  - rewrite <- B by assumption. unfold stream; cbn [fst snd]; destruct (k <? vi_len vi); reflexivity.
  - destruct (C k Hk) as [<- _]. reflexivity.
  - destruct (C k Hk) as [_ <-]. reflexivity.
Qed.
