(** C89: a block of one color has the same chroma at every sub-sampling. *)

From Coq Require Import List ZArith Bool Arith Reals Lia Lra.
From Flocq Require Import Core BinarySingleNaN Mult_error.
From Verif Require Import Base Types Planes ImageM F32 Vector Simd SpecVector SimdProofs QuantProofs SpecGeom GeomProofs
  SpecColor SpecConvert SpecRun Formats Visit Convert VisitProofs ColorProofs ConvertProofs ExactProofs PropConvert PropFidelity
  SpecReal FloatProofs AccProofs TargetProofs PropColor PropRound PropNominal PropBT2020 PropDrift PropLocal
  ColorR SpecTransfer PowerProofs MathProofs SpecMath LaneProofs TransferProofs Math NegProofs RecolorProofs PropRecolor GamutProofs PropGamut.
Import ListNotations.
Local Open Scope R_scope.

(** * Specification *)

(** The 2 by 2 pixels around ([x], [y]) all have the red, green and blue of ([x], [y]). *)
Definition flat_block (m : mem) (src : image) (sps : list (slice * nat)) (x y : nat) : Prop :=
  forall c u v, (c = CR \/ c = CG \/ c = CB) -> (u / 2 = x / 2)%nat -> (v / 2 = y / 2)%nat ->
  given m src sps c u v = given m src sps c x y.

(** The same for the samples of a YUV picture *)
Definition flat_yuv (m : mem) (src : image) (sps : list (slice * nat)) (x y : nat) : Prop :=
  forall c u v, (c = CY \/ c = CU \/ c = CV) -> (u / 2 = x / 2)%nat -> (v / 2 = y / 2)%nat ->
  given m src sps c u v = given m src sps c x y.

(** * Proof *)

Lemma same_num : forall a b, is_num a -> is_num b -> fval a = fval b -> fval a <> 0 -> a = b.
Proof.
  intros a b A B E Z. destruct (num_lift a A) as (x & -> & FX & EX). destruct (num_lift b B) as (y & -> & FY & EY).
  f_equal. rewrite EX in E, Z. rewrite EY in E.
  assert (S : forall z : binary_float 24 128, is_finite z = true -> B2R z <> 0 -> is_finite_strict z = true).
  { intros [s|s| |s mm e H] F N; try discriminate F; [exfalso; apply N; reflexivity|reflexivity]. }
  apply B2R_inj; [apply S; assumption|apply S; [assumption|congruence]|exact E].
Qed.

Lemma num_zero : forall a, is_num a -> fval a = 0 -> exists s, a = SpecFloat.S754_zero s.
Proof.
  intros [s|s| |s mm e] (V & F) Z; try discriminate F; [exists s; reflexivity|]. exfalso.
  unfold fval in Z. cbn in Z. apply eq_0_F2R in Z. destruct s; discriminate Z.
Qed.

(** Doubling is exact. *)
Lemma double_exact : forall a k, is_num a -> Rabs (fval a) <= k -> k <= 10000 ->
  is_num (f32_add a a) /\ fval (f32_add a a) = 2 * fval a.
Proof.
  intros a k N B K.
  destruct (f32_add_num a a N N) as (N2 & V).
  - apply big. apply Rabs_le_inv in B. apply Rabs_le. lra.
  - split; [exact N2|]. rewrite V. replace (fval a + fval a) with (fval a * bpow radix2 1) by (cbn; lra).
    unfold rnd. rewrite round_generic; [cbn; lra|typeclasses eauto|].
    change (SpecFloat.fexp 24 128) with (FLT_exp (-149) 24). apply mult_bpow_pos_exact_FLT; [|lia].
    exact (num_format a N).
Qed.

Lemma mean4_same32 : forall a, is_num a -> Rabs (fval a) <= 5000 ->
  f32_mul (f32_add (f32_add a a) (f32_add a a)) (flit 25 2) = a.
Proof.
  intros a N B. destruct (Req_dec (fval a) 0) as [Z|Z].
  { destruct (num_zero a N Z) as (s & ->). destruct s; chk. }
  destruct (double_exact a 5000 N B ltac:(lra)) as (N2 & V2).
  destruct (double_exact (f32_add a a) 10000 N2) as (N4 & V4); [rewrite V2, Rabs_mult, (Rabs_right 2) by lra; lra|lra|].
  assert (Q : is_num (flit 25 2) /\ fval (flit 25 2) = / 4).
  { split; [split; reflexivity|]. unfold fval. replace (flit 25 2) with (SpecFloat.S754_finite false 8388608 (-25)) by chk. cbn. unfold F2R. cbn. lra. }
  destruct Q as (NQ & VQ).
  assert (E : fval (f32_add (f32_add a a) (f32_add a a)) * fval (flit 25 2) = fval a) by (rewrite V4, V2, VQ; field).
  destruct (f32_mul_num _ _ N4 NQ) as (N5 & V5); [rewrite E; apply big; lra|]. rewrite E, rnd_num in V5 by exact N.
  apply same_num; [exact N5|exact N|exact V5|rewrite V5; exact Z].
Qed.

Lemma mean2_same32 : forall a, is_num a -> Rabs (fval a) <= 5000 -> f32_div (f32_add a a) (flit 2 0) = a.
Proof.
  intros a N B. destruct (Req_dec (fval a) 0) as [Z|Z].
  { destruct (num_zero a N Z) as (s & ->). destruct s; chk. }
  destruct (double_exact a 5000 N B ltac:(lra)) as (N2 & V2).
  assert (Q : is_num (flit 2 0) /\ fval (flit 2 0) = 2).
  { split; [split; reflexivity|]. unfold fval. replace (flit 2 0) with (SpecFloat.S754_finite false 8388608 (-22)) by chk. cbn. unfold F2R. cbn. lra. }
  destruct Q as (NQ & VQ).
  assert (E : fval (f32_add a a) / fval (flit 2 0) = fval a) by (rewrite V2, VQ; field).
  destruct (f32_div_num _ _ N2 NQ) as (N5 & V5); [rewrite VQ; lra|rewrite E; apply big; lra|]. rewrite E, rnd_num in V5 by exact N.
  apply same_num; [exact N5|exact N|exact V5|rewrite V5; exact Z].
Qed.

Lemma within_num : forall lo hi x, within lo hi x -> is_num x /\ Rabs (fval x) <= 5000.
Proof. intros lo hi x W. split; [apply W|eapply within_small, W]. Qed.

Definition small3 (c : f32 * f32 * f32) : Prop := small (fst3 c) /\ small (snd3 c) /\ small (thd3 c).

Lemma mean4_same : forall q, small3 q -> mean4 q q q q = q.
Proof.
  intros [[r g] b] ((NR & BR) & (NG & BG) & (NB & BB)). unfold fst3, snd3, thd3 in *. cbn [fst snd] in *. unfold mean4. cbn [fst snd].
  change (@fmul f32 _) with f32_mul. change (@fadd f32 _) with f32_add.
  rewrite (mean4_same32 r NR BR), (mean4_same32 g NG BG), (mean4_same32 b NB BB). reflexivity.
Qed.

(** The value at a pixel of a flat block, whatever the sub-sampling *)
Lemma target_flat : forall L f i pix c x y, sampling_of f <> SRGB ->
  small3 (fst (pix x y)) -> small3 (rgb_yuv L (yc_space i) (yc_transfer i) (yc_primaries i) (fst (pix x y))) ->
  (forall u v, (u / 2 = x / 2)%nat -> (v / 2 = y / 2)%nat -> fst (pix u v) = fst (pix x y)) ->
  target L f (CYUV i) pix c x y = target L I444 (CYUV i) pix c x y.
Proof.
  intros L f i pix c x y SF U (_ & (NU & BU) & (NV & BV)) P.
  assert (X0 : (2 * (x / 2) / 2 = x / 2)%nat) by (rewrite Nat.mul_comm; apply Nat.div_mul; lia).
  assert (Y0 : (2 * (y / 2) / 2 = y / 2)%nat) by (rewrite Nat.mul_comm; apply Nat.div_mul; lia).
  assert (X1 : ((2 * (x / 2) + 1) / 2 = x / 2)%nat) by (rewrite Nat.add_comm, Nat.mul_comm, Nat.div_add by lia; reflexivity).
  assert (Y1 : ((2 * (y / 2) + 1) / 2 = y / 2)%nat) by (rewrite Nat.add_comm, Nat.mul_comm, Nat.div_add by lia; reflexivity).
  unfold target. cbn [sampling_of]. destruct (sampling_of f) eqn:SE; cbv zeta.
  - rewrite (P _ _ X0 Y0), (P _ _ X0 Y1), (P _ _ X1 Y0), (P _ _ X1 Y1), mean4_same by exact U. reflexivity.
  - rewrite (P _ _ X0 (eq_refl (y / 2)%nat)), (P _ _ X1 (eq_refl (y / 2)%nat)). change (@fdiv f32 _) with f32_div. change (@fadd f32 _) with f32_add.
    destruct c; try reflexivity; rewrite mean2_same32; try reflexivity; assumption.
  - reflexivity.
  - congruence.
Qed.

Lemma approx_small : forall x v e, approx x v e -> Rabs v <= 20 -> e <= 20 -> small x.
Proof. intros x v e (N & A) V E. split; [exact N|]. apply Rabs_le_inv in A, V. apply Rabs_le. lra. Qed.

Lemma quantise_layout : forall q f g v, sampling_of f <> SRGB -> sampling_of g <> SRGB -> max_level f = max_level g -> quantise q f v = quantise q g v.
Proof. intros q f g v F G E. unfold quantise. rewrite E. destruct f, g; cbn in *; try congruence; reflexivity. Qed.

(** Two destinations and a pixel of a flat block *)
Lemma stored_flat : forall lm b m src sps dst1 dps1 dst2 dps2 i,
  converts lm b m src sps dst1 dps1 -> converts lm b m src sps dst2 dps2 ->
  sampling_of (im_format dst1) <> SRGB -> sampling_of (im_format dst2) <> SRGB ->
  max_level (im_format dst1) = max_level (im_format dst2) -> im_color dst1 = CYUV i -> im_color dst2 = CYUV i -> is_ictcp (yc_space i) = false ->
  same_image_kind src dst1 = false -> same_image_kind src dst2 = false ->
  forall c x y, (c = CY \/ c = CU \/ c = CV) -> in_image src x y ->
  (let L := lane_of lm (column_backend b (im_width dst1) x) in
   let pix := fun x y => recolored L (im_color src) (CYUV i) (source_pixel L m (im_format src) (im_color src) sps x y) in
     small3 (fst (pix x y)) /\ small3 (rgb_yuv L (yc_space i) (yc_transfer i) (yc_primaries i) (fst (pix x y))) /\
     forall u v, (u / 2 = x / 2)%nat -> (v / 2 = y / 2)%nat -> fst (pix u v) = fst (pix x y)) ->
  stored lm b m src dst1 dps1 c x y = stored lm b m src dst2 dps2 c x y /\ stored lm b m src dst1 dps1 c x y <> None.
Proof.
  intros lm b m src sps dst1 dps1 dst2 dps2 i C1 C2 S1 S2 ML I1 I2 SP K1 K2 c x y CC HI PX.
  pose proof (converts_convertible _ _ _ _ _ _ _ C1) as T1. pose proof (converts_convertible _ _ _ _ _ _ _ C2) as T2.
  pose proof (cv_width _ _ _ _ T1) as W1. pose proof (cv_height _ _ _ _ T1) as H1. pose proof (cv_width _ _ _ _ T2) as W2. pose proof (cv_height _ _ _ _ T2) as H2.
  assert (NC : forall dst, sampling_of (im_format dst) <> SRGB -> im_color dst = CYUV i ->
    ictcp_chroma420 (im_format dst) (im_color dst) c = false /\ has_comp (im_format dst) c = true).
  { intros dst SD CI. split.
    - unfold ictcp_chroma420. rewrite CI. destruct (sampling_of (im_format dst)); try reflexivity. rewrite SP. destruct c; reflexivity.
    - unfold has_comp. destruct (sampling_of (im_format dst)), CC as [-> |[-> | ->]]; congruence. }
  destruct (NC dst1 S1 I1) as (N1 & P1). destruct (NC dst2 S2 I2) as (N2 & P2).
  assert (IN1 : in_image dst1 x y) by (destruct HI; split; congruence). assert (IN2 : in_image dst2 x y) by (destruct HI; split; congruence).
  rewrite (stored_expected _ _ _ _ _ _ _ C1 c x y P1 IN1 N1), (stored_expected _ _ _ _ _ _ _ C2 c x y P2 IN2 N2).
  split; [|discriminate]. replace (im_width dst2) with (im_width dst1) by congruence.
  rewrite (quantise_layout _ (im_format dst1) (im_format dst2)) by assumption. f_equal. f_equal.
  unfold expected_value. rewrite K1, K2, I1, I2. destruct PX as (Q1 & Q2 & Q3).
  rewrite (target_flat _ (im_format dst1)), (target_flat _ (im_format dst2)) by assumption. reflexivity.
Qed.

(** * C89 *)

(** An RGB picture converted to two YUV layouts of equal bit depth and color info:
    where a 2 by 2 block of the picture has one color, both hold the same samples. *)
Theorem C89_flat_block_partial : forall lm b m src sps dst1 dps1 dst2 dps2 i,
  converts lm b m src sps dst1 dps1 -> converts lm b m src sps dst2 dps2 -> bytes_ok m ->
  sampling_of (im_format src) = SRGB -> sampling_of (im_format dst1) <> SRGB -> sampling_of (im_format dst2) <> SRGB ->
  max_level (im_format dst1) = max_level (im_format dst2) ->
  im_color dst1 = CYUV i -> im_color dst2 = CYUV i ->
  is_ictcp (yc_space i) = false ->                              (* missing: ICtCp, see C89_ictcp_refuted *)
  same_light (im_color src) (im_color dst1) = true ->           (* missing: other curves and primaries *)
  forall c x y, (c = CY \/ c = CU \/ c = CV) -> in_image src x y -> flat_block m src sps x y ->
  stored lm b m src dst1 dps1 c x y = stored lm b m src dst2 dps2 c x y /\ stored lm b m src dst1 dps1 c x y <> None.
Proof.
  intros lm b m src sps dst1 dps1 dst2 dps2 i C1 C2 BM SS S1 S2 ML I1 I2 SP SL c x y CC HI FB. rewrite I1 in SL.
  assert (K : forall dst, sampling_of (im_format dst) <> SRGB -> same_image_kind src dst = false).
  { intros dst SD. unfold same_image_kind. apply andb_false_iff; left. destruct (im_format src), (im_format dst); try reflexivity; cbn in SS, SD; congruence. }
  assert (VS : valid_image src sps) by apply C1.
  refine (stored_flat lm b m src sps dst1 dps1 dst2 dps2 i C1 C2 S1 S2 ML I1 I2 SP (K _ S1) (K _ S2) c x y CC HI _).
  intros L pix.
  assert (PE : forall u v, pix u v = source_pixel L m (im_format src) (im_color src) sps u v) by (intros u v; unfold pix, recolored; rewrite SL; reflexivity).
  clearbody pix.
  assert (U : unit32 (fst (pix x y))).
  { rewrite ?PE. unfold source_pixel. rewrite SS. cbn [fst]. unfold unit32, fst3, snd3, thd3. cbn [fst snd]. split; [|split]; apply norm_unit; assumption. }
  split; [|split].
  - destruct U as (UR & UG & UB). split; [|split]; eapply within_num; eassumption.
  - destruct (yuv_within (yc_space i) (yc_transfer i) (yc_primaries i) L _ SP U) as (WY & WU & WV). split; [|split]; eapply within_num; eassumption.
  - intros u v HU HV. rewrite ?PE. unfold source_pixel. rewrite SS. cbn [fst]. unfold norm.
    pose proof (fun c H => FB c u v H HU HV) as A. unfold given in A. rewrite !A by auto. reflexivity.
Qed.
Print Assumptions C89_flat_block_partial.

(** The same for YUV sources, where neither destination has the format and color info
    of the source (such a conversion copies samples, C20). *)
Theorem C89_flat_yuv_partial : forall lm b m src sps dst1 dps1 dst2 dps2 is ks i k,
  converts lm b m src sps dst1 dps1 -> converts lm b m src sps dst2 dps2 -> levels_ok m src sps ->
  sampling_of (im_format src) <> SRGB -> sampling_of (im_format dst1) <> SRGB -> sampling_of (im_format dst2) <> SRGB ->
  max_level (im_format dst1) = max_level (im_format dst2) ->
  im_color src = CYUV is -> im_color dst1 = CYUV i -> im_color dst2 = CYUV i ->
  weights_of (yc_space is) = Some ks -> weights_of (yc_space i) = Some k -> (* missing: ICtCp, see C89_ictcp_refuted *)
  same_light (CYUV is) (CYUV i) = true ->                                   (* missing: other curves and primaries *)
  same_image_kind src dst1 = false -> same_image_kind src dst2 = false ->
  forall c x y, (c = CY \/ c = CU \/ c = CV) -> in_image src x y -> flat_yuv m src sps x y ->
  stored lm b m src dst1 dps1 c x y = stored lm b m src dst2 dps2 c x y /\ stored lm b m src dst1 dps1 c x y <> None.
Proof.
  intros lm b m src sps dst1 dps1 dst2 dps2 is ks i k C1 C2 LV SS S1 S2 ML CS I1 I2 WS WK SL K1 K2 c x y CC HI FB. rewrite <- CS in SL.
  assert (VS : valid_image src sps) by apply C1. assert (NI : is_ictcp (yc_space i) = false) by (destruct (yc_space i); try reflexivity; discriminate WK).
  refine (stored_flat lm b m src sps dst1 dps1 dst2 dps2 i C1 C2 S1 S2 ML I1 I2 NI K1 K2 c x y CC HI _).
  intros L pix.
  assert (PE : forall u v, pix u v = source_pixel L m (im_format src) (im_color src) sps u v) by (intros u v; unfold pix, recolored; rewrite SL; reflexivity).
  clearbody pix.
  pose proof (yuv_source_acc_by L m src sps is _ _ _ x y VS LV SS CS (decoder_any is ks WS) (fun vy vu vv => bound_any (yc_space is) ks vy vu vv WS) HI) as A.
  destruct A as ((AR & AG & AB) & BR & BG & BB) eqn:EA. clear EA. rewrite <- PE in A, AR, AG, AB. split; [|split].
  - split; [|split]; (eapply approx_small; [eassumption|lra|unfold u7; lra]).
  - destruct (encoder_any L i k WK) as (E1 & E2 & _). destruct (E1 _ (190 * u7) _ _ _ ltac:(unfold u7; lra) A) as (AY & AU & AV). destruct (E2 _ _ _ BR BG BB) as (BY & BU & BV).
    split; [|split]; (eapply approx_small; [eassumption|lra|unfold u7; lra]).
  - intros u v HU HV. rewrite ?PE. unfold source_pixel. rewrite CS. unfold norm.
    pose proof (fun c H => FB c u v H HU HV) as G. unfold given in G. rewrite !G by auto. destruct (sampling_of (im_format src)); reflexivity || congruence.
Qed.
Print Assumptions C89_flat_yuv_partial.

(** The same for RGB sources with another transfer function or other primaries, for
    colors in the gamut of the destination. *)
Theorem C89_flat_recolored_partial : forall sp sl b m src sps dst1 dps1 dst2 dps2 i k,
  converts (libm_of sp sl) b m src sps dst1 dps1 -> converts (libm_of sp sl) b m src sps dst2 dps2 -> bytes_ok m ->
  sampling_of (im_format src) = SRGB -> sampling_of (im_format dst1) <> SRGB -> sampling_of (im_format dst2) <> SRGB ->
  max_level (im_format dst1) = max_level (im_format dst2) ->
  im_color dst1 = CYUV i -> im_color dst2 = CYUV i -> weights_of (yc_space i) = Some k -> (* missing: ICtCp, see C89_ictcp_refuted *)
  same_light (im_color src) (CYUV i) = false ->
  let ts := ci_transfer (im_color src) in
  let td := yc_transfer i in
  ts <> TBT2100PQ -> td = TLinear \/ td = TSRGB \/ td = TSDR ->                           (* missing: other curves *)
  forall c x y, (c = CY \/ c = CU \/ c = CV) -> in_image src x y -> flat_block m src sps x y ->
  platform_pow sp sl (column_backend b (im_width dst1) x) ->
  let s c := level m (im_format src) sps c x y / 255 in
  let light := light_of ts (ci_primaries (im_color src)) (yc_primaries i) (s CR) (s CG) (s CB) in
  (forall c, In c comps -> in_gamut (channel c light)) ->                                 (* missing: other colors *)
  stored (libm_of sp sl) b m src dst1 dps1 c x y = stored (libm_of sp sl) b m src dst2 dps2 c x y /\ stored (libm_of sp sl) b m src dst1 dps1 c x y <> None.
Proof.
  intros sp sl b m src sps dst1 dps1 dst2 dps2 i k C1 C2 BM SS S1 S2 ML I1 I2 WK SL ts td TS G c x y CC HI FB PL s light GM.
  assert (VS : valid_image src sps) by apply C1. assert (NI : is_ictcp (yc_space i) = false) by (destruct (yc_space i); try reflexivity; discriminate WK).
  assert (K1 : same_image_kind src dst1 = false) by (apply light_kind; rewrite I1; exact SL).
  assert (K2 : same_image_kind src dst2 = false) by (apply light_kind; rewrite I2; exact SL).
  refine (stored_flat (libm_of sp sl) b m src sps dst1 dps1 dst2 dps2 i C1 C2 S1 S2 ML I1 I2 NI K1 K2 c x y CC HI _).
  intros L pix.
  assert (PE : forall u v, pix u v = (recolor L ts td (ci_primaries (im_color src)) (yc_primaries i) (fst (source_pixel L m (im_format src) (im_color src) sps u v)),
    snd (source_pixel L m (im_format src) (im_color src) sps u v))) by (intros u v; unfold pix, recolored; rewrite SL; reflexivity).
  clearbody pix.
  pose proof (accurate_lane sp sl _ PL) as A. fold L in A.
  destruct (rgb_light L m src sps x y A VS BM SS TS) as (D & W).
  pose proof (GM CR ltac:(cbn; auto)) as G1. pose proof (GM CG ltac:(cbn; auto)) as G2. pose proof (GM CB ltac:(cbn; auto)) as G3.
  assert (RA : pixel_approx (13 * (256 / 100 * (57 / 10000000) + 9 / 1000000) + 15 / 100000) (pix x y) (shown td CR light) (shown td CG light) (shown td CB light)).
  { rewrite PE. cbn [fst snd]. set (q := fst (source_pixel L m (im_format src) (im_color src) sps x y)) in *.
    pose proof (recolor_acc sp sl _ ts td (ci_primaries (im_color src)) (yc_primaries i) q _ _ A G D W ltac:(lra)) as RA. fold L in RA.
    unfold light, light_of in *. fold ts in RA. unfold s in *.
    destruct (from_xyz (yc_primaries i) (to_xyz (ci_primaries (im_color src)) _)) as ((p1, p2), p3).
    unfold in_gamut, channel, fst3, snd3, thd3 in G1, G2, G3. cbn [fst snd] in G1, G2, G3.
    specialize (RA ltac:(cbn; lra)).
    assert (T : forall v, - (1 / 100000) <= v <= 1 + 1 / 100000 -> Rabs (encoded td (Rmax 0 v)) <= 3).
    { intros v V. assert (0 <= Rmax 0 v <= 1 + 1 / 100000) as MV by (unfold Rmax; destruct (Rle_dec 0 v); lra).
      pose proof (encoded_top td _ G MV). apply Rabs_le. lra. }
    unfold pixel_approx, shown, channel, fst3, snd3, thd3. cbn [fst snd]. fold td.
    destruct (recolor L ts td (ci_primaries (im_color src)) (yc_primaries i) q) as ((q1, q2), q3). destruct RA as (R1 & R2 & R3). cbn [fst snd].
    split; [split; [exact R1|split; [exact R2|exact R3]]|]. split; [apply T; lra|split; apply T; lra]. }
  split; [|split].
  - destruct RA as ((AR & AG & AB) & BR & BG & BB). split; [|split]; (eapply approx_small; [eassumption|lra|lra]).
  - destruct (encoder_any L i k WK) as (E1 & E2 & _). destruct (E1 _ (13 * (256 / 100 * (57 / 10000000) + 9 / 1000000) + 15 / 100000) _ _ _ ltac:(lra) RA) as (AY & AU & AV).
    destruct RA as (_ & BR & BG & BB). destruct (E2 _ _ _ BR BG BB) as (BY & BU & BV).
    split; [|split]; (eapply approx_small; [eassumption|lra|unfold u7; lra]).
  - intros u v HU HV. rewrite !PE. unfold source_pixel. rewrite SS. cbn [fst]. unfold norm.
    pose proof (fun c H => FB c u v H HU HV) as E. unfold given in E. rewrite !E by auto. reflexivity.
Qed.
Print Assumptions C89_flat_recolored_partial.

(** An orange picture, to limited range BT.709 in 4:2:0 and 4:4:4.  The chroma is not
    neutral. *)
Example C89_example : forall b,
  converts ex_lm b orange ex_rgb22 ex_rgb_planes (ex_i420 1 drift_709) (ex_yuv_planes 1) /\
  converts ex_lm b orange ex_rgb22 ex_rgb_planes drift_i444 i444_planes /\ bytes_ok orange /\
  flat_block orange ex_rgb22 ex_rgb_planes 1 1 /\
  stored ex_lm b orange ex_rgb22 (ex_i420 1 drift_709) (ex_yuv_planes 1) CU 1 1 = stored ex_lm b orange ex_rgb22 drift_i444 i444_planes CU 1 1 /\
  stored ex_lm b orange ex_rgb22 drift_i444 i444_planes CU 1 1 = Some 95%Z.
Proof.
  intros b. split; [ex_converts b|]. split.
  { apply runs; [| |apply i444_disjoint|discriminate|vm_compute; reflexivity];
      (split; [reflexivity|split; [repeat constructor; cbn; unfold usize; cbn; lia|reflexivity]]). }
  split; [intros [|k] i; unfold orange; cbv zeta; [|lia]; destruct (i mod 7 mod 3)%nat as [|[|n]]; lia|]. split.
  - intros c u v H U V. change (1 / 2)%nat with 0%nat in U, V. apply Nat.div_small_iff in U, V; try lia.
    destruct u as [|[|u]], v as [|[|v]]; try lia; destruct H as [-> |[-> | ->]]; reflexivity.
  - destruct b; vm_compute; split; reflexivity.
Qed.

(** A full range 4:2:0 picture of one color, to limited range 4:2:0 and 4:4:4 *)
Definition teal : mem := fun b i => match b, i with 0, 4 => 140%Z | 0, 5 => 60%Z | 0, _ => 100%Z | _, _ => 0%Z end%nat.
Example C89_example_yuv : forall b,
  converts ex_lm b teal (ex_i420 0 ex_yuv) (ex_yuv_planes 0) (ex_i420 1 drift_709) (ex_yuv_planes 1) /\
  converts ex_lm b teal (ex_i420 0 ex_yuv) (ex_yuv_planes 0) drift_i444 i444_planes /\ levels_ok teal (ex_i420 0 ex_yuv) (ex_yuv_planes 0) /\
  same_image_kind (ex_i420 0 ex_yuv) (ex_i420 1 drift_709) = false /\ same_image_kind (ex_i420 0 ex_yuv) drift_i444 = false /\
  flat_yuv teal (ex_i420 0 ex_yuv) (ex_yuv_planes 0) 1 1 /\
  stored ex_lm b teal (ex_i420 0 ex_yuv) (ex_i420 1 drift_709) (ex_yuv_planes 1) SpecGeom.CV 1 1 = Some 68%Z.
Proof.
  intros b. split; [ex_converts b|]. split.
  { apply runs; [| |apply i444_disjoint|discriminate|vm_compute; reflexivity];
      (split; [reflexivity|split; [repeat constructor; cbn; unfold usize; cbn; lia|reflexivity]]). }
  split; [apply bytes_levels; [|reflexivity]; intros [|k] i; unfold teal; [|lia]; do 6 (destruct i as [|i]; [lia|]); lia|].
  split; [reflexivity|]. split; [reflexivity|]. split.
  - intros c u v H U V. change (1 / 2)%nat with 0%nat in U, V. apply Nat.div_small_iff in U, V; try lia.
    destruct u as [|[|u]], v as [|[|v]]; try lia; destruct H as [-> |[-> | ->]]; reflexivity.
  - destruct b; vm_compute; reflexivity.
Qed.

(** A BT.709 sRGB picture of one color, to BT.2020 primaries and the SDR curve *)
Definition rose : mem := fun b i => match b, i mod 4 with 0, 0 => 200%Z | 0, 1 => 100%Z | 0, _ => 120%Z | _, _ => 0%Z end%nat.
Definition sdr444 : image := ex_image I444 2 2 (CYUV (YuvCI TSDR PrBT2020 SpBT709 false)) i444_planes.
Example C89_example_recolored : forall b, let lm := libm_of avx_pow avx_log in
  converts lm b rose srgb22 (ex_rgba_planes 0) (sdr22 I420) (ex_yuv_planes 1) /\
  converts lm b rose srgb22 (ex_rgba_planes 0) sdr444 i444_planes /\ bytes_ok rose /\
  same_light (im_color srgb22) (im_color sdr444) = false /\ (forall cb, platform_pow avx_pow avx_log cb) /\
  flat_block rose srgb22 (ex_rgba_planes 0) 1 1 /\
  (forall c, In c comps -> in_gamut (channel c (light_of TSRGB PrBT709 PrBT2020 (200 / 255) (100 / 255) (120 / 255)))) /\
  map (fun c => level rose RGBA (ex_rgba_planes 0) c 1 1) [CR; CG; CB] = [200; 100; 120].
Proof.
  intros b lm. split; [ex_converts b|]. split.
  { apply runs; [| |apply i444_disjoint|discriminate|vm_compute; reflexivity];
      (split; [reflexivity|split; [repeat constructor; cbn; unfold usize; cbn; lia|reflexivity]]). }
  split; [intros [|k] i; unfold rose; [|lia]; destruct (i mod 4)%nat as [|[|n]]; lia|]. split; [reflexivity|].
  split; [intros cb _; split; [exact avx_pow_ok|split; [exact (log_contract avx_log avx_log_ok)|exact avx_pow_negative]]|].
  split; [|split; [|reflexivity]].
  - intros c u v H U V. change (1 / 2)%nat with 0%nat in U, V. apply Nat.div_small_iff in U, V; try lia.
    destruct u as [|[|u]], v as [|[|v]]; try lia; destruct H as [-> |[-> | ->]]; reflexivity.
  - apply gamut_kept; [auto|right; reflexivity|lra|lra|lra].
Qed.

(** Without the flat block the samples differ: the red of one pixel colors its block. *)
Definition one_red : mem := fun b i => match b, i with 0%nat, 0%nat => 200%Z | _, _ => 0%Z end.
Example C89_not_flat : forall b,
  converts ex_lm b one_red ex_rgb22 ex_rgb_planes (ex_i420 1 drift_709) (ex_yuv_planes 1) /\
  converts ex_lm b one_red ex_rgb22 ex_rgb_planes drift_i444 i444_planes /\
  stored ex_lm b one_red ex_rgb22 (ex_i420 1 drift_709) (ex_yuv_planes 1) SpecGeom.CV 1 1 <> stored ex_lm b one_red ex_rgb22 drift_i444 i444_planes SpecGeom.CV 1 1.
Proof.
  intros b. split; [ex_converts b|]. split.
  { apply runs; [| |apply i444_disjoint|discriminate|vm_compute; reflexivity];
      (split; [reflexivity|split; [repeat constructor; cbn; unfold usize; cbn; lia|reflexivity]]). }
  destruct b; vm_compute; discriminate.
Qed.

(** ICtCp: the block at (0, 0) is black.  With AVX2 the red of pixel (8, 0) is in its
    4:2:0 chroma (C62), but not in its 4:4:4 chroma. *)
Definition dot_i444_planes : list (slice * nat) := [(Slice 1 0 32, 16); (Slice 1 32 32, 16); (Slice 1 64 32, 16)]%nat.
Definition dot_i444 : image := ex_image I444 16 2 (CYUV PropFidelity.ictcp_hlg) dot_i444_planes.
Theorem C89_ictcp_refuted :
  converts ex_lm AVX2 (dot_mem 200) dot_src dot_planes dot_dst dot_dst_planes /\
  converts ex_lm AVX2 (dot_mem 200) dot_src dot_planes dot_i444 dot_i444_planes /\
  flat_block (dot_mem 200) dot_src dot_planes 0 0 /\
  stored ex_lm AVX2 (dot_mem 200) dot_src dot_dst dot_dst_planes SpecGeom.CV 0 0 = Some 164%Z /\
  stored ex_lm AVX2 (dot_mem 200) dot_src dot_i444 dot_i444_planes SpecGeom.CV 0 0 = Some 128%Z.
Proof.
  split; [apply dot_converts; auto|]. split; [|split].
  - split; [|split; [|split; [|split]]]; try (split; [reflexivity|split; [repeat constructor; cbn; unfold usize; cbn; lia|reflexivity]]).
    + intros i j a c H Ha Hc k K. destruct i as [|[|[|i]]], j as [|[|[|j]]]; cbn in Ha, Hc; try discriminate Ha; try discriminate Hc;
        try (destruct (H eq_refl)); try (destruct i; discriminate Ha); try (destruct j; discriminate Hc);
        injection Ha as <-; injection Hc as <-; cbn in K; lia.
    + discriminate.
    + vm_compute. reflexivity.
  - intros c u v H U V. change (0 / 2)%nat with 0%nat in U, V. apply Nat.div_small_iff in U, V; try lia.
    destruct u as [|[|u]], v as [|[|v]]; try lia; destruct H as [-> |[-> | ->]]; reflexivity.
  - vm_compute. split; reflexivity.
Qed.
Print Assumptions C89_ictcp_refuted.
