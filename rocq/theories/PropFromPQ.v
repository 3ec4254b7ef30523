(** C81: what convert stores for images with the PQ curve. *)

From Coq Require Import List ZArith Bool Arith Reals Lia Lra Psatz.
From Coq Require Import Floats.SpecFloat.
From Flocq Require Import Core.
From Verif Require Import Base Types Planes ImageM F32 Vector Simd SpecVector SimdProofs QuantProofs SpecGeom GeomProofs
  SpecColor SpecConvert SpecRun Formats Visit Convert VisitProofs ColorProofs ConvertProofs ExactProofs PropConvert PropFidelity
  SpecReal FloatProofs AccProofs TargetProofs PropColor ColorR SpecTransfer PowerProofs MathProofs SpecMath LaneProofs TransferProofs
  Math NegProofs RecolorProofs PropRecolor GamutProofs PropGamut GrayProofs PropGray PropDrift PropBT2020 PropOut IctcpProofs WideProofs PropWide PqProofs.
Import ListNotations.
Local Open Scope R_scope.

(** The light of the brightest channel of a PQ color, in cd/m2 *)
Definition peak (r g b : R) : R := Rmax (pq_decode r) (Rmax (pq_decode g) (pq_decode b)).

(** Accuracy of the light that is stored: half a percent of the brightest channel *)
Definition pq_error (r g b : R) : R := (3 + 5 * peak r g b) / 1000.

Lemma peak_ge : forall r g b, pq_decode r <= peak r g b /\ pq_decode g <= peak r g b /\ pq_decode b <= peak r g b.
Proof.
  intros r g b. unfold peak. pose proof (Rmax_l (pq_decode r) (Rmax (pq_decode g) (pq_decode b))).
  pose proof (Rmax_r (pq_decode r) (Rmax (pq_decode g) (pq_decode b))). pose proof (Rmax_l (pq_decode g) (pq_decode b)). pose proof (Rmax_r (pq_decode g) (pq_decode b)). lra.
Qed.

Lemma stored_from_pq : forall sp sl b m src sps dst dps, converts (libm_of sp sl) b m src sps dst dps ->
  sampling_of (im_format dst) = SRGB ->
  let td := ci_transfer (im_color dst) in
  ci_transfer (im_color src) = TBT2100PQ -> td <> TBT2100PQ ->
  forall c x y, In c comps -> in_image dst x y ->
  let cb := column_backend b (im_width dst) x in
  platform_pow sp sl cb ->
  let L := lane_of (libm_of sp sl) cb in
  forall r g bl, (let q := fst (source_pixel L m (im_format src) (im_color src) sps x y) in approx3 q (r, g, bl) (19 / 1000000)) ->
  r <= 1 -> g <= 1 -> bl <= 1 ->
  let exact := channel c (light_of TBT2100PQ (ci_primaries (im_color src)) (ci_primaries (im_color dst)) r g bl) in
  (td = TLinear -> exact + pq_error r g bl <= 128) ->
  exists z light, stored (libm_of sp sl) b m src dst dps c x y = Some z /\ (0 <= z <= 255)%Z /\
    Rabs (light - exact) <= pq_error r g bl /\
    stored_for cb (255 * (6 / 1000000)) (clamp 255 (255 * encoded td (Rmax 0 light))) z.
Proof.
  intros sp sl b m src sps dst dps CVT FD td TS TD c x y HC HI cb PL L r g bl AP LR LG LB exact LI.
  assert (SL : same_light (im_color src) (im_color dst) = false).
  { unfold same_light. rewrite TS. fold td. destruct td; try reflexivity. congruence. }
  pose proof (light_kind _ _ SL) as SK.
  assert (HD : has_comp (im_format dst) c = true) by (unfold has_comp; rewrite FD; cbn [In comps] in HC; intuition (subst; reflexivity)).
  assert (ICT : ictcp_chroma420 (im_format dst) (im_color dst) c = false) by (unfold ictcp_chroma420; rewrite FD; reflexivity).
  rewrite (stored_expected _ _ _ _ _ _ _ CVT c x y HD HI ICT). fold cb. fold L.
  pose proof (accurate_lane sp sl cb PL) as A. fold L in A.
  assert (PN : pow_negative (l_pow L)) by (apply lane_negative; intros E; apply PL, E).
  unfold expected_value. rewrite SK. unfold target. rewrite FD. unfold recolored. rewrite SL, TS.
  destruct (source_pixel L m (im_format src) (im_color src) sps x y) as (q, al). cbv zeta in AP. cbn [fst snd] in *. unfold recolor. fold td.
  destruct q as ((qr, qg), qb). destruct AP as (AR & AG & AB).
  destruct (pq_dec_color L qr r A AR LR) as (DR & BR). destruct (pq_dec_color L qg g A AG LG) as (DG & BG). destruct (pq_dec_color L qb bl A AB LB) as (DB & BB).
  pose proof (peak_ge r g bl) as PG. assert (PB : 0 <= peak r g bl <= 10000) by (split; [lra|]; unfold peak; repeat apply Rmax_lub; lra).
  set (P := peak r g bl) in *. set (e := 11 / 10000 + 18 / 10000 * P).
  set (w := (pq_decode r, pq_decode g, pq_decode bl)).
  assert (W : between3 0 P w) by (split; [|split]; lra).
  assert (W' : between3 0 (1 + P) w) by (split; [|split]; lra).
  assert (D3 : approx3 (map3 (eotf L TBT2100PQ) (qr, qg, qb)) w e) by (split; [|split]; (eapply approx_le; [eassumption|unfold e; lra])).
  pose proof (light_scaled (1 + P) (ci_primaries (im_color src)) (ci_primaries (im_color dst)) _ w e ltac:(lra) D3 W' ltac:(unfold e; lra)) as F3.
  pose proof (linear_wide (ci_primaries (im_color src)) (ci_primaries (im_color dst)) 0 P w ltac:(lra) ltac:(lra) W) as FB.
  assert (XE : exact = channel c (from_xyz (ci_primaries (im_color dst)) (to_xyz (ci_primaries (im_color src)) w))) by reflexivity.
  clearbody exact. unfold pq_error in *. fold P in LI. fold P. clear DR DG DB AR AG AB D3 W W' BR BG BB PG.
  destruct (from_xyz (ci_primaries (im_color dst)) (to_xyz (ci_primaries (im_color src)) (map3 (eotf L TBT2100PQ) (qr, qg, qb)))) as ((q1, q2), q3).
  destruct (from_xyz (ci_primaries (im_color dst)) (to_xyz (ci_primaries (im_color src)) w)) as ((p1, p2), p3). clearbody P.
  destruct F3 as (Q1 & Q2 & Q3). destruct FB as (P1 & P2 & P3).
  assert (END : forall q, approx q exact (256 / 100 * e + 7 / 1000000 * (1 + P)) -> 179 / 100 * 0 - 79 / 100 * P <= exact <= 179 / 100 * P - 79 / 100 * 0 ->
    exists z light, Some (quantise (quant_of cb) (im_format dst) (oetf L td q)) = Some z /\ (0 <= z <= 255)%Z /\
      Rabs (light - exact) <= (3 + 5 * P) / 1000 /\ stored_for cb (255 * (6 / 1000000)) (clamp 255 (255 * encoded td (Rmax 0 light))) z).
  { intros q' (NQ & EQ) BP. apply Rabs_le_inv in EQ. unfold e in EQ. clear Q1 Q2 Q3 P1 P2 P3 XE. clearbody w.
    destruct (store_far L cb (im_format dst) td q' A PN TD FD NQ ltac:(lra)) as (X & EX & ST & ZB).
    { intros EL. specialize (LI EL). lra. }
    exists (quantise (quant_of cb) (im_format dst) (oetf L td q')), X. split; [reflexivity|]. split; [exact ZB|]. apply Rabs_le_inv in EX.
    split; [apply Rabs_le; lra|]. eapply stored_for_weaken; [exact ST|lra]. }
  cbn [In comps] in HC. cbn [map3 fst3 snd3 thd3]. unfold channel, fst3, snd3, thd3 in XE.
  destruct HC as [<- |[<- |[<- |[]]]]; cbn [fst snd] in *; apply END; rewrite XE; assumption.
Qed.

(** * C81 *)

(** RGB with the PQ curve to RGB with another curve: the sample stands for light
    that is the light of the source color in the primaries of the destination, up
    to half a percent of the brightest channel (and 3/1000).  1.0 is taken for
    1 cd/m2, so that what is brighter becomes white.
    Missing: linear destinations where the light reaches 128; there the code
    stores 0 with AVX2 and AVX-512 (C66_pq_linear_refuted). *)
Theorem C81_rgb_to_rgb_partial : forall sp sl b m src sps dst dps,
  converts (libm_of sp sl) b m src sps dst dps -> bytes_ok m ->
  sampling_of (im_format src) = SRGB -> sampling_of (im_format dst) = SRGB ->
  let td := ci_transfer (im_color dst) in
  ci_transfer (im_color src) = TBT2100PQ -> td <> TBT2100PQ ->
  forall c x y, In c comps -> in_image dst x y ->
  let cb := column_backend b (im_width dst) x in
  platform_pow sp sl cb ->
  let s c := level m (im_format src) sps c x y / 255 in
  let exact := channel c (light_of TBT2100PQ (ci_primaries (im_color src)) (ci_primaries (im_color dst)) (s CR) (s CG) (s CB)) in
  let error := pq_error (s CR) (s CG) (s CB) in
  (td = TLinear -> exact + error <= 128) ->
  exists z light, stored (libm_of sp sl) b m src dst dps c x y = Some z /\ (0 <= z <= 255)%Z /\
    Rabs (light - exact) <= error /\
    stored_for cb (255 * (6 / 1000000)) (clamp 255 (255 * encoded td (Rmax 0 light))) z.
Proof.
  intros sp sl b m src sps dst dps CVT B FS FD td TS TD c x y HC HI cb PL s exact error LI.
  pose proof (converts_convertible _ _ _ _ _ _ _ CVT) as CT.
  assert (VS : valid_image src sps) by apply CVT.
  assert (HS : in_image src x y) by (unfold in_image in *; rewrite (cv_width _ _ _ _ CT), (cv_height _ _ _ _ CT); exact HI).
  assert (LV : levels_ok m src sps) by (apply bytes_levels; [exact B|destruct (im_format src); try discriminate FS; reflexivity]).
  assert (M : max_level (im_format src) = 255%Z) by (destruct (im_format src); try discriminate FS; reflexivity).
  assert (S1 : forall c, In c comps -> s c <= 1).
  { intros c' HC'. assert (HH : has_comp (im_format src) c' = true) by (unfold has_comp; rewrite FS; cbn [In comps] in HC'; intuition (subst; reflexivity)).
    destruct (norm_acc m src sps c' x y VS LV HS HH) as (_ & A'). rewrite M in A'. unfold s. lra. }
  destruct (rgb_source_acc (lane_of (libm_of sp sl) cb) m src sps x y VS B FS HS) as (R3 & _).
  apply (stored_from_pq sp sl b m src sps dst dps CVT FD TS TD c x y HC HI PL (s CR) (s CG) (s CB)); try (apply S1; cbn; auto); [|exact LI].
  fold cb. destruct (source_pixel (lane_of (libm_of sp sl) cb) m (im_format src) (im_color src) sps x y) as (((r, g), bl), al).
  unfold fst3, snd3, thd3 in R3. cbn [fst snd] in *. destruct R3 as (R1 & R2 & R3).
  split; [|split]; (eapply approx_le; [eassumption|unfold u7; lra]).
Qed.
Print Assumptions C81_rgb_to_rgb_partial.

(** YUV with the PQ curve to RGB with another curve, for samples that stand for
    colors of up to 1; negative ones are as dark as 0.
    Missing: colors above 1 and, as above, light of 128 in linear destinations. *)
Theorem C81_yuv_to_rgb_partial : forall sp sl b m src sps dst dps i k,
  converts (libm_of sp sl) b m src sps dst dps -> levels_ok m src sps ->
  sampling_of (im_format src) <> SRGB -> sampling_of (im_format dst) = SRGB ->
  im_color src = CYUV i -> weights_of (yc_space i) = Some k ->
  let td := ci_transfer (im_color dst) in
  yc_transfer i = TBT2100PQ -> td <> TBT2100PQ ->
  forall c x y, In c comps -> in_image dst x y ->
  let cb := column_backend b (im_width dst) x in
  platform_pow sp sl cb ->
  let s c := read_at k m src sps i c x y in
  (forall c, In c comps -> s c <= 1) ->
  let exact := channel c (light_of TBT2100PQ (ci_primaries (im_color src)) (ci_primaries (im_color dst)) (Rmax 0 (s CR)) (Rmax 0 (s CG)) (Rmax 0 (s CB))) in
  let error := pq_error (Rmax 0 (s CR)) (Rmax 0 (s CG)) (Rmax 0 (s CB)) in
  (td = TLinear -> exact + error <= 128) ->
  exists z light, stored (libm_of sp sl) b m src dst dps c x y = Some z /\ (0 <= z <= 255)%Z /\
    Rabs (light - exact) <= error /\
    stored_for cb (255 * (6 / 1000000)) (clamp 255 (255 * encoded td (Rmax 0 light))) z.
Proof.
  intros sp sl b m src sps dst dps i k CVT LV FS FD CI W td TS TD c x y HC HI cb PL s S1.
  pose proof (converts_convertible _ _ _ _ _ _ _ CVT) as CT.
  assert (VS : valid_image src sps) by apply CVT.
  assert (HS : in_image src x y) by (unfold in_image in *; rewrite (cv_width _ _ _ _ CT), (cv_height _ _ _ _ CT); exact HI).
  assert (EM : forall v, pq_decode (Rmax 0 v) = pq_decode v) by (intros v; rewrite Rmax_comm; symmetry; apply pq_decode_max).
  intros exact error LI.
  assert (XE : exact = channel c (light_of TBT2100PQ (ci_primaries (im_color src)) (ci_primaries (im_color dst)) (s CR) (s CG) (s CB)))
    by (unfold exact, light_of, decoded; rewrite !EM; reflexivity).
  assert (XR : error = pq_error (s CR) (s CG) (s CB)) by (unfold error, pq_error, peak; rewrite !EM; reflexivity).
  clearbody exact error. subst exact error.
  destruct (yuv_source_acc_by (lane_of (libm_of sp sl) cb) m src sps i _ _ _ x y VS LV FS CI (decoder_any i k W)
    (fun vy vu vv => bound_any (yc_space i) k vy vu vv W) HS) as ((AR & AG & AB) & _).
  apply (stored_from_pq sp sl b m src sps dst dps CVT FD ltac:(rewrite CI; exact TS) TD c x y HC HI PL (s CR) (s CG) (s CB)); try (apply S1; cbn; auto); [|exact LI].
  fold cb. destruct (source_pixel (lane_of (libm_of sp sl) cb) m (im_format src) (im_color src) sps x y) as (((r, g), bl), al).
  unfold fst3, snd3, thd3 in AR, AG, AB. cbn [fst snd] in *.
  split; [|split]; (eapply approx_le; [eassumption|unfold u7; lra]).
Qed.
Print Assumptions C81_yuv_to_rgb_partial.

(** A BT.2020 PQ picture to BT.709 sRGB: whatever the samples are, and for YUV a
    picture of colors between 1/4 and 3/4 *)
Definition pq_in : image := ex_image RGBA 2 2 (CRGB TBT2100PQ PrBT2020) (ex_rgba_planes 0).
Definition pq_info : yuv_color_info := YuvCI TBT2100PQ PrBT2020 SpBT2020 false.
Definition pq_yuv_in : image := ex_image I420 2 2 (CYUV pq_info) (ex_yuv_planes 0).
Definition srgb_out : image := ex_image RGBA 2 2 (CRGB TSRGB PrBT709) (ex_rgba_planes 1).
Definition dim_mem : mem := fun b i => if (i mod 4 =? 3)%nat then 255%Z else (30 + Z.of_nat (i mod 4))%Z.

Lemma pq_colors : forall x y, in_image pq_yuv_in x y -> forall c, In c comps -> read_at bt2020 soft_mem pq_yuv_in (ex_yuv_planes 0) pq_info c x y <= 1.
Proof.
  intros x y H c HC. change (read_at bt2020 soft_mem wide_src (ex_yuv_planes 0) wide_info c x y <= 1). apply (wide_colors x y H c HC).
Qed.

Example C81_example : forall b, let lm := libm_of avx_pow avx_log in
  converts lm b dim_mem pq_in (ex_rgba_planes 0) srgb_out (ex_rgba_planes 1) /\ bytes_ok dim_mem /\
  converts lm b soft_mem pq_yuv_in (ex_yuv_planes 0) srgb_out (ex_rgba_planes 1) /\ levels_ok soft_mem pq_yuv_in (ex_yuv_planes 0) /\
  (forall cb, platform_pow avx_pow avx_log cb) /\
  (forall x y, in_image pq_yuv_in x y -> forall c, In c comps -> read_at bt2020 soft_mem pq_yuv_in (ex_yuv_planes 0) pq_info c x y <= 1) /\
  map (fun c => stored lm b dim_mem pq_in srgb_out (ex_rgba_planes 1) c 1 1) comps = [Some 181; Some 196; Some 204]%Z.
Proof.
  intros b lm. split; [unfold lm; ex_converts b|].
  split; [intros bf i; unfold dim_mem; destruct (i mod 4 =? 3)%nat; pose proof (Nat.mod_upper_bound i 4); lia|].
  split; [unfold lm; ex_converts b|]. split; [apply bytes_levels; [|reflexivity]; intros bf i; unfold soft_mem; pose proof (Nat.mod_upper_bound i 4); lia|].
  split; [intros cb _; split; [exact avx_pow_ok|split; [exact (log_contract avx_log avx_log_ok)|exact avx_pow_negative]]|].
  split; [exact pq_colors|]. unfold lm. narrow b (ex_rgba_planes 0).
Qed.
