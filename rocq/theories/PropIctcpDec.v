(** C77: what convert reads from ICtCp. *)

From Coq Require Import List ZArith Bool Arith Reals Lia Lra Psatz.
From Coq Require Import Floats.SpecFloat.
From Flocq Require Import Core.
From Verif Require Import Base Types Planes ImageM F32 Vector Simd SpecVector SimdProofs QuantProofs SpecGeom GeomProofs
  SpecColor SpecConvert SpecRun Formats Visit Convert VisitProofs ColorProofs ConvertProofs ExactProofs PropConvert PropFidelity
  SpecReal FloatProofs AccProofs TargetProofs PropColor ColorR SpecTransfer PowerProofs MathProofs SpecMath LaneProofs TransferProofs
  Math NegProofs RecolorProofs PropRecolor GamutProofs PropGamut GrayProofs PropGray PropDrift PropIctcpAcc.
From Verif Require SpecIctcp IctcpProofs PropIctcp.
Import SpecIctcp (ictcp_hlg).
Import PropIctcp (cones, uncones).
Import ListNotations.
Local Open Scope R_scope.

(** * Samples *)

Lemma expand_near : forall L i y u v vy vu vv,
  approx y vy u7 -> approx u vu u7 -> approx v vv u7 -> 0 <= vy <= 1 -> 0 <= vu <= 1 -> 0 <= vv <= 1 ->
  let full := yc_full_range i in
  exists a b c : f32, decode_yuv L i y u v = yuv_rgb L (yc_space i) (yc_transfer i) (yc_primaries i) (a, b, c) /\
    approx a (level_y full 1 vy) (5 * u7) /\ approx b (level_c full 1 vu) (5 * u7) /\ approx c (level_c full 1 vv) (5 * u7).
Proof.
  intros L i y u v vy vu vv HY HU HV BY BU BV full.
  exists (expand_y full y), (fsub (expand_c full u) (flit 5 1)), (fsub (expand_c full v) (flit 5 1)). split; [reflexivity|].
  assert (K : forall t vt q d, approx t vt u7 -> 0 <= vt <= 1 -> approx q (255 / d) (12 / 100000000) -> 219 <= d <= 224 ->
    approx (f32_mul (f32_sub t (f32_div (f32_lit 16 0) (f32_lit 255 0))) q) ((255 * vt - 16) / d) (4 * u7)).
  { intros t vt q d HT BT HQ D. assert (C16 : approx (f32_div (f32_lit 16 0) (f32_lit 255 0)) (16 / 255) (4 / 1000000000)) by const_approx.
    assert (QB : 0 <= 255 / d <= 1165 / 1000).
    { split; [apply Rmult_le_pos; [lra|left; apply Rinv_0_lt_compat; lra]|]. apply Rmult_le_reg_r with d; [lra|]. replace (255 / d * d) with 255 by (field; lra). lra. }
    pose proof (approx_sub _ _ _ _ _ _ 1 HT C16 ltac:(match goal with |- Rabs ?a + _ <= _ => assert (Rabs a <= 94 / 100) by (apply Rabs_le; lra) end; unfold u7; lra) ltac:(lra)) as S.
    pose proof (approx_mul _ _ _ _ _ _ (94 / 100) (1165 / 1000) (11 / 10) S HQ ltac:(apply Rabs_le; lra) ltac:(rewrite Rabs_pos_eq; lra) ltac:(unfold u7, half_ulp; lra) ltac:(lra)) as P.
    eapply approx_eq; [eapply approx_le; [exact P|unfold u7, half_ulp; lra]|field; lra]. }
  assert (KC : forall t vt, approx t vt u7 -> 0 <= vt <= 1 -> approx (fsub (expand_c full t) (flit 5 1)) (level_c full 1 vt) (5 * u7)).
  { intros t vt HT BT. assert (H : approx (f32_lit 5 1) (1 / 2) 0) by const_approx.
    assert (P : approx (expand_c full t) (if full : bool then vt else (255 * vt - 16) / 224) (4 * u7)).
    { unfold expand_c. destruct full; [eapply approx_le; [exact HT|unfold u7; lra]|]. cbn [fmul fsub fdiv flit f32_ops]. apply K; [exact HT|exact BT|const_approx|lra]. }
    cbn [fsub flit f32_ops].
    assert (B : Rabs ((if full : bool then vt else (255 * vt - 16) / 224) - 1 / 2) <= 6 / 10) by (destruct full; apply Rabs_le; lra).
    pose proof (approx_sub _ _ _ _ _ _ (61 / 100) P H ltac:(unfold u7; lra) ltac:(lra)) as S.
    eapply approx_eq; [eapply approx_le; [exact S|unfold u7, half_ulp; lra]|]. unfold level_c. destruct full; field. }
  split; [|split; apply KC; assumption].
  unfold expand_y, level_y. destruct full.
  - eapply approx_eq; [eapply approx_le; [exact HY|unfold u7; lra]|field].
  - cbn [fmul fsub fdiv flit f32_ops]. eapply approx_eq; [eapply approx_le; [apply (K y vy _ 219 HY BY); [const_approx|lra]|unfold u7; lra]|field].
Qed.

(** * Encoded cone responses *)

Lemma mul_small : forall w vw q Q, approx w vw (5 * u7) -> Rabs vw <= 6 / 10 -> approx q Q (12 / 100000000) -> Rabs Q <= 103 / 100 ->
  approx (f32_mul w q) (vw * Q) (5 * u7 * Rabs Q + 11 / 100000000) /\ Rabs (vw * Q) <= 62 / 100.
Proof.
  intros w vw q Q HW BW HQ BQ. pose proof (Rabs_pos Q). pose proof (Rabs_pos vw). split.
  - eapply approx_le; [apply (approx_mul _ _ _ _ _ _ (6 / 10) (Rabs Q) (62 / 100) HW HQ BW (Rle_refl _)); unfold u7; nra|]. unfold half_ulp, u7. nra.
  - rewrite Rabs_mult. nra.
Qed.

Lemma unmix_acc : forall a b c vy vu vv l m n, approx a vy (5 * u7) -> approx b vu (5 * u7) -> approx c vv (5 * u7) ->
  Rabs vu <= 6 / 10 -> Rabs vv <= 6 / 10 -> 0 <= l <= 1 -> 0 <= m <= 1 -> 0 <= n <= 1 -> ictcp_hlg l m n = (vy, vu, vv) ->
  let '(x, y, z) := (a + b * flit 1571858 8 + c * flit 20958106 8,
       a + b * flit (-1571858) 8 + c * flit (-20958106) 8,
       a + b * flit 10212711 7 + c * flit (-6052745) 7)%F in
  approx x l (22 / 10000000) /\ approx y m (22 / 10000000) /\ approx z n (22 / 10000000).
Proof.
  intros a b c vy vu vv l m n HA HB HC BU BV L M N E. unfold ictcp_hlg in E. injection E as E1 E2 E3.
  cbn [fadd fmul flit f32_ops].
  assert (K : forall p P q Q t, approx p P (12 / 100000000) -> approx q Q (12 / 100000000) -> Rabs P <= 103 / 100 -> Rabs Q <= 61 / 100 -> Rabs P + Rabs Q <= 163 / 100 ->
    Rabs (vy + vu * P + vv * Q - t) <= 2 / 10000000 -> 0 <= t <= 1 -> approx (f32_add (f32_add a (f32_mul b p)) (f32_mul c q)) t (22 / 10000000)).
  { intros p P q Q t HP HQ BP BQ BPQ T TB.
    destruct (mul_small b vu p P HB BU HP BP) as (M1 & B1). destruct (mul_small c vv q Q HC BV HQ ltac:(lra)) as (M2 & B2).
    apply Rabs_le_inv in T. pose proof (Rabs_pos P). pose proof (Rabs_pos Q).
    assert (BY : Rabs vy <= 1) by (apply Rabs_le; lra).
    pose proof (approx_add _ _ _ _ _ _ (17 / 10) HA M1 ltac:(pose proof (Rabs_triang vy (vu * P)); unfold u7; lra) ltac:(lra)) as S1.
    pose proof (approx_add _ _ _ _ _ _ (11 / 10) S1 M2 ltac:(match goal with |- Rabs ?a + _ <= _ => assert (Rabs a <= 105 / 100) by (apply Rabs_le; lra) end; unfold u7, half_ulp; lra) ltac:(lra)) as S2.
    eapply approx_weaken; [exact S2|]. assert (Rabs (vy + vu * P + vv * Q - t) <= 2 / 10000000) by (apply Rabs_le; lra). unfold half_ulp, u7. lra. }
  assert (A1 : forall q, 0 <= q -> Rabs q = q) by (intros; apply Rabs_pos_eq; assumption).
  assert (A2 : forall q, q <= 0 -> Rabs q = - q) by (intros; apply Rabs_left1; assumption).
  split; [|split].
  - apply (K _ (1571858 / 100000000) _ (20958106 / 100000000)); [const_approx|const_approx|rewrite A1; lra|rewrite A1; lra|rewrite !A1; lra| |exact L].
    rewrite <- E1, <- E2, <- E3. apply Rabs_le. lra.
  - apply (K _ (-1571858 / 100000000) _ (-20958106 / 100000000)); [const_approx|const_approx|rewrite A2; lra|rewrite A2; lra|rewrite !A2; lra| |exact M].
    rewrite <- E1, <- E2, <- E3. apply Rabs_le. lra.
  - apply (K _ (10212711 / 10000000) _ (-6052745 / 10000000)); [const_approx|const_approx|rewrite A1; lra|rewrite A2; lra|rewrite A1, A2; lra| |exact N].
    rewrite <- E1, <- E2, <- E3. apply Rabs_le. lra.
Qed.

(** * Cone responses *)

Lemma decode_steps : forall n a b, 0 <= a <= b -> b <= a + INR n * (2 / 10000000) -> b <= 1 + 1 / 20000 ->
  Rabs (hlg_decode b - hlg_decode a) <= INR n * (2 / 1000000).
Proof.
  induction n as [|n IH]; intros a b A B T.
  - cbn [INR] in *. assert (b = a) as -> by lra. rewrite Rminus_diag_eq, Rabs_R0 by reflexivity. lra.
  - rewrite S_INR in *. destruct (Rle_lt_dec b (a + 2 / 10000000)) as [C|C].
    + pose proof (IctcpProofs.hlg_decode_close a b A C T). pose proof (pos_INR n). lra.
    + pose proof (IctcpProofs.hlg_decode_close a (a + 2 / 10000000) ltac:(lra) ltac:(lra) ltac:(lra)) as S1.
      pose proof (IH (a + 2 / 10000000) b ltac:(lra) ltac:(lra) T) as S2.
      eapply Rle_trans; [apply (Rabs_triang_step _ (hlg_decode (a + 2 / 10000000)))|]. lra.
Qed.

Lemma hlg_cone : forall L x t, accurate L -> approx x t (22 / 10000000) -> 0 <= t <= 1 ->
  approx (eotf L TBT2100HLG x) (hlg_decode t) (27 / 1000000).
Proof.
  intros L x t A (N & E) T. apply Rabs_le_inv in E. pose proof (hlg_dec_max L x A N ltac:(lra)) as H.
  eapply approx_weaken; [exact H|].
  assert (M : Rabs (Rmax (fval x) 0 - t) <= 22 / 10000000) by (apply max_near; [lra|apply Rabs_le; lra]). apply Rabs_le_inv in M.
  pose proof (Rmax_r (fval x) 0) as P. set (X := Rmax (fval x) 0) in *. clearbody X.
  assert (I : INR 11 = 11) by (simpl; lra).
  assert (D : Rabs (hlg_decode X - hlg_decode t) <= 22 / 1000000).
  { destruct (Rle_lt_dec t X) as [C|C].
    - pose proof (decode_steps 11 t X ltac:(lra) ltac:(rewrite I; lra) ltac:(lra)) as S. rewrite I in S. lra.
    - rewrite <- Rabs_Ropp, Ropp_minus_distr. pose proof (decode_steps 11 X t ltac:(lra) ltac:(rewrite I; lra) ltac:(lra)) as S. rewrite I in S. lra. }
  lra.
Qed.

Lemma from_lms_acc : forall v w e, approx3 v w e -> within3 w (3 / 2) -> 0 <= e <= 1 / 10000 ->
  approx3 (from_lms v) (from_lms w) (361 / 100 * e + 18 / 10000000).
Proof.
  intros ((a, b), c) ((x, y), z) e (HA & HB & HC) (AX & AY & AZ) E.
  cbn [from_lms approx3]; (split; [|split]); row E.
Qed.

Lemma uncones_code : forall p l m n, from_xyz p (from_lms (l, m, n)) = uncones p l m n.
Proof. intros [] l m n; reflexivity. Qed.

(** Light near the gamut *)
Definition nearly_shown (v : R) : Prop := - (1 / 4) <= v <= 5 / 4.

Lemma back : forall p r g b l m n d, nearly_shown r -> nearly_shown g -> nearly_shown b -> 0 <= d <= 1 / 1000 ->
  SpecIctcp.within3 d (l, m, n) (cones p r g b) ->
  within3 (l, m, n) (3 / 2) /\ within3 (from_lms (l, m, n)) (3 / 2) /\ SpecIctcp.within3 (14 * d + 2 / 1000000) (from_xyz p (from_lms (l, m, n))) (r, g, b).
Proof.
  intros p r g b l m n d R G B D. rewrite uncones_code. unfold nearly_shown in *. unfold SpecIctcp.within3, within3, cones, uncones.
  cbn [from_lms]. unfold dot. cbn [fadd fmul flit R_ops].
  destruct p; PropIctcp.run_matrix; intros (A1 & A2 & A3); apply Rabs_le_inv in A1; apply Rabs_le_inv in A2; apply Rabs_le_inv in A3;
    (repeat split); apply Rabs_le; lra.
Qed.

(** * C77 *)

(** Converting ICtCp with the HLG curve to RGB: if the encoded cone responses
    of a pixel are in 0 .. 1, what is stored encodes the linear light with
    these cone responses, up to 1/1700 of the reference white and the rounding of
    the integer.  The light need not be in the gamut: it is clipped.
    Missing: the PQ curve; responses outside of 0 .. 1; other transfer functions
    or primaries than those of the source. *)
Theorem C77_ictcp_to_rgb_partial : forall sp sl b m src sps dst dps i,
  converts (libm_of sp sl) b m src sps dst dps -> levels_ok m src sps ->
  sampling_of (im_format src) <> SRGB -> sampling_of (im_format dst) = SRGB ->
  im_color src = CYUV i -> yc_space i = SpICtCpHLG ->
  same_light (im_color src) (im_color dst) = true ->
  let t := ci_transfer (im_color src) in
  t <> TBT2100PQ ->
  forall c x y, In c comps -> in_image dst x y ->
  let cb := column_backend b (im_width dst) x in
  platform_pow sp sl cb ->
  forall l' m' n' red green blue d, 0 <= l' <= 1 -> 0 <= m' <= 1 -> 0 <= n' <= 1 ->
  ictcp_hlg l' m' n' = (y_at m src sps i x y, u_at m src sps i x y, v_at m src sps i x y) ->
  nearly_shown red -> nearly_shown green -> nearly_shown blue -> 0 <= d <= 1 / 1000 ->
  SpecIctcp.within3 d (hlg_decode l', hlg_decode m', hlg_decode n') (cones (ci_primaries (im_color src)) red green blue) ->
  exists z light, stored (libm_of sp sl) b m src dst dps c x y = Some z /\ (0 <= z <= 255)%Z /\
    Rabs (light - channel c (red, green, blue)) <= 1 / 1700 + 14 * d /\
    stored_for cb (255 * (6 / 1000000)) (clamp 255 (255 * encoded t (Rmax 0 light))) z.
Proof.
  intros sp sl b m src sps dst dps i CVT LV FS FD CI S SL t TS c x y HC HI cb PL l' m' n' cr cg cb' d HL HM HN MX GR GG GB D CN.
  pose proof (accurate_lane sp sl cb PL) as A. assert (PN : pow_negative (l_pow (lane_of (libm_of sp sl) cb))) by (apply lane_negative; intros E; apply PL, E).
  assert (VS : valid_image src sps) by apply CVT. pose proof (converts_convertible _ _ _ _ _ _ _ CVT) as CT.
  set (L := lane_of (libm_of sp sl) cb) in *.
  assert (SK : same_image_kind src dst = false).
  { unfold same_image_kind. apply andb_false_iff; left. destruct (im_format src), (im_format dst); try reflexivity; cbn in FS, FD; congruence. }
  assert (HD : has_comp (im_format dst) c = true) by (unfold has_comp; rewrite FD; cbn [In comps] in HC; intuition (subst; reflexivity)).
  assert (ICT : ictcp_chroma420 (im_format dst) (im_color dst) c = false) by (unfold ictcp_chroma420; rewrite FD; reflexivity).
  assert (HS : in_image src x y) by (unfold in_image in *; rewrite (cv_width _ _ _ _ CT), (cv_height _ _ _ _ CT); exact HI).
  assert (HCS : forall c, c = CY \/ c = CU \/ c = CV -> has_comp (im_format src) c = true)
    by (intros c' [-> |[-> | ->]]; unfold has_comp; destruct (sampling_of (im_format src)); congruence).
  destruct (norm_acc m src sps CY x y VS LV HS (HCS _ ltac:(auto))) as (AY & BY).
  destruct (norm_acc m src sps CU x y VS LV HS (HCS _ ltac:(auto))) as (AU & BU).
  destruct (norm_acc m src sps CV x y VS LV HS (HCS _ ltac:(auto))) as (AV & BV).
  rewrite (stored_expected _ _ _ _ _ _ _ CVT c x y HD HI ICT). fold cb L.
  assert (TE : yc_transfer i = t /\ yc_primaries i = ci_primaries (im_color src)) by (unfold t; rewrite CI; auto). destruct TE as (TE & PE).
  set (ps := ci_primaries (im_color src)) in *.
  unfold y_at, u_at, v_at in MX. rewrite (level_y_div _ (IZR (max_level (im_format src)))), !(level_c_div _ (IZR (max_level (im_format src)))) in MX.
  destruct (expand_near L i _ _ _ _ _ _ AY AU AV BY BU BV) as (a & bb & cc & EQ & QA & QB & QC).
  assert (BQ : forall v, 0 <= v <= 1 -> Rabs (level_c (yc_full_range i) 1 v) <= 6 / 10) by (intros v V; unfold level_c; destruct (yc_full_range i); apply Rabs_le; lra).
  pose proof (unmix_acc a bb cc _ _ _ l' m' n' QA QB QC (BQ _ BU) (BQ _ BV) HL HM HN MX) as U.
  set (lms := (a + bb * flit 1571858 8 + cc * flit 20958106 8, a + bb * flit (-1571858) 8 + cc * flit (-20958106) 8, a + bb * flit 10212711 7 + cc * flit (-6052745) 7)%F) in *.
  assert (H3 : approx3 (map3 (eotf L TBT2100HLG) lms) (hlg_decode l', hlg_decode m', hlg_decode n') (27 / 1000000)).
  { destruct lms as [[x1 x2] x3]. destruct U as (U1 & U2 & U3). cbn [map3 approx3]. split; [|split]; apply hlg_cone; assumption. }
  destruct (back ps cr cg cb' _ _ _ d GR GG GB D CN) as (W1 & W2 & W3).
  pose proof (from_lms_acc _ _ _ H3 W1 ltac:(lra)) as X3.
  pose proof (from_xyz_acc ps _ _ _ X3 W2 ltac:(lra)) as F3.
  assert (E3 : expected_value L m src sps dst c x y = oetf L t (match c with CR => fst3 | CG => snd3 | _ => thd3 end (from_xyz ps (from_lms (map3 (eotf L TBT2100HLG) lms))))).
  { unfold expected_value. rewrite SK. unfold target. rewrite FD. unfold recolored. rewrite SL.
    assert (EP : source_pixel L m (im_format src) (im_color src) sps x y = (map3 (oetf L t) (from_xyz ps (from_lms (map3 (eotf L TBT2100HLG) lms))), fone)).
    { unfold source_pixel. rewrite CI. assert (EX : decode_yuv L i (norm m (im_format src) sps CY x y) (norm m (im_format src) sps CU x y) (norm m (im_format src) sps CV x y)
        = map3 (oetf L t) (from_xyz ps (from_lms (map3 (eotf L TBT2100HLG) lms)))) by (rewrite EQ, S, TE, PE; reflexivity).
      rewrite EX. destruct (sampling_of (im_format src)); congruence. }
    rewrite EP. destruct (from_xyz ps (from_lms (map3 (eotf L TBT2100HLG) lms))) as ((q1, q2), q3). cbn [In comps] in HC. destruct HC as [<- |[<- |[<- |[]]]]; reflexivity. }
  rewrite E3. clear E3.
  destruct (from_xyz ps (from_lms (map3 (eotf L TBT2100HLG) lms))) as ((q1, q2), q3).
  destruct (from_xyz ps (from_lms (hlg_decode l', hlg_decode m', hlg_decode n'))) as ((p1, p2), p3).
  destruct F3 as (Q1 & Q2 & Q3). destruct W3 as (P1 & P2 & P3). unfold nearly_shown in *.
  assert (END : forall q p v, approx q p (58 / 10 * (361 / 100 * (27 / 1000000) + 18 / 10000000) + 25 / 10000000) -> Rabs (p - v) <= 14 * d + 2 / 1000000 -> - (1 / 4) <= v <= 5 / 4 ->
    exists z light, Some (quantise (quant_of cb) (im_format dst) (oetf L t q)) = Some z /\ (0 <= z <= 255)%Z /\
      Rabs (light - v) <= 1 / 1700 + 14 * d /\ stored_for cb (255 * (6 / 1000000)) (clamp 255 (255 * encoded t (Rmax 0 light))) z).
  { intros q p v (NQ & EQ') BP V. apply Rabs_le_inv in EQ'. apply Rabs_le_inv in BP.
    destruct (encode_store L cb (im_format dst) t q A PN TS FD NQ ltac:(apply Rabs_le; lra)) as (X & EX & ST & ZB).
    exists (quantise (quant_of cb) (im_format dst) (oetf L t q)), X. split; [reflexivity|]. split; [exact ZB|]. apply Rabs_le_inv in EX.
    split; [apply Rabs_le; lra|]. destruct cb; cbn [stored_for] in *; unfold truncated, rounded in *; lra. }
  cbn [In comps] in HC. destruct HC as [<- |[<- |[<- |[]]]]; cbn [channel fst3 snd3 thd3 fst snd].
  - apply (END q1 p1); assumption.
  - apply (END q2 p2); assumption.
  - apply (END q3 p3); assumption.
Qed.
Print Assumptions C77_ictcp_to_rgb_partial.

(** A dark gray in ICtCp, read as sRGB: the light is (84 / 219)^2 / 3 in each channel *)
Definition gray_mem : mem := fun b i => if (i <? 4)%nat then 100%Z else 128%Z.
Definition gray_ci : yuv_color_info := YuvCI TSRGB PrBT2020 SpICtCpHLG false.
Definition gray_ictcp : image := ex_image I444 2 2 (CYUV gray_ci) i444_planes.

Example C77_example : forall b,
  let l := 84 / 219 in
  let light := l * l / 3 in
  converts (libm_of avx_pow avx_log) b gray_mem gray_ictcp i444_planes srgb_2020 (ex_rgba_planes 0) /\ levels_ok gray_mem gray_ictcp i444_planes /\
  same_light (im_color gray_ictcp) (im_color srgb_2020) = true /\ (forall cb, platform_pow avx_pow avx_log cb) /\
  ictcp_hlg l l l = (y_at gray_mem gray_ictcp i444_planes gray_ci 1 1, u_at gray_mem gray_ictcp i444_planes gray_ci 1 1, v_at gray_mem gray_ictcp i444_planes gray_ci 1 1) /\
  0 <= l <= 1 /\ nearly_shown light /\
  SpecIctcp.within3 (1 / 200000) (hlg_decode l, hlg_decode l, hlg_decode l) (cones PrBT2020 light light light) /\
  map (fun c => stored (libm_of avx_pow avx_log) b gray_mem gray_ictcp srgb_2020 (ex_rgba_planes 0) c 1 1) [CR; CG; CB] = [Some 62; Some 62; Some 62]%Z.
Proof.
  intros b l light.
  assert (CVT : forall b, converts (libm_of avx_pow avx_log) b gray_mem gray_ictcp i444_planes srgb_2020 (ex_rgba_planes 0)).
  { intros b'. apply runs; [| |apply single_disjoint|exact i444_strides|vm_compute; reflexivity];
      (split; [reflexivity|split; [repeat constructor; cbn; unfold usize; cbn; lia|reflexivity]]). }
  split; [apply CVT|]. split; [apply bytes_levels; [|reflexivity]; intros b' i; unfold gray_mem; destruct (i <? 4)%nat; lia|].
  split; [reflexivity|].
  split; [intros cb _; split; [exact avx_pow_ok|split; [exact (log_contract avx_log avx_log_ok)|exact avx_pow_negative]]|].
  split.
  { unfold y_at, u_at, v_at, level_y, level_c, gray_ci, yc_full_range, SpecIctcp.ictcp_hlg.
    change (level gray_mem (im_format gray_ictcp) i444_planes CY 1 1) with 100.
    change (level gray_mem (im_format gray_ictcp) i444_planes CU 1 1) with 128.
    change (level gray_mem (im_format gray_ictcp) i444_planes CV 1 1) with 128.
    change (IZR (max_level (im_format gray_ictcp))) with 255. unfold l. apply f_equal2; [apply f_equal2|]; lra. }
  split; [unfold l; lra|]. split; [unfold nearly_shown, light, l; lra|].
  split.
  { unfold hlg_decode. destruct (Rle_dec l (1 / 2)) as [_|N]; [fold light|exfalso; unfold l in N; lra].
    unfold SpecIctcp.within3, cones. PropIctcp.run_matrix. unfold light, l. repeat split; apply Rabs_le; lra. }
  cbn [map]; rewrite !(fun c => narrow_expected _ b gray_mem gray_ictcp i444_planes srgb_2020 (ex_rgba_planes 0) c 1 1 (CVT b)) by
    (first [reflexivity | split; cbn; lia]).
  vm_compute. reflexivity.
Qed.
