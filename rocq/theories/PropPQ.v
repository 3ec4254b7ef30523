(** C79 and C81 for PQ destinations: light of any brightness, from PQ images with
    other primaries and from YUV images with colors outside of 0 .. 1. *)

From Coq Require Import List ZArith Bool Arith Reals Lia Lra Psatz.
From Coq Require Import Floats.SpecFloat.
From Flocq Require Import Core.
From Verif Require Import Base Types Planes ImageM F32 Vector Simd SpecVector SimdProofs QuantProofs SpecGeom GeomProofs
  SpecColor SpecConvert SpecRun Formats Visit Convert VisitProofs ColorProofs ConvertProofs ExactProofs PropConvert PropFidelity
  SpecReal FloatProofs AccProofs TargetProofs PropColor ColorR SpecTransfer PowerProofs MathProofs SpecMath LaneProofs TransferProofs
  Math NegProofs RecolorProofs PropRecolor GamutProofs PropGamut GrayProofs PropGray PropDrift PropBT2020 PropOut PropToPQ IctcpProofs
  WideProofs PropWide PqProofs PropFromPQ PqEncProofs.
Import ListNotations.
Local Open Scope R_scope.

(** * The light of a pixel *)

(** The linear light that is computed for a pixel is [light], up to [e] *)
Definition lit (L : lane_ops f32) (m : mem) (src : image) (sps : list (slice * nat)) (pd : color_primaries) (x y : nat) (light : R * R * R) (e : R) : Prop :=
  approx3 (from_xyz pd (to_xyz (ci_primaries (im_color src)) (map3 (eotf L (ci_transfer (im_color src)))
    (fst (source_pixel L m (im_format src) (im_color src) sps x y))))) light e /\
  (forall c, In c comps -> channel c light + e <= 18000).

Lemma lit_pq : forall sp sl cb m src sps pd x y r g bl, let L := lane_of (libm_of sp sl) cb in accurate L ->
  ci_transfer (im_color src) = TBT2100PQ ->
  (let q := fst (source_pixel L m (im_format src) (im_color src) sps x y) in approx3 q (r, g, bl) (19 / 1000000)) ->
  r <= 1 -> g <= 1 -> bl <= 1 ->
  lit L m src sps pd x y (light_of TBT2100PQ (ci_primaries (im_color src)) pd r g bl) (pq_error r g bl).
Proof.
  intros sp sl cb m src sps pd x y r g bl L A TS AP LR LG LB. unfold lit. rewrite TS.
  destruct (source_pixel L m (im_format src) (im_color src) sps x y) as (q, al). cbv zeta in AP. cbn [fst snd] in *.
  destruct q as ((qr, qg), qb). destruct AP as (AR & AG & AB).
  destruct (pq_dec_color L qr r A AR LR) as (DR & BR). destruct (pq_dec_color L qg g A AG LG) as (DG & BG). destruct (pq_dec_color L qb bl A AB LB) as (DB & BB).
  pose proof (peak_ge r g bl) as PG. assert (PB : 0 <= peak r g bl <= 10000) by (split; [lra|]; unfold peak; repeat apply Rmax_lub; lra).
  set (P := peak r g bl) in *. set (e := 11 / 10000 + 18 / 10000 * P). unfold light_of, decoded, pq_error. fold P.
  set (w := (pq_decode r, pq_decode g, pq_decode bl)).
  assert (W : between3 0 P w) by (split; [|split]; lra).
  assert (W' : between3 0 (1 + P) w) by (split; [|split]; lra).
  assert (D3 : approx3 (map3 (eotf L TBT2100PQ) (qr, qg, qb)) w e) by (split; [|split]; (eapply approx_le; [eassumption|unfold e; lra])).
  pose proof (light_scaled (1 + P) (ci_primaries (im_color src)) pd _ w e ltac:(lra) D3 W' ltac:(unfold e; lra)) as F3.
  pose proof (linear_wide (ci_primaries (im_color src)) pd 0 P w ltac:(lra) ltac:(lra) W) as FB.
  clear DR DG DB AR AG AB D3 W W' BR BG BB PG. clearbody w P.
  destruct (from_xyz pd (to_xyz _ (map3 (eotf L TBT2100PQ) (qr, qg, qb)))) as ((q1, q2), q3).
  destruct (from_xyz pd (to_xyz (ci_primaries (im_color src)) w)) as ((p1, p2), p3).
  destruct F3 as (Q1 & Q2 & Q3). destruct FB as (P1 & P2 & P3).
  split; [split; [|split]; (eapply approx_le; [eassumption|unfold e; lra])|].
  intros c HC. unfold channel, fst3, snd3, thd3. cbn [In comps] in HC. destruct HC as [<- |[<- |[<- |[]]]]; cbn [fst snd]; lra.
Qed.

Lemma pq_rgb_levels : forall m src sps x y L, valid_image src sps -> bytes_ok m -> sampling_of (im_format src) = SRGB -> in_image src x y ->
  let s c := level m (im_format src) sps c x y / 255 in
  (let q := fst (source_pixel L m (im_format src) (im_color src) sps x y) in approx3 q (s CR, s CG, s CB) (19 / 1000000)) /\ s CR <= 1 /\ s CG <= 1 /\ s CB <= 1.
Proof.
  intros m src sps x y L VS B FS HS s.
  assert (LV : levels_ok m src sps) by (apply bytes_levels; [exact B|destruct (im_format src); try discriminate FS; reflexivity]).
  assert (M : max_level (im_format src) = 255%Z) by (destruct (im_format src); try discriminate FS; reflexivity).
  assert (S1 : forall c, In c comps -> s c <= 1).
  { intros c' HC'. assert (HH : has_comp (im_format src) c' = true) by (unfold has_comp; rewrite FS; cbn [In comps] in HC'; intuition (subst; reflexivity)).
    destruct (norm_acc m src sps c' x y VS LV HS HH) as (_ & A'). rewrite M in A'. unfold s. lra. }
  split; [|split; [|split]; apply S1; cbn; auto].
  destruct (rgb_source_acc L m src sps x y VS B FS HS) as (R3 & _).
  destruct (source_pixel L m (im_format src) (im_color src) sps x y) as (((r, g), bl), al).
  unfold fst3, snd3, thd3 in R3. cbn [fst snd] in *. destruct R3 as (R1 & R2 & R3).
  split; [|split]; (eapply approx_le; [eassumption|unfold u7; lra]).
Qed.

Lemma pq_yuv_levels : forall m src sps x y L i k, valid_image src sps -> levels_ok m src sps -> sampling_of (im_format src) <> SRGB -> in_image src x y ->
  im_color src = CYUV i -> weights_of (yc_space i) = Some k ->
  let s c := read_at k m src sps i c x y in
  let q := fst (source_pixel L m (im_format src) (im_color src) sps x y) in approx3 q (s CR, s CG, s CB) (19 / 1000000).
Proof.
  intros m src sps x y L i k VS LV FS HS CI W s.
  destruct (yuv_source_acc_by L m src sps i _ _ _ x y VS LV FS CI (decoder_any i k W)
    (fun vy vu vv => bound_any (yc_space i) k vy vu vv W) HS) as ((AR & AG & AB) & _).
  destruct (source_pixel L m (im_format src) (im_color src) sps x y) as (((r, g), bl), al).
  unfold fst3, snd3, thd3 in AR, AG, AB. cbn [fst snd] in *.
  split; [|split]; (eapply approx_le; [eassumption|unfold u7; lra]).
Qed.

(** * Encoding it *)

Lemma lit_recolored : forall sp sl cb m src sps dst x y light e, let L := lane_of (libm_of sp sl) cb in accurate L ->
  same_light (im_color src) (im_color dst) = false -> ci_transfer (im_color dst) = TBT2100PQ ->
  lit L m src sps (ci_primaries (im_color dst)) x y light e ->
  exists l p, near_pq light e l p /\
    pixel_approx 0 (recolored L (im_color src) (im_color dst) (source_pixel L m (im_format src) (im_color src) sps x y)) (channel CR p) (channel CG p) (channel CB p).
Proof.
  intros sp sl cb m src sps dst x y light e L A SL TD (AP & UP). unfold recolored. rewrite SL, TD.
  destruct (source_pixel L m (im_format src) (im_color src) sps x y) as (q, al). unfold recolor. cbn [fst snd] in *.
  destruct (from_xyz (ci_primaries (im_color dst)) _) as ((q1, q2), q3). destruct light as ((p1, p2), p3). destruct AP as ((N1 & A1) & (N2 & A2) & (N3 & A3)).
  pose proof (UP CR ltac:(cbn; auto)) as U1. pose proof (UP CG ltac:(cbn; auto)) as U2. pose proof (UP CB ltac:(cbn; auto)) as U3.
  unfold channel, fst3, snd3, thd3 in U1, U2, U3. cbn [fst snd] in U1, U2, U3. clear UP.
  assert (ONE : forall q p, is_num q -> Rabs (fval q - p) <= e -> p + e <= 18000 ->
    approx (oetf L TBT2100PQ q) (fval (oetf L TBT2100PQ q)) 0 /\ Rabs (fval (oetf L TBT2100PQ q) - pq_code (fval q)) <= 1 / 4000 /\ Rabs (fval (oetf L TBT2100PQ q)) <= 3).
  { intros q' p N E U. apply Rabs_le_inv in E. destruct (pq_enc_far L q' A N ltac:(lra)) as ((NP & EP) & PB). split; [apply exact_approx, NP|]. split; [exact EP|].
    apply Rabs_le_inv in EP. apply Rabs_le. lra. }
  destruct (ONE q1 p1 N1 A1 U1) as (X1 & E1 & M1). destruct (ONE q2 p2 N2 A2 U2) as (X2 & E2 & M2). destruct (ONE q3 p3 N3 A3 U3) as (X3 & E3 & M3).
  exists (fval q1, fval q2, fval q3), (fval (oetf L TBT2100PQ q1), fval (oetf L TBT2100PQ q2), fval (oetf L TBT2100PQ q3)).
  split.
  - intros c HC. cbn [In comps] in HC. unfold channel, fst3, snd3, thd3. destruct HC as [<- |[<- |[<- |[]]]]; cbn [fst snd]; split; assumption.
  - unfold pixel_approx, channel, fst3, snd3, thd3. cbn [fst snd map3]. split; [split; [exact X1|split; [exact X2|exact X3]]|split; [exact M1|split; [exact M2|exact M3]]].
Qed.

Lemma lit_rgb : forall sp sl b m src sps dst dps light e,
  converts (libm_of sp sl) b m src sps dst dps -> same_light (im_color src) (im_color dst) = false ->
  sampling_of (im_format dst) = SRGB -> ci_transfer (im_color dst) = TBT2100PQ ->
  forall c x y, In c comps -> in_image dst x y ->
  let cb := column_backend b (im_width dst) x in
  let L := lane_of (libm_of sp sl) cb in
  accurate L -> lit L m src sps (ci_primaries (im_color dst)) x y light e ->
  exists z l, stored (libm_of sp sl) b m src dst dps c x y = Some z /\
    Rabs (l - channel c light) <= e /\ stored_for cb (1 / 15) (clamp 255 (255 * pq_code l)) z.
Proof.
  intros sp sl b m src sps dst dps light e CVT SL FD TD c x y HC HI cb L A LT.
  pose proof (light_kind _ _ SL) as SK.
  assert (HD : has_comp (im_format dst) c = true) by (unfold has_comp; rewrite FD; cbn [In comps] in HC; intuition (subst; reflexivity)).
  assert (ICT : ictcp_chroma420 (im_format dst) (im_color dst) c = false) by (unfold ictcp_chroma420; rewrite FD; reflexivity).
  rewrite (stored_expected _ _ _ _ _ _ _ CVT c x y HD HI ICT). fold cb. fold L.
  unfold expected_value. rewrite SK. unfold target. rewrite FD.
  destruct (lit_recolored sp sl cb m src sps dst x y light e A SL TD LT) as (l & p & N & (P & M)).
  destruct (N c HC) as (NL & NP). fold L in P. set (pix := recolored L _ _ _) in *. clearbody pix. destruct pix as (((r, g), bl), al').
  assert (Q : approx (match c with CR => r | CG => g | _ => bl end) (channel c p) 0 /\ Rabs (channel c p) <= 3).
  { cbn [In comps] in HC. unfold fst3, snd3, thd3 in P. cbn [fst snd] in P. destruct HC as [<- |[<- |[<- |[]]]]; tauto. }
  destruct Q as (Q & QM).
  assert (MF : max_level (im_format dst) = 255%Z) by (destruct (im_format dst); try discriminate FD; reflexivity).
  assert (TF : top (im_format dst) = 255%Z) by (destruct (im_format dst); try discriminate FD; reflexivity).
  destruct (acc_store cb (im_format dst) _ _ _ Q ltac:(lra) ltac:(lra) ltac:(left; exact FD)) as (S1 & S0). rewrite MF, TF in S1.
  exists (quantise (quant_of cb) (im_format dst) (match c with CR => r | CG => g | _ => bl end)), (channel c l). split; [cbn [In comps] in HC; destruct HC as [<- |[<- |[<- |[]]]]; reflexivity|]. split; [exact NL|].
  assert (DD : Rabs (255 * channel c p - 255 * pq_code (channel c l)) <= 255 / 4000).
  { replace (255 * channel c p - 255 * pq_code (channel c l)) with (255 * (channel c p - pq_code (channel c l))) by ring.
    rewrite Rabs_mult, (Rabs_pos_eq 255) by lra. lra. }
  pose proof (clamp_near 255 _ _ _ ltac:(lra) DD) as CN. apply Rabs_le_inv in CN. unfold u7 in S1.
  destruct cb; cbn [stored_for] in *; unfold truncated, rounded in *; try lra; apply Rabs_le_inv in S1; apply Rabs_le; lra.
Qed.

Lemma lit_yuv : forall sp sl b m src sps dst dps i k light e,
  converts (libm_of sp sl) b m src sps dst dps -> same_light (im_color src) (im_color dst) = false ->
  sampling_of (im_format dst) <> SRGB -> im_color dst = CYUV i -> weights_of (yc_space i) = Some k -> yc_transfer i = TBT2100PQ ->
  forall c x y, has_comp (im_format dst) c = true -> in_image dst x y ->
  let cb := column_backend b (im_width dst) x in
  let L := lane_of (libm_of sp sl) cb in
  accurate L ->
  let block := (x, y) :: chroma_block (sampling_of (im_format dst)) x y in
  (forall p, In p block -> lit L m src sps (ci_primaries (im_color dst)) (fst p) (snd p) (light (fst p) (snd p)) (e (fst p) (snd p))) ->
  exists l color : nat -> nat -> R * R * R,
    (forall p, In p block -> near_pq (light (fst p) (snd p)) (e (fst p) (snd p)) (l (fst p) (snd p)) (color (fst p) (snd p))) /\
    let ch c x y := channel c (color x y) in
    let t := ideal_level k (yc_full_range i) (im_format dst) (ch CR) (fun x y => written_green (yc_space i) (ch CG x y)) (ch CB) c x y in
    let hi := IZR (if (sample_bytes (im_format dst) =? 2)%nat then 65535 else 255) in
    (cb = AVX512 -> - (1 / 4) <= t <= hi + 1 / 4) ->
    exists z, stored (libm_of sp sl) b m src dst dps c x y = Some z /\ (0 <= z)%Z /\
      stored_for cb (IZR (max_level (im_format dst)) / 80000) (clamp hi t) z.
Proof.
  intros sp sl b m src sps dst dps i k light e CVT SL SF CI WK TP c x y HC HI cb L A block H.
  pose proof (light_kind _ _ SL) as SK.
  assert (TD : ci_transfer (im_color dst) = TBT2100PQ) by (rewrite CI; exact TP).
  assert (EX : forall p, In p block -> exists lp : (R * R * R) * (R * R * R),
    near_pq (light (fst p) (snd p)) (e (fst p) (snd p)) (fst lp) (snd lp) /\
    pixel_approx 0 (recolored L (im_color src) (im_color dst) (source_pixel L m (im_format src) (im_color src) sps (fst p) (snd p)))
      (channel CR (snd lp)) (channel CG (snd lp)) (channel CB (snd lp))).
  { intros p HP. destruct (lit_recolored sp sl cb m src sps dst (fst p) (snd p) _ _ A SL TD (H p HP)) as (l & p' & N & P). exists (l, p'). split; [exact N|exact P]. }
  destruct (choose _ _ ((0, 0, 0), (0, 0, 0)) block EX) as (near & F).
  exists (fun x y => fst (near x y)), (fun x y => snd (near x y)). split; [intros p HP; apply (F p HP)|].
  intros ch t hi RG.
  pose proof (pixels_stored (libm_of sp sl) b m src sps dst dps i _ _ _ (ch CR) (ch CG) (ch CB) 0 CVT SK SF CI
    ltac:(destruct (yc_space i); try reflexivity; discriminate WK) (fun L => encoder_any L i k WK) ltac:(lra) c x y HC HI (fun p HP => proj2 (F p HP))) as S.
  cbv zeta in S.
  assert (ET : level_by (fun r g b => luma k r (written_green (yc_space i) g) b) (fun r g b => SpecReal.cb k r (written_green (yc_space i) g) b)
    (fun r g b => cr k r (written_green (yc_space i) g) b) (yc_full_range i) (im_format dst) (ch CR) (ch CG) (ch CB) c x y = t).
  { unfold level_by, t, ideal_level. cbv zeta.
    assert (CM : chroma_mean (sampling_of (im_format dst)) (fun x y => written_green (yc_space i) (ch CG x y)) x y
      = written_green (yc_space i) (chroma_mean (sampling_of (im_format dst)) (ch CG) x y)).
    { unfold written_green. destruct (yc_space i); try reflexivity.
      unfold chroma_mean, mean. destruct (sampling_of (im_format dst)); unfold chroma_block; cbn [map fold_right length fst snd]; simpl INR; field. }
    rewrite CM. destruct c; reflexivity. }
  rewrite ET in S. clearbody t. destruct S as (z & ST & SS & Z0); [exact RG|].
  exists z. split; [exact ST|]. split; [exact Z0|]. eapply stored_for_weaken; [exact SS|].
  pose proof (max_level_R (im_format dst)). unfold u7. lra.
Qed.

(** * Theorems *)

(** RGB to RGB, both with the PQ curve, with other primaries: every sample is the PQ
    code of the light of the source color, for all colors *)
Theorem C81_rgb_to_pq_rgb : forall sp sl b m src sps dst dps,
  converts (libm_of sp sl) b m src sps dst dps -> bytes_ok m ->
  sampling_of (im_format src) = SRGB -> sampling_of (im_format dst) = SRGB ->
  ci_transfer (im_color src) = TBT2100PQ -> ci_transfer (im_color dst) = TBT2100PQ -> ci_primaries (im_color src) <> ci_primaries (im_color dst) ->
  forall c x y, In c comps -> in_image dst x y ->
  let cb := column_backend b (im_width dst) x in
  platform_pow sp sl cb ->
  let s c := level m (im_format src) sps c x y / 255 in
  let exact := channel c (light_of TBT2100PQ (ci_primaries (im_color src)) (ci_primaries (im_color dst)) (s CR) (s CG) (s CB)) in
  exists z light, stored (libm_of sp sl) b m src dst dps c x y = Some z /\ Rabs (light - exact) <= pq_error (s CR) (s CG) (s CB) /\
    stored_for cb (1 / 15) (clamp 255 (255 * pq_code light)) z.
Proof.
  intros sp sl b m src sps dst dps CVT LV FS FD TS TD PP c x y HC HI cb PL s exact.
  pose proof (accurate_lane sp sl cb PL) as A. assert (VS : valid_image src sps) by apply CVT.
  pose proof (converts_convertible _ _ _ _ _ _ _ CVT) as CT.
  pose proof TD as TD'.
  assert (SL : same_light (im_color src) (im_color dst) = false).
  { unfold same_light. rewrite TS, TD'. destruct (ci_primaries (im_color src)), (ci_primaries (im_color dst)); try reflexivity; congruence. }
  assert (HS : in_image src x y) by (unfold in_image in *; rewrite (cv_width _ _ _ _ CT), (cv_height _ _ _ _ CT); exact HI).
  apply (lit_rgb sp sl b m src sps dst dps (light_of TBT2100PQ (ci_primaries (im_color src)) (ci_primaries (im_color dst)) (s CR) (s CG) (s CB)) (pq_error (s CR) (s CG) (s CB)) CVT SL FD TD c x y HC HI A).
  destruct (pq_rgb_levels m src sps x y (lane_of (libm_of sp sl) cb) VS LV FS HS) as (Q & Q1 & Q2 & Q3).
  exact (lit_pq sp sl cb m src sps _ x y _ _ _ A TS Q Q1 Q2 Q3).
Qed.
Print Assumptions C81_rgb_to_pq_rgb.

(** RGB to YUV, both with the PQ curve, with other primaries *)
Theorem C81_rgb_to_pq_yuv : forall sp sl b m src sps dst dps id kd,
  converts (libm_of sp sl) b m src sps dst dps -> bytes_ok m ->
  sampling_of (im_format src) = SRGB -> sampling_of (im_format dst) <> SRGB ->
  im_color dst = CYUV id -> weights_of (yc_space id) = Some kd ->
  ci_transfer (im_color src) = TBT2100PQ -> yc_transfer id = TBT2100PQ -> ci_primaries (im_color src) <> ci_primaries (im_color dst) ->
  forall c x y, has_comp (im_format dst) c = true -> in_image dst x y ->
  let cb := column_backend b (im_width dst) x in
  platform_pow sp sl cb ->
  let s c x y := level m (im_format src) sps c x y / 255 in
  let light x y := light_of TBT2100PQ (ci_primaries (im_color src)) (ci_primaries (im_color dst)) (s CR x y) (s CG x y) (s CB x y) in
  let block := (x, y) :: chroma_block (sampling_of (im_format dst)) x y in
  let error x y := pq_error (s CR x y) (s CG x y) (s CB x y) in
  exists l color : nat -> nat -> R * R * R,
    (forall p, In p block -> near_pq (light (fst p) (snd p)) (error (fst p) (snd p)) (l (fst p) (snd p)) (color (fst p) (snd p))) /\
    let ch c x y := channel c (color x y) in
    let t := ideal_level kd (yc_full_range id) (im_format dst) (ch CR) (fun x y => written_green (yc_space id) (ch CG x y)) (ch CB) c x y in
    let hi := IZR (if (sample_bytes (im_format dst) =? 2)%nat then 65535 else 255) in
    (cb = AVX512 -> - (1 / 4) <= t <= hi + 1 / 4) ->
    exists z, stored (libm_of sp sl) b m src dst dps c x y = Some z /\ (0 <= z)%Z /\
      stored_for cb (IZR (max_level (im_format dst)) / 80000) (clamp hi t) z.
Proof.
  intros sp sl b m src sps dst dps id kd CVT LV FS FD CID WK TS TD PP c x y HC HI cb PL s light block error.
  pose proof (accurate_lane sp sl cb PL) as A. assert (VS : valid_image src sps) by apply CVT.
  pose proof (converts_convertible _ _ _ _ _ _ _ CVT) as CT.
  assert (TD' : ci_transfer (im_color dst) = TBT2100PQ) by (rewrite CID; exact TD).
  assert (SL : same_light (im_color src) (im_color dst) = false).
  { unfold same_light. rewrite TS, TD'. destruct (ci_primaries (im_color src)), (ci_primaries (im_color dst)); try reflexivity; congruence. }
  apply (lit_yuv sp sl b m src sps dst dps id kd light error CVT SL FD CID WK TD c x y HC HI A).
  intros p HP.
  assert (HI' : in_image dst (fst p) (snd p)) by (eapply block_in_image; [apply CT|apply CT|exact HI|exact HP]).
  assert (HS : in_image src (fst p) (snd p)) by (unfold in_image in *; rewrite (cv_width _ _ _ _ CT), (cv_height _ _ _ _ CT); exact HI').
  destruct (pq_rgb_levels m src sps (fst p) (snd p) (lane_of (libm_of sp sl) cb) VS LV FS HS) as (Q & Q1 & Q2 & Q3).
  exact (lit_pq sp sl cb m src sps _ (fst p) (snd p) _ _ _ A TS Q Q1 Q2 Q3).
Qed.
Print Assumptions C81_rgb_to_pq_yuv.

(** YUV to RGB, both with the PQ curve, with other primaries.
    Missing: source colors above 1. *)
Theorem C81_yuv_to_pq_rgb_partial : forall sp sl b m src sps dst dps is ks,
  converts (libm_of sp sl) b m src sps dst dps -> levels_ok m src sps ->
  sampling_of (im_format src) <> SRGB -> sampling_of (im_format dst) = SRGB ->
  im_color src = CYUV is -> weights_of (yc_space is) = Some ks ->
  ci_transfer (im_color src) = TBT2100PQ -> ci_transfer (im_color dst) = TBT2100PQ -> ci_primaries (im_color src) <> ci_primaries (im_color dst) ->
  forall c x y, In c comps -> in_image dst x y ->
  let cb := column_backend b (im_width dst) x in
  platform_pow sp sl cb ->
  let s c := Rmax 0 (read_at ks m src sps is c x y) in
  (forall c, In c comps -> s c <= 1) ->
  let exact := channel c (light_of TBT2100PQ (ci_primaries (im_color src)) (ci_primaries (im_color dst)) (s CR) (s CG) (s CB)) in
  exists z light, stored (libm_of sp sl) b m src dst dps c x y = Some z /\ Rabs (light - exact) <= pq_error (s CR) (s CG) (s CB) /\
    stored_for cb (1 / 15) (clamp 255 (255 * pq_code light)) z.
Proof.
  intros sp sl b m src sps dst dps is ks CVT LV FS FD CI WS TS TD PP c x y HC HI cb PL s SB exact.
  pose proof (accurate_lane sp sl cb PL) as A. assert (VS : valid_image src sps) by apply CVT.
  pose proof (converts_convertible _ _ _ _ _ _ _ CVT) as CT.
  pose proof TD as TD'.
  assert (SL : same_light (im_color src) (im_color dst) = false).
  { unfold same_light. rewrite TS, TD'. destruct (ci_primaries (im_color src)), (ci_primaries (im_color dst)); try reflexivity; congruence. }
  assert (HS : in_image src x y) by (unfold in_image in *; rewrite (cv_width _ _ _ _ CT), (cv_height _ _ _ _ CT); exact HI).
  apply (lit_rgb sp sl b m src sps dst dps (light_of TBT2100PQ (ci_primaries (im_color src)) (ci_primaries (im_color dst)) (s CR) (s CG) (s CB)) (pq_error (s CR) (s CG) (s CB)) CVT SL FD TD c x y HC HI A).
  pose proof (pq_yuv_levels m src sps x y (lane_of (libm_of sp sl) cb) is ks VS LV FS HS CI WS) as Q.
  assert (EM : forall v, pq_decode (Rmax 0 v) = pq_decode v) by (intros v; rewrite Rmax_comm; symmetry; apply pq_decode_max).
  assert (S1 : forall c, In c comps -> read_at ks m src sps is c x y <= 1) by (intros c' HC'; pose proof (SB c' HC') as B; unfold s in B; pose proof (Rmax_r 0 (read_at ks m src sps is c' x y)); lra).
  pose proof (lit_pq sp sl cb m src sps (ci_primaries (im_color dst)) x y _ _ _ A TS Q (S1 CR ltac:(cbn; auto)) (S1 CG ltac:(cbn; auto)) (S1 CB ltac:(cbn; auto))) as LT.
  unfold s. unfold light_of, decoded, pq_error, peak in *. rewrite !EM. exact LT.
Qed.
Print Assumptions C81_yuv_to_pq_rgb_partial.

(** YUV to YUV, both with the PQ curve, with other primaries.
    Missing: source colors above 1. *)
Theorem C81_yuv_to_pq_yuv_partial : forall sp sl b m src sps dst dps is ks id kd,
  converts (libm_of sp sl) b m src sps dst dps -> levels_ok m src sps ->
  sampling_of (im_format src) <> SRGB -> sampling_of (im_format dst) <> SRGB ->
  im_color src = CYUV is -> weights_of (yc_space is) = Some ks ->
  im_color dst = CYUV id -> weights_of (yc_space id) = Some kd ->
  ci_transfer (im_color src) = TBT2100PQ -> yc_transfer id = TBT2100PQ -> ci_primaries (im_color src) <> ci_primaries (im_color dst) ->
  forall c x y, has_comp (im_format dst) c = true -> in_image dst x y ->
  let cb := column_backend b (im_width dst) x in
  platform_pow sp sl cb ->
  let s c x y := Rmax 0 (read_at ks m src sps is c x y) in
  let light x y := light_of TBT2100PQ (ci_primaries (im_color src)) (ci_primaries (im_color dst)) (s CR x y) (s CG x y) (s CB x y) in
  let block := (x, y) :: chroma_block (sampling_of (im_format dst)) x y in
  (forall p c, In p block -> In c comps -> s c (fst p) (snd p) <= 1) ->
  let error x y := pq_error (s CR x y) (s CG x y) (s CB x y) in
  exists l color : nat -> nat -> R * R * R,
    (forall p, In p block -> near_pq (light (fst p) (snd p)) (error (fst p) (snd p)) (l (fst p) (snd p)) (color (fst p) (snd p))) /\
    let ch c x y := channel c (color x y) in
    let t := ideal_level kd (yc_full_range id) (im_format dst) (ch CR) (fun x y => written_green (yc_space id) (ch CG x y)) (ch CB) c x y in
    let hi := IZR (if (sample_bytes (im_format dst) =? 2)%nat then 65535 else 255) in
    (cb = AVX512 -> - (1 / 4) <= t <= hi + 1 / 4) ->
    exists z, stored (libm_of sp sl) b m src dst dps c x y = Some z /\ (0 <= z)%Z /\
      stored_for cb (IZR (max_level (im_format dst)) / 80000) (clamp hi t) z.
Proof.
  intros sp sl b m src sps dst dps is ks id kd CVT LV FS FD CI WS CID WK TS TD PP c x y HC HI cb PL s light block SB error.
  pose proof (accurate_lane sp sl cb PL) as A. assert (VS : valid_image src sps) by apply CVT.
  pose proof (converts_convertible _ _ _ _ _ _ _ CVT) as CT.
  assert (TD' : ci_transfer (im_color dst) = TBT2100PQ) by (rewrite CID; exact TD).
  assert (SL : same_light (im_color src) (im_color dst) = false).
  { unfold same_light. rewrite TS, TD'. destruct (ci_primaries (im_color src)), (ci_primaries (im_color dst)); try reflexivity; congruence. }
  apply (lit_yuv sp sl b m src sps dst dps id kd light error CVT SL FD CID WK TD c x y HC HI A).
  intros p HP.
  assert (HI' : in_image dst (fst p) (snd p)) by (eapply block_in_image; [apply CT|apply CT|exact HI|exact HP]).
  assert (HS : in_image src (fst p) (snd p)) by (unfold in_image in *; rewrite (cv_width _ _ _ _ CT), (cv_height _ _ _ _ CT); exact HI').
  pose proof (pq_yuv_levels m src sps (fst p) (snd p) (lane_of (libm_of sp sl) cb) is ks VS LV FS HS CI WS) as Q.
  assert (EM : forall v, pq_decode (Rmax 0 v) = pq_decode v) by (intros v; rewrite Rmax_comm; symmetry; apply pq_decode_max).
  assert (S1 : forall c, In c comps -> read_at ks m src sps is c (fst p) (snd p) <= 1) by (intros c' HC'; pose proof (SB p c' HP HC') as B; unfold s in B; pose proof (Rmax_r 0 (read_at ks m src sps is c' (fst p) (snd p))); lra).
  pose proof (lit_pq sp sl cb m src sps (ci_primaries (im_color dst)) (fst p) (snd p) _ _ _ A TS Q (S1 CR ltac:(cbn; auto)) (S1 CG ltac:(cbn; auto)) (S1 CB ltac:(cbn; auto))) as LT.
  unfold light, error, s. unfold light_of, decoded, pq_error, peak in *. rewrite !EM. exact LT.
Qed.
Print Assumptions C81_yuv_to_pq_yuv_partial.

(** YUV with colors outside of 0 .. 1 to RGB with the PQ curve.
    Missing: HLG colors above 1; for what [readable] excludes see C80. *)
Theorem C79_wide_yuv_to_rgb_partial : forall sp sl b m src sps dst dps is ks,
  converts (libm_of sp sl) b m src sps dst dps -> levels_ok m src sps ->
  sampling_of (im_format src) <> SRGB -> sampling_of (im_format dst) = SRGB ->
  im_color src = CYUV is -> weights_of (yc_space is) = Some ks ->
  let ts := ci_transfer (im_color src) in
  ts <> TBT2100PQ -> ci_transfer (im_color dst) = TBT2100PQ ->
  forall c x y, In c comps -> in_image dst x y ->
  let cb := column_backend b (im_width dst) x in
  platform_pow sp sl cb ->
  let s c := read_at ks m src sps is c x y in
  (forall c, In c comps -> readable cb ts (s c)) ->
  let exact := channel c (light_all ts (ci_primaries (im_color src)) (ci_primaries (im_color dst)) (s CR) (s CG) (s CB)) in
  exists z light, stored (libm_of sp sl) b m src dst dps c x y = Some z /\ Rabs (light - exact) <= 9 / 10000 /\
    stored_for cb (1 / 15) (clamp 255 (255 * pq_code light)) z.
Proof.
  intros sp sl b m src sps dst dps is ks CVT LV FS FD CI WS ts TS TD c x y HC HI cb PL s SB exact.
  pose proof (accurate_lane sp sl cb PL) as A. assert (VS : valid_image src sps) by apply CVT.
  pose proof (converts_convertible _ _ _ _ _ _ _ CVT) as CT.
  pose proof TD as TD'.
  assert (SL : same_light (im_color src) (im_color dst) = false).
  { unfold same_light. fold ts. rewrite TD'. destruct ts; try congruence; reflexivity. }
  assert (HS : in_image src x y) by (unfold in_image in *; rewrite (cv_width _ _ _ _ CT), (cv_height _ _ _ _ CT); exact HI).
  apply (lit_rgb sp sl b m src sps dst dps (light_all ts (ci_primaries (im_color src)) (ci_primaries (im_color dst)) (s CR) (s CG) (s CB)) (9 / 10000) CVT SL FD TD c x y HC HI A).
  destruct (read_wide sp sl cb m src sps is ks (ci_primaries (im_color dst)) x y A VS LV FS CI WS HS SB) as (F3 & FB). fold ts in F3, FB. cbv zeta beta in F3, FB.
  unfold lit. fold ts. unfold s. cbv beta. destruct (light_all ts _ _ _ _ _) as ((p1, p2), p3).
  destruct (from_xyz (ci_primaries (im_color dst)) (to_xyz _ (map3 _ _))) as ((q1, q2), q3).
  destruct F3 as (F1 & F2 & F3). destruct FB as (B1 & B2 & B3). split; [split; [|split]; (eapply approx_le; [eassumption|lra])|].
  intros c' HC'. unfold channel, fst3, snd3, thd3. cbn [In comps] in HC'. destruct HC' as [<- |[<- |[<- |[]]]]; cbn [fst snd]; lra.
Qed.
Print Assumptions C79_wide_yuv_to_rgb_partial.

(** YUV with colors outside of 0 .. 1 to YUV with the PQ curve.
    Missing: HLG colors above 1; for what [readable] excludes see C80. *)
Theorem C79_wide_yuv_to_yuv_partial : forall sp sl b m src sps dst dps is ks id kd,
  converts (libm_of sp sl) b m src sps dst dps -> levels_ok m src sps ->
  sampling_of (im_format src) <> SRGB -> sampling_of (im_format dst) <> SRGB ->
  im_color src = CYUV is -> weights_of (yc_space is) = Some ks ->
  im_color dst = CYUV id -> weights_of (yc_space id) = Some kd ->
  let ts := ci_transfer (im_color src) in
  ts <> TBT2100PQ -> yc_transfer id = TBT2100PQ ->
  forall c x y, has_comp (im_format dst) c = true -> in_image dst x y ->
  let cb := column_backend b (im_width dst) x in
  platform_pow sp sl cb ->
  let s c x y := read_at ks m src sps is c x y in
  let light x y := light_all ts (ci_primaries (im_color src)) (ci_primaries (im_color dst)) (s CR x y) (s CG x y) (s CB x y) in
  let block := (x, y) :: chroma_block (sampling_of (im_format dst)) x y in
  (forall p c, In p block -> In c comps -> readable cb ts (s c (fst p) (snd p))) ->
  exists l color : nat -> nat -> R * R * R,
    (forall p, In p block -> near_pq (light (fst p) (snd p)) (9 / 10000) (l (fst p) (snd p)) (color (fst p) (snd p))) /\
    let ch c x y := channel c (color x y) in
    let t := ideal_level kd (yc_full_range id) (im_format dst) (ch CR) (fun x y => written_green (yc_space id) (ch CG x y)) (ch CB) c x y in
    let hi := IZR (if (sample_bytes (im_format dst) =? 2)%nat then 65535 else 255) in
    (cb = AVX512 -> - (1 / 4) <= t <= hi + 1 / 4) ->
    exists z, stored (libm_of sp sl) b m src dst dps c x y = Some z /\ (0 <= z)%Z /\
      stored_for cb (IZR (max_level (im_format dst)) / 80000) (clamp hi t) z.
Proof.
  intros sp sl b m src sps dst dps is ks id kd CVT LV FS FD CI WS CID WK ts TS TD c x y HC HI cb PL s light block SB.
  pose proof (accurate_lane sp sl cb PL) as A. assert (VS : valid_image src sps) by apply CVT.
  pose proof (converts_convertible _ _ _ _ _ _ _ CVT) as CT.
  assert (TD' : ci_transfer (im_color dst) = TBT2100PQ) by (rewrite CID; exact TD).
  assert (SL : same_light (im_color src) (im_color dst) = false).
  { unfold same_light. fold ts. rewrite TD'. destruct ts; try congruence; reflexivity. }
  apply (lit_yuv sp sl b m src sps dst dps id kd light (fun _ _ => 9 / 10000) CVT SL FD CID WK TD c x y HC HI A).
  intros p HP.
  assert (HI' : in_image dst (fst p) (snd p)) by (eapply block_in_image; [apply CT|apply CT|exact HI|exact HP]).
  assert (HS : in_image src (fst p) (snd p)) by (unfold in_image in *; rewrite (cv_width _ _ _ _ CT), (cv_height _ _ _ _ CT); exact HI').
  destruct (read_wide sp sl cb m src sps is ks (ci_primaries (im_color dst)) (fst p) (snd p) A VS LV FS CI WS HS (fun c' HC' => SB p c' HP HC')) as (F3 & FB). fold ts in F3, FB. cbv zeta beta in F3, FB.
  cbv beta.   unfold lit. fold ts. unfold light, s. cbv beta. destruct (light_all ts _ _ _ _ _) as ((p1, p2), p3).
  destruct (from_xyz (ci_primaries (im_color dst)) (to_xyz _ (map3 _ _))) as ((q1, q2), q3).
  destruct F3 as (F1 & F2 & F3). destruct FB as (B1 & B2 & B3). split; [split; [|split]; (eapply approx_le; [eassumption|lra])|].
  intros c' HC'. unfold channel, fst3, snd3, thd3. cbn [In comps] in HC'. destruct HC' as [<- |[<- |[<- |[]]]]; cbn [fst snd]; lra.
Qed.
Print Assumptions C79_wide_yuv_to_yuv_partial.

(** PQ pictures with BT.2020 primaries to BT.709 primaries, and the dark blue of C80
    to PQ *)
Definition pq709 : image := ex_image RGBA 2 2 (CRGB TBT2100PQ PrBT709) (ex_rgba_planes 1).
Definition pq709_yuv : image := ex_image I420 2 2 (CYUV (YuvCI TBT2100PQ PrBT709 SpBT709 false)) (ex_yuv_planes 1).

Example C81_pq_example : forall b, let lm := libm_of avx_pow avx_log in
  converts lm b ex_mem pq_in (ex_rgba_planes 0) pq709 (ex_rgba_planes 1) /\ converts lm b ex_mem pq_in (ex_rgba_planes 0) pq709_yuv (ex_yuv_planes 1) /\
  converts lm b soft_mem pq_yuv_in (ex_yuv_planes 0) pq709 (ex_rgba_planes 1) /\ converts lm b soft_mem pq_yuv_in (ex_yuv_planes 0) pq709_yuv (ex_yuv_planes 1) /\
  bytes_ok ex_mem /\ levels_ok soft_mem pq_yuv_in (ex_yuv_planes 0) /\
  (forall x y, in_image pq_yuv_in x y -> forall c, In c comps -> Rmax 0 (read_at bt2020 soft_mem pq_yuv_in (ex_yuv_planes 0) pq_info c x y) <= 1) /\
  map (fun c => stored lm b ex_mem pq_in pq709 (ex_rgba_planes 1) c 1 1) comps = [Some 76; Some 91; Some 98]%Z /\
  map (fun c => stored lm b soft_mem pq_yuv_in pq709_yuv (ex_yuv_planes 1) c 1 1) [CY; CU; CV] = [Some 121; Some 75; Some 66]%Z.
Proof.
  intros b lm. split; [unfold lm; ex_converts b|]. split; [unfold lm; ex_converts b|]. split; [unfold lm; ex_converts b|]. split; [unfold lm; ex_converts b|].
  split; [apply ex_mem_bytes|]. split; [apply bytes_levels; [|reflexivity]; intros bf i; unfold soft_mem; pose proof (Nat.mod_upper_bound i 4); lia|].
  split; [intros x y H c HC; apply Rmax_lub; [lra|exact (pq_colors x y H c HC)]|].
  unfold lm. split; [narrow b (ex_rgba_planes 0)|narrow b (ex_yuv_planes 0)].
Qed.

Example C79_wide_example : forall b, let lm := libm_of avx_pow avx_log in
  converts lm b small_mem small_src (ex_yuv_planes 0) pq709 (ex_rgba_planes 1) /\ converts lm b small_mem small_src (ex_yuv_planes 0) pq709_yuv (ex_yuv_planes 1) /\
  levels_ok small_mem small_src (ex_yuv_planes 0) /\
  (forall x y, in_image small_src x y -> let s c := read_at bt709 small_mem small_src (ex_yuv_planes 0) dark_info c x y in
     s CR < - (76 / 100) /\ forall c, In c comps -> readable Scalar TSRGB (s c)) /\
  map (fun c => stored lm b small_mem small_src pq709 (ex_rgba_planes 1) c 1 1) comps = [Some 0; Some 8; Some 33]%Z.
Proof.
  intros b lm. destruct (C80_example b) as (_ & _ & LV & _ & _ & R & _). split; [unfold lm; ex_converts b|]. split; [unfold lm; ex_converts b|]. split; [exact LV|].
  split; [intros x y H; destruct (R x y H) as (R1 & R2); split; [exact R1|]; intros c HC; exact (proj1 (R2 c HC))|].
  unfold lm. narrow b (ex_yuv_planes 0).
Qed.
