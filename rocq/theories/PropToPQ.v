(** C79: what convert stores in images with the PQ curve. *)

From Coq Require Import List ZArith Bool Arith Reals Lia Lra Psatz.
From Coq Require Import Floats.SpecFloat.
From Flocq Require Import Core.
From Verif Require Import Base Types Planes ImageM F32 Vector Simd SpecVector SimdProofs QuantProofs SpecGeom GeomProofs
  SpecColor SpecConvert SpecRun Formats Visit Convert VisitProofs ColorProofs ConvertProofs ExactProofs PropConvert PropFidelity
  SpecReal FloatProofs AccProofs TargetProofs PropColor ColorR SpecTransfer PowerProofs MathProofs SpecMath LaneProofs TransferProofs
  Math NegProofs RecolorProofs PropRecolor GamutProofs PropGamut GrayProofs PropGray PropDrift PropBT2020 PropOut.
Import ListNotations.
Local Open Scope R_scope.

(** The PQ code of linear light.  1.0 is taken for 1 cd/m2 (C66); there is no
    light below 0. *)
Definition pq_code (light : R) : R := pq_encode (Rmax light 0).

Lemma pq_small : forall x, x <= 32 / 10 -> 0 <= pq_code x <= 2178 / 10000.
Proof.
  intros x B. unfold pq_code. split; [unfold pq_encode; cbv zeta; apply power_ge0|].
  eapply Rle_trans; [apply pq_mono; split; [apply Rmax_r|apply Rmax_lub; [exact B|lra]]|]. apply pq_points.
Qed.

Lemma pq_any : forall L x, accurate L -> is_num x -> fval x <= 32 / 10 ->
  let v := oetf L TBT2100PQ x in
  approx v (fval v) 0 /\ Rabs (fval v - pq_code (fval x)) <= 1 / 4000 /\ Rabs (fval v) <= 3.
Proof.
  intros L x A N B. cbv zeta. destruct (pq_enc_max L x A N ltac:(lra)) as (NP & EP). split; [apply exact_approx, NP|]. split; [exact EP|].
  pose proof (pq_small (fval x) B) as P. apply Rabs_le_inv in EP. unfold pq_code in P. apply Rabs_le. lra.
Qed.

(** What is known of a pixel: its light is close to the exact one, and its color
    to the PQ code of that *)
Definition near_pq (light : R * R * R) (delta : R) (l p : R * R * R) : Prop := forall c, In c comps ->
  Rabs (channel c l - channel c light) <= delta /\ Rabs (channel c p - pq_code (channel c l)) <= 1 / 4000.

Lemma recolored_pq : forall sp sl cb src dst q al w e, let L := lane_of (libm_of sp sl) cb in accurate L ->
  same_light (im_color src) (im_color dst) = false -> ci_transfer (im_color dst) = TBT2100PQ ->
  let ts := ci_transfer (im_color src) in
  approx3 (map3 (eotf L ts) q) w e -> (let '(x, y, z) := w in 0 <= x <= 12 / 10 /\ 0 <= y <= 12 / 10 /\ 0 <= z <= 12 / 10) -> 0 <= e <= 1 / 7900 ->
  let light := from_xyz (ci_primaries (im_color dst)) (to_xyz (ci_primaries (im_color src)) w) in
  exists l p, near_pq light (256 / 100 * e + 9 / 1000000) l p /\
    pixel_approx 0 (recolored L (im_color src) (im_color dst) (q, al)) (channel CR p) (channel CG p) (channel CB p).
Proof.
  intros sp sl cb src dst q al w e L A SL TD ts D W E light. unfold recolored. rewrite SL, TD. fold ts.
  pose proof (light_acc (ci_primaries (im_color src)) (ci_primaries (im_color dst)) _ _ _ D W ltac:(lra)) as LA.
  pose proof (linear_bound (ci_primaries (im_color src)) (ci_primaries (im_color dst)) w W) as FB.
  fold light in LA, FB. clearbody light. unfold recolor. cbn [fst snd].
  destruct (from_xyz (ci_primaries (im_color dst)) (to_xyz _ (map3 (eotf L ts) q))) as ((q1, q2), q3).
  destruct light as ((p1, p2), p3). destruct LA as ((N1 & A1) & (N2 & A2) & (N3 & A3)). destruct FB as (B1 & B2 & B3).
  pose proof (Rabs_le_inv _ _ A1) as R1. pose proof (Rabs_le_inv _ _ A2) as R2. pose proof (Rabs_le_inv _ _ A3) as R3.
  apply Rabs_le_inv in B1. apply Rabs_le_inv in B2. apply Rabs_le_inv in B3.
  destruct (pq_any L q1 A N1 ltac:(lra)) as (X1 & E1 & M1). destruct (pq_any L q2 A N2 ltac:(lra)) as (X2 & E2 & M2). destruct (pq_any L q3 A N3 ltac:(lra)) as (X3 & E3 & M3).
  exists (fval q1, fval q2, fval q3), (fval (oetf L TBT2100PQ q1), fval (oetf L TBT2100PQ q2), fval (oetf L TBT2100PQ q3)).
  split.
  - intros c HC. cbn [In comps] in HC. unfold channel, fst3, snd3, thd3. destruct HC as [<- |[<- |[<- |[]]]]; cbn [fst snd]; split; assumption.
  - unfold pixel_approx, channel, fst3, snd3, thd3. cbn [fst snd map3]. split; [split; [exact X1|split; [exact X2|exact X3]]|split; [exact M1|split; [exact M2|exact M3]]].
Qed.

(** * To YUV *)

Lemma stored_pq : forall sp sl b m src sps dst dps i k (w : nat -> nat -> R * R * R) e,
  converts (libm_of sp sl) b m src sps dst dps -> same_light (im_color src) (im_color dst) = false ->
  sampling_of (im_format dst) <> SRGB -> im_color dst = CYUV i -> weights_of (yc_space i) = Some k -> yc_transfer i = TBT2100PQ ->
  0 <= e <= 1 / 7900 ->
  forall c x y, has_comp (im_format dst) c = true -> in_image dst x y ->
  let cb := column_backend b (im_width dst) x in
  let L := lane_of (libm_of sp sl) cb in
  accurate L ->
  let light x y := from_xyz (ci_primaries (im_color dst)) (to_xyz (ci_primaries (im_color src)) (w x y)) in
  let block := (x, y) :: chroma_block (sampling_of (im_format dst)) x y in
  (forall p, In p block ->
     approx3 (map3 (eotf L (ci_transfer (im_color src))) (fst (source_pixel L m (im_format src) (im_color src) sps (fst p) (snd p)))) (w (fst p) (snd p)) e /\
     (let '(x, y, z) := w (fst p) (snd p) in 0 <= x <= 12 / 10 /\ 0 <= y <= 12 / 10 /\ 0 <= z <= 12 / 10)) ->
  exists l color : nat -> nat -> R * R * R,
    (forall p, In p block -> near_pq (light (fst p) (snd p)) (256 / 100 * e + 9 / 1000000) (l (fst p) (snd p)) (color (fst p) (snd p))) /\
    let ch c x y := channel c (color x y) in
    let t := ideal_level k (yc_full_range i) (im_format dst) (ch CR) (fun x y => written_green (yc_space i) (ch CG x y)) (ch CB) c x y in
    let hi := IZR (if (sample_bytes (im_format dst) =? 2)%nat then 65535 else 255) in
    (cb = AVX512 -> - (1 / 4) <= t <= hi + 1 / 4) ->
    exists z, stored (libm_of sp sl) b m src dst dps c x y = Some z /\ (0 <= z)%Z /\
      stored_for cb (IZR (max_level (im_format dst)) / 80000) (clamp hi t) z.
Proof.
  intros sp sl b m src sps dst dps i k w e CVT SL SF CI WK TP E c x y HC HI cb L A light block H.
  pose proof (light_kind _ _ SL) as SK.
  assert (TD : ci_transfer (im_color dst) = TBT2100PQ) by (rewrite CI; exact TP).
  assert (EX : forall p, In p block -> exists lp : (R * R * R) * (R * R * R),
    near_pq (light (fst p) (snd p)) (256 / 100 * e + 9 / 1000000) (fst lp) (snd lp) /\
    pixel_approx 0 (recolored L (im_color src) (im_color dst) (source_pixel L m (im_format src) (im_color src) sps (fst p) (snd p)))
      (channel CR (snd lp)) (channel CG (snd lp)) (channel CB (snd lp))).
  { intros p HP. destruct (H p HP) as (D & W). destruct (source_pixel L m (im_format src) (im_color src) sps (fst p) (snd p)) as (q, al). cbn [fst snd] in D.
    destruct (recolored_pq sp sl cb src dst q al _ e A SL TD D W E) as (l & p' & N & P). exists (l, p'). split; [exact N|exact P]. }
  destruct (choose _ _ ((0, 0, 0), (0, 0, 0)) block EX) as (near & F).
  exists (fun x y => fst (near x y)), (fun x y => snd (near x y)). split; [intros p HP; apply (F p HP)|].
  intros ch t hi RG.
  pose proof (pixels_stored (libm_of sp sl) b m src sps dst dps i _ _ _ (ch CR) (ch CG) (ch CB) 0 CVT SK SF CI
    ltac:(destruct (yc_space i); try reflexivity; discriminate WK) (fun L => encoder_any L i k WK) ltac:(lra) c x y HC HI (fun p HP => proj2 (F p HP))) as S.
  cbv zeta in S.
  assert (ET : level_by (fun r g b => luma k r (written_green (yc_space i) g) b) (fun r g b => SpecReal.cb k r (written_green (yc_space i) g) b)
    (fun r g b => cr k r (written_green (yc_space i) g) b) (yc_full_range i) (im_format dst) (ch CR) (ch CG) (ch CB) c x y = t).
  { unfold level_by, t, ideal_level. cbv zeta.
    assert (CM : chroma_mean (sampling_of (im_format dst)) (fun x y => written_green (yc_space i) (ch CG x y)) x y
      = written_green (yc_space i) (chroma_mean (sampling_of (im_format dst)) (ch CG) x y)).
    { unfold written_green. destruct (yc_space i); try reflexivity.
      unfold chroma_mean, mean. destruct (sampling_of (im_format dst)); unfold chroma_block; cbn [map fold_right length fst snd]; simpl INR; field. }
    rewrite CM. destruct c; reflexivity. }
  rewrite ET in S. clearbody t. destruct S as (z & ST & SS & Z0); [exact RG|].
  exists z. split; [exact ST|]. split; [exact Z0|]. eapply stored_for_weaken; [exact SS|].
  pose proof (max_level_R (im_format dst)). unfold u7. lra.
Qed.

(** * To RGB *)

Lemma stored_rgb_pq : forall sp sl b m src sps dst dps w e,
  converts (libm_of sp sl) b m src sps dst dps -> same_light (im_color src) (im_color dst) = false ->
  sampling_of (im_format dst) = SRGB -> ci_transfer (im_color dst) = TBT2100PQ -> 0 <= e <= 1 / 7900 ->
  forall c x y, In c comps -> in_image dst x y ->
  let cb := column_backend b (im_width dst) x in
  let L := lane_of (libm_of sp sl) cb in
  accurate L ->
  let light := from_xyz (ci_primaries (im_color dst)) (to_xyz (ci_primaries (im_color src)) w) in
  approx3 (map3 (eotf L (ci_transfer (im_color src))) (fst (source_pixel L m (im_format src) (im_color src) sps x y))) w e ->
  (let '(x, y, z) := w in 0 <= x <= 12 / 10 /\ 0 <= y <= 12 / 10 /\ 0 <= z <= 12 / 10) ->
  exists z l, stored (libm_of sp sl) b m src dst dps c x y = Some z /\
    Rabs (l - channel c light) <= 256 / 100 * e + 9 / 1000000 /\ stored_for cb (1 / 15) (255 * pq_code l) z.
Proof.
  intros sp sl b m src sps dst dps w e CVT SL FD TD E c x y HC HI cb L A light D W.
  pose proof (light_kind _ _ SL) as SK.
  assert (HD : has_comp (im_format dst) c = true) by (unfold has_comp; rewrite FD; cbn [In comps] in HC; intuition (subst; reflexivity)).
  assert (ICT : ictcp_chroma420 (im_format dst) (im_color dst) c = false) by (unfold ictcp_chroma420; rewrite FD; reflexivity).
  rewrite (stored_expected _ _ _ _ _ _ _ CVT c x y HD HI ICT). fold cb. fold L.
  pose proof (linear_bound (ci_primaries (im_color src)) (ci_primaries (im_color dst)) w W) as FB. fold light in FB.
  assert (BL : channel c light <= 3).
  { destruct light as ((p1, p2), p3). destruct FB as (B1 & B2 & B3). apply Rabs_le_inv in B1. apply Rabs_le_inv in B2. apply Rabs_le_inv in B3.
    unfold channel, fst3, snd3, thd3. cbn [fst snd]. destruct c; lra. }
  unfold expected_value. rewrite SK. unfold target. rewrite FD.
  destruct (source_pixel L m (im_format src) (im_color src) sps x y) as (q, al). cbn [fst snd] in *.
  destruct (recolored_pq sp sl cb src dst q al _ e A SL TD D W E) as (l & p & N & (P & M)). fold light in N. clearbody light.
  destruct (N c HC) as (NL & NP). fold L in P. set (pix := recolored L _ _ _) in *. clearbody pix. destruct pix as (((r, g), bl), al').
  assert (Q : approx (match c with CR => r | CG => g | _ => bl end) (channel c p) 0 /\ Rabs (channel c p) <= 3).
  { cbn [In comps] in HC. unfold fst3, snd3, thd3 in P. cbn [fst snd] in P. destruct HC as [<- |[<- |[<- |[]]]]; tauto. }
  destruct Q as (Q & QM).
  assert (MF : max_level (im_format dst) = 255%Z) by (destruct (im_format dst); try discriminate FD; reflexivity).
  assert (TF : top (im_format dst) = 255%Z) by (destruct (im_format dst); try discriminate FD; reflexivity).
  destruct (acc_store cb (im_format dst) _ _ _ Q ltac:(lra) ltac:(lra) ltac:(left; exact FD)) as (S1 & S0). rewrite MF, TF in S1.
  exists (quantise (quant_of cb) (im_format dst) (match c with CR => r | CG => g | _ => bl end)), (channel c l). split; [cbn [In comps] in HC; destruct HC as [<- |[<- |[<- |[]]]]; reflexivity|]. split; [exact NL|].
  apply Rabs_le_inv in NL. pose proof (pq_small (channel c l) ltac:(lra)) as PS.
  assert (C : clamp 255 (255 * pq_code (channel c l)) = 255 * pq_code (channel c l)) by (apply clamp_id; lra). rewrite <- C.
  assert (DD : Rabs (255 * channel c p - 255 * pq_code (channel c l)) <= 255 / 4000).
  { replace (255 * channel c p - 255 * pq_code (channel c l)) with (255 * (channel c p - pq_code (channel c l))) by ring.
    rewrite Rabs_mult, (Rabs_pos_eq 255) by lra. lra. }
  pose proof (clamp_near 255 _ _ _ ltac:(lra) DD) as CN.
  assert (S2 : stored_for cb (1 / 15) (clamp 255 (255 * pq_code (channel c l))) (quantise (quant_of cb) (im_format dst) (match c with CR => r | CG => g | _ => bl end))).
  { apply Rabs_le_inv in CN. unfold u7 in S1. destruct cb; cbn [stored_for] in *; unfold truncated, rounded in *; try lra; apply Rabs_le_inv in S1; apply Rabs_le; lra. }
  exact S2.
Qed.

(** * C79 *)

(** RGB to RGB with the PQ curve: the sample is the PQ code of light that is the
    light of the source up to 1/40000 (1.0 taken for 1 cd/m2), up to 1/15 of a
    level and the rounding.  Light below 0 is clipped.
    Missing: PQ sources. *)
Theorem C79_rgb_to_rgb_partial : forall sp sl b m src sps dst dps,
  converts (libm_of sp sl) b m src sps dst dps -> bytes_ok m ->
  sampling_of (im_format src) = SRGB -> sampling_of (im_format dst) = SRGB ->
  let ts := ci_transfer (im_color src) in
  ts <> TBT2100PQ -> ci_transfer (im_color dst) = TBT2100PQ ->
  forall c x y, In c comps -> in_image dst x y ->
  let cb := column_backend b (im_width dst) x in
  platform_pow sp sl cb ->
  let s c := level m (im_format src) sps c x y / 255 in
  let exact := channel c (light_of ts (ci_primaries (im_color src)) (ci_primaries (im_color dst)) (s CR) (s CG) (s CB)) in
  exists z light, stored (libm_of sp sl) b m src dst dps c x y = Some z /\ Rabs (light - exact) <= 1 / 40000 /\
    stored_for cb (1 / 15) (255 * pq_code light) z.
Proof.
  intros sp sl b m src sps dst dps CVT B FS FD ts TS TD c x y HC HI cb PL s exact.
  pose proof (accurate_lane sp sl cb PL) as A. assert (VS : valid_image src sps) by apply CVT.
  assert (SL : same_light (im_color src) (im_color dst) = false).
  { unfold same_light. fold ts. rewrite TD. destruct ts; try congruence; reflexivity. }
  destruct (rgb_light (lane_of (libm_of sp sl) cb) m src sps x y A VS B FS TS) as (R1 & R2).
  destruct (stored_rgb_pq sp sl b m src sps dst dps _ (57 / 10000000) CVT SL FD TD ltac:(lra) c x y HC HI A R1 R2) as (z & l & ST & NL & SF).
  exists z, l. split; [exact ST|]. split; [eapply Rle_trans; [exact NL|lra]|exact SF].
Qed.
Print Assumptions C79_rgb_to_rgb_partial.

(** YUV to RGB.  Missing: PQ sources; source colors outside of 0 .. 1. *)
Theorem C79_yuv_to_rgb_partial : forall sp sl b m src sps dst dps i k,
  converts (libm_of sp sl) b m src sps dst dps -> levels_ok m src sps ->
  sampling_of (im_format src) <> SRGB -> sampling_of (im_format dst) = SRGB ->
  im_color src = CYUV i -> weights_of (yc_space i) = Some k ->
  let ts := ci_transfer (im_color src) in
  ts <> TBT2100PQ -> ci_transfer (im_color dst) = TBT2100PQ ->
  forall c x y, In c comps -> in_image dst x y ->
  let cb := column_backend b (im_width dst) x in
  platform_pow sp sl cb ->
  read_real k m src sps i x y ->
  let s c := read_at k m src sps i c x y in
  let exact := channel c (light_of ts (ci_primaries (im_color src)) (ci_primaries (im_color dst)) (s CR) (s CG) (s CB)) in
  exists z light, stored (libm_of sp sl) b m src dst dps c x y = Some z /\ Rabs (light - exact) <= light_error ts /\
    stored_for cb (1 / 15) (255 * pq_code light) z.
Proof.
  intros sp sl b m src sps dst dps i k CVT LV FS FD CI WK ts TS TD c x y HC HI cb PL RC s exact.
  pose proof (accurate_lane sp sl cb PL) as A. assert (VS : valid_image src sps) by apply CVT.
  pose proof (converts_convertible _ _ _ _ _ _ _ CVT) as CT.
  assert (SL : same_light (im_color src) (im_color dst) = false).
  { unfold same_light. fold ts. rewrite TD. destruct ts; try congruence; reflexivity. }
  assert (HS : in_image src x y) by (unfold in_image in *; rewrite (cv_width _ _ _ _ CT), (cv_height _ _ _ _ CT); exact HI).
  destruct (read_light sp sl cb m src sps i k x y A VS LV FS CI WK HS TS RC) as (R1 & R2).
  assert (DE : 0 <= decode_error ts <= 1 / 7900) by (unfold decode_error; destruct ts; lra).
  assert (LE : 256 / 100 * decode_error ts + 9 / 1000000 <= light_error ts) by (unfold decode_error, light_error; destruct ts; lra).
  destruct (stored_rgb_pq sp sl b m src sps dst dps _ (decode_error ts) CVT SL FD TD DE c x y HC HI A R1 R2) as (z & l & ST & NL & SF).
  exists z, l. split; [exact ST|]. split; [eapply Rle_trans; [exact NL|exact LE]|exact SF].
Qed.
Print Assumptions C79_yuv_to_rgb_partial.

(** RGB to YUV: the sample is the level of colors that are the PQ codes, up to
    1/4000, of light that is the light of the source up to 1/40000.
    Missing: PQ sources. *)
Theorem C79_rgb_to_yuv_partial : forall sp sl b m src sps dst dps i k,
  converts (libm_of sp sl) b m src sps dst dps -> bytes_ok m ->
  sampling_of (im_format src) = SRGB -> sampling_of (im_format dst) <> SRGB ->
  im_color dst = CYUV i -> weights_of (yc_space i) = Some k ->
  let ts := ci_transfer (im_color src) in
  ts <> TBT2100PQ -> yc_transfer i = TBT2100PQ ->
  forall c x y, has_comp (im_format dst) c = true -> in_image dst x y ->
  let cb := column_backend b (im_width dst) x in
  platform_pow sp sl cb ->
  let s c x y := level m (im_format src) sps c x y / 255 in
  let light x y := light_of ts (ci_primaries (im_color src)) (ci_primaries (im_color dst)) (s CR x y) (s CG x y) (s CB x y) in
  let block := (x, y) :: chroma_block (sampling_of (im_format dst)) x y in
  exists l color : nat -> nat -> R * R * R,
    (forall p, In p block -> near_pq (light (fst p) (snd p)) (1 / 40000) (l (fst p) (snd p)) (color (fst p) (snd p))) /\
    let ch c x y := channel c (color x y) in
    let t := ideal_level k (yc_full_range i) (im_format dst) (ch CR) (fun x y => written_green (yc_space i) (ch CG x y)) (ch CB) c x y in
    let hi := IZR (if (sample_bytes (im_format dst) =? 2)%nat then 65535 else 255) in
    (cb = AVX512 -> - (1 / 4) <= t <= hi + 1 / 4) ->
    exists z, stored (libm_of sp sl) b m src dst dps c x y = Some z /\ (0 <= z)%Z /\
      stored_for cb (IZR (max_level (im_format dst)) / 80000) (clamp hi t) z.
Proof.
  intros sp sl b m src sps dst dps i k CVT B FS FD CI WK ts TS TD c x y HC HI cb PL s light block.
  pose proof (accurate_lane sp sl cb PL) as A. assert (VS : valid_image src sps) by apply CVT.
  assert (SL : same_light (im_color src) (im_color dst) = false).
  { unfold same_light. fold ts. rewrite CI. cbn [ci_transfer]. rewrite TD. destruct ts; try congruence; reflexivity. }
  destruct (stored_pq sp sl b m src sps dst dps i k (fun x y => (decoded ts (s CR x y), decoded ts (s CG x y), decoded ts (s CB x y)))
    (57 / 10000000) CVT SL FD CI WK TD ltac:(lra) c x y HC HI A) as (l & color & N & R).
  { intros p HP. exact (rgb_light (lane_of (libm_of sp sl) cb) m src sps (fst p) (snd p) A VS B FS TS). }
  exists l, color. split; [|exact R]. intros p HP c' HC'. destruct (N p HP c' HC') as (N1 & N2). split; [eapply Rle_trans; [exact N1|lra]|exact N2].
Qed.
Print Assumptions C79_rgb_to_yuv_partial.

(** YUV to YUV.  Missing: PQ sources; source colors outside of 0 .. 1. *)
Theorem C79_yuv_to_yuv_partial : forall sp sl b m src sps dst dps is ks id kd,
  converts (libm_of sp sl) b m src sps dst dps -> levels_ok m src sps ->
  sampling_of (im_format src) <> SRGB -> sampling_of (im_format dst) <> SRGB ->
  im_color src = CYUV is -> weights_of (yc_space is) = Some ks ->
  im_color dst = CYUV id -> weights_of (yc_space id) = Some kd ->
  let ts := ci_transfer (im_color src) in
  ts <> TBT2100PQ -> yc_transfer id = TBT2100PQ ->
  forall c x y, has_comp (im_format dst) c = true -> in_image dst x y ->
  let cb := column_backend b (im_width dst) x in
  platform_pow sp sl cb ->
  let s := read_at ks m src sps is in
  let light x y := light_of ts (ci_primaries (im_color src)) (ci_primaries (im_color dst)) (s CR x y) (s CG x y) (s CB x y) in
  let block := (x, y) :: chroma_block (sampling_of (im_format dst)) x y in
  (forall p, In p block -> read_real ks m src sps is (fst p) (snd p)) ->
  exists l color : nat -> nat -> R * R * R,
    (forall p, In p block -> near_pq (light (fst p) (snd p)) (light_error ts) (l (fst p) (snd p)) (color (fst p) (snd p))) /\
    let ch c x y := channel c (color x y) in
    let t := ideal_level kd (yc_full_range id) (im_format dst) (ch CR) (fun x y => written_green (yc_space id) (ch CG x y)) (ch CB) c x y in
    let hi := IZR (if (sample_bytes (im_format dst) =? 2)%nat then 65535 else 255) in
    (cb = AVX512 -> - (1 / 4) <= t <= hi + 1 / 4) ->
    exists z, stored (libm_of sp sl) b m src dst dps c x y = Some z /\ (0 <= z)%Z /\
      stored_for cb (IZR (max_level (im_format dst)) / 80000) (clamp hi t) z.
Proof.
  intros sp sl b m src sps dst dps is ks id kd CVT LV FS FD CI WS CID WK ts TS TD c x y HC HI cb PL s light block RC.
  pose proof (accurate_lane sp sl cb PL) as A. assert (VS : valid_image src sps) by apply CVT.
  pose proof (converts_convertible _ _ _ _ _ _ _ CVT) as CT.
  assert (SL : same_light (im_color src) (im_color dst) = false).
  { unfold same_light. fold ts. rewrite CID. cbn [ci_transfer]. rewrite TD. destruct ts; try congruence; reflexivity. }
  assert (DE : 0 <= decode_error ts <= 1 / 7900) by (unfold decode_error; destruct ts; lra).
  assert (LE : 256 / 100 * decode_error ts + 9 / 1000000 <= light_error ts) by (unfold decode_error, light_error; destruct ts; lra).
  destruct (stored_pq sp sl b m src sps dst dps id kd (fun x y => (decoded ts (s CR x y), decoded ts (s CG x y), decoded ts (s CB x y)))
    (decode_error ts) CVT SL FD CID WK TD DE c x y HC HI A) as (l & color & N & R).
  { intros p HP.
    assert (HI' : in_image dst (fst p) (snd p)) by (eapply block_in_image; [apply CT|apply CT|exact HI|exact HP]).
    assert (HS : in_image src (fst p) (snd p)) by (unfold in_image in *; rewrite (cv_width _ _ _ _ CT), (cv_height _ _ _ _ CT); exact HI').
    exact (read_light sp sl cb m src sps is ks (fst p) (snd p) A VS LV FS CI WS HS TS (RC p HP)). }
  exists l, color. split; [|exact R]. intros p HP c' HC'. destruct (N p HP c' HC') as (N1 & N2). split; [eapply Rle_trans; [exact N1|exact LE]|exact N2].
Qed.
Print Assumptions C79_yuv_to_yuv_partial.

Definition pq_rgb : image := ex_image RGBA 2 2 (CRGB TBT2100PQ PrBT2020) (ex_rgba_planes 1).
Definition pq_yuv : image := ex_image I420 2 2 (CYUV (YuvCI TBT2100PQ PrBT2020 SpBT2020 false)) (ex_yuv_planes 1).

Example C79_example : forall b, let lm := libm_of avx_pow avx_log in
  converts lm b ex_mem srgb22 (ex_rgba_planes 0) pq_rgb (ex_rgba_planes 1) /\ converts lm b ex_mem srgb22 (ex_rgba_planes 0) pq_yuv (ex_yuv_planes 1) /\
  converts lm b soft_mem wide_src (ex_yuv_planes 0) pq_rgb (ex_rgba_planes 1) /\ converts lm b soft_mem wide_src (ex_yuv_planes 0) pq_yuv (ex_yuv_planes 1) /\
  bytes_ok ex_mem /\ levels_ok soft_mem wide_src (ex_yuv_planes 0) /\ (forall cb, platform_pow avx_pow avx_log cb) /\
  (forall x y, in_image wide_src x y -> read_real bt2020 soft_mem wide_src (ex_yuv_planes 0) wide_info x y) /\
  map (fun c => stored lm b ex_mem srgb22 pq_rgb (ex_rgba_planes 1) c 1 1) comps = [Some 15; Some 16; Some 17]%Z /\
  map (fun c => stored lm b soft_mem wide_src pq_yuv (ex_yuv_planes 1) c 1 1) [CY; CU; CV] = [Some 29; Some 127; Some 131]%Z.
Proof.
  intros b lm. split; [unfold lm; ex_converts b|]. split; [unfold lm; ex_converts b|]. split; [unfold lm; ex_converts b|]. split; [unfold lm; ex_converts b|].
  split; [apply ex_mem_bytes|]. split; [apply bytes_levels; [|reflexivity]; intros bf i; unfold soft_mem; pose proof (Nat.mod_upper_bound i 4); lia|].
  split; [intros cb _; split; [exact avx_pow_ok|split; [exact (log_contract avx_log avx_log_ok)|exact avx_pow_negative]]|].
  split; [exact wide_colors|]. unfold lm. split; [narrow b (ex_rgba_planes 0)|narrow b (ex_yuv_planes 0)].
Qed.
