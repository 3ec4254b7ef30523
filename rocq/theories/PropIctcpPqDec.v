(** C77 for ICtCp images with the PQ curve, converted to RGB in PQ. *)

From Coq Require Import List ZArith Bool Arith Reals Lia Lra Psatz.
From Coq Require Import Floats.SpecFloat.
From Flocq Require Import Core.
From Verif Require Import Base Types Planes ImageM F32 Vector Simd SpecVector SimdProofs QuantProofs SpecGeom GeomProofs
  SpecColor SpecConvert SpecRun Formats Visit Convert VisitProofs ColorProofs ConvertProofs ExactProofs PropConvert PropFidelity
  SpecReal FloatProofs AccProofs TargetProofs PropColor ColorR SpecTransfer PowerProofs MathProofs SpecMath LaneProofs TransferProofs
  Math NegProofs RecolorProofs PropRecolor GamutProofs PropGamut GrayProofs PropGray PropDrift PropBT2020 PropOut PropToPQ IctcpProofs
  WideProofs PropWide PqProofs PropFromPQ PqEncProofs PropPQ PropIctcpAcc PropIctcpDec PropIctcpPq.
From Verif Require SpecIctcp PropIctcp.
Import SpecIctcp (ictcp_pq).
Import PropIctcp (cones, uncones).
Import ListNotations.
Local Open Scope R_scope.

(** * Encoded cone responses *)

Lemma unmix_pq : forall a b c vy vu vv l m n, approx a vy (5 * u7) -> approx b vu (5 * u7) -> approx c vv (5 * u7) ->
  - (1 / 10) <= vy <= 11 / 10 -> Rabs vu <= 6 / 10 -> Rabs vv <= 6 / 10 -> ictcp_pq l m n = (vy, vu, vv) ->
  let '(x, y, z) := (a + b * flit 8609037 9 + c * flit 111029625 9,
       a + b * flit (-8609037) 9 + c * flit (-111029625) 9,
       a + b * flit 5600313 7 + c * flit (-32062715) 8)%F in
  approx x l (22 / 10000000) /\ approx y m (22 / 10000000) /\ approx z n (22 / 10000000).
Proof.
  intros a b c vy vu vv l m n HA HB HC BY BU BV E. unfold ictcp_pq in E. injection E as E1 E2 E3.
  cbn [fadd fmul flit f32_ops].
  assert (K : forall p P q Q t, approx p P (12 / 100000000) -> approx q Q (12 / 100000000) -> Rabs P <= 103 / 100 -> Rabs Q <= 61 / 100 -> Rabs P + Rabs Q <= 163 / 100 ->
    Rabs (vy + vu * P + vv * Q - t) <= 2 / 10000000 -> approx (f32_add (f32_add a (f32_mul b p)) (f32_mul c q)) t (22 / 10000000)).
  { intros p P q Q t HP HQ BP BQ BPQ T.
    destruct (mul_small b vu p P HB BU HP BP) as (M1 & B1). destruct (mul_small c vv q Q HC BV HQ ltac:(lra)) as (M2 & B2).
    pose proof (Rabs_pos P). pose proof (Rabs_pos Q).
    assert (BY' : Rabs vy <= 11 / 10) by (apply Rabs_le; lra).
    pose proof (approx_add _ _ _ _ _ _ (173 / 100) HA M1 ltac:(pose proof (Rabs_triang vy (vu * P)); unfold u7; lra) ltac:(lra)) as S1.
    pose proof (approx_add _ _ _ _ _ _ (24 / 10) S1 M2 ltac:(pose proof (Rabs_triang vy (vu * P)); pose proof (Rabs_triang (vy + vu * P) (vv * Q)); unfold u7, half_ulp; lra) ltac:(lra)) as S2.
    eapply approx_weaken; [exact S2|]. unfold half_ulp, u7. lra. }
  assert (A1 : forall q, 0 <= q -> Rabs q = q) by (intros; apply Rabs_pos_eq; assumption).
  assert (A2 : forall q, q <= 0 -> Rabs q = - q) by (intros; apply Rabs_left1; assumption).
  assert (BU' := BU). assert (BV' := BV). apply Rabs_le_inv in BU'. apply Rabs_le_inv in BV'.
  split; [|split].
  - apply (K _ (8609037 / 1000000000) _ (111029625 / 1000000000)); [const_approx|const_approx|rewrite A1; lra|rewrite A1; lra|rewrite !A1; lra|].
    apply Rabs_le. lra.
  - apply (K _ (-8609037 / 1000000000) _ (-111029625 / 1000000000)); [const_approx|const_approx|rewrite A2; lra|rewrite A2; lra|rewrite !A2; lra|].
    apply Rabs_le. lra.
  - apply (K _ (5600313 / 10000000) _ (-32062715 / 100000000)); [const_approx|const_approx|rewrite A1; lra|rewrite A2; lra|rewrite A1, A2; lra|].
    apply Rabs_le. lra.
Qed.

(** * Bright cone responses to light *)

Lemma from_lms_scaled : forall K v w e, 1 <= K <= 40000 -> approx3 v w e -> within3 w K -> 0 <= e <= K / 100000 ->
  approx3 (from_lms v) (from_lms w) (361 / 100 * e + 13 / 10000000 * K).
Proof.
  intros K ((a, b), c) ((x, y), z) e HK (HA & HB & HC) (BX & BY & BZ) E.
  cbn [from_lms approx3]; (split; [|split]); row_scaled K HK E.
Qed.

Lemma from_lms_bound : forall K w, within3 w K -> 0 <= K -> within3 (from_lms w) (361 / 100 * K).
Proof.
  intros K ((x, y), z) (BX & BY & BZ) P. apply Rabs_le_inv in BX. apply Rabs_le_inv in BY. apply Rabs_le_inv in BZ.
  cbn [from_lms within3]. unfold dot. cbn [fadd fmul flit R_ops]. lits. repeat split; apply Rabs_le; lra.
Qed.

Lemma uncones_lip : forall p r g b r' g' b' e, Rabs (r - r') <= e -> Rabs (g - g') <= e -> Rabs (b - b') <= e ->
  SpecIctcp.within3 (14 * e) (uncones p r g b) (uncones p r' g' b').
Proof.
  intros p r g b r' g' b' e R G B. apply Rabs_le_inv in R. apply Rabs_le_inv in G. apply Rabs_le_inv in B.
  unfold uncones, SpecIctcp.within3. destruct p; PropIctcp.run_matrix; repeat split; apply Rabs_le; lra.
Qed.

Lemma uncones_cones : forall p r g b T, Rabs r <= T -> Rabs g <= T -> Rabs b <= T ->
  let '(l, m, n) := cones p r g b in SpecIctcp.within3 (T / 100000) (uncones p l m n) (r, g, b).
Proof.
  intros p r g b T R G B. apply Rabs_le_inv in R. apply Rabs_le_inv in G. apply Rabs_le_inv in B.
  unfold cones, uncones, SpecIctcp.within3. destruct p; PropIctcp.run_matrix; repeat split; apply Rabs_le; lra.
Qed.

Lemma light_back : forall T p v l m n r g b e d, 1 <= T <= 10001 -> approx3 v (l, m, n) e -> between3 0 T (l, m, n) -> 0 <= e <= T / 100 -> 0 <= d ->
  Rabs r <= T -> Rabs g <= T -> Rabs b <= T -> SpecIctcp.within3 d (l, m, n) (cones p r g b) ->
  approx3 (from_xyz p (from_lms v)) (r, g, b) (14 * e + 14 * d + 4 / 100000 * T).
Proof.
  intros T p ((a, b), c) x y z r g bl e d HT ((NA & HA) & (NB & HB) & (NC & HC)) (BX & BY & BZ) E D RR RG RB CN.
  set (w' := (fval a, fval b, fval c)).
  assert (A0 : approx3 (a, b, c) w' 0) by (repeat split; try apply NA; try apply NB; try apply NC; rewrite Rminus_diag_eq, Rabs_R0 by reflexivity; lra).
  pose proof HA as HA'. pose proof HB as HB'. pose proof HC as HC'. apply Rabs_le_inv in HA'. apply Rabs_le_inv in HB'. apply Rabs_le_inv in HC'.
  assert (W' : within3 w' (101 / 100 * T)) by (cbn; (split; [|split]); apply Rabs_le; lra).
  pose proof (from_lms_scaled (101 / 100 * T) (a, b, c) w' 0 ltac:(lra) A0 W' ltac:(lra)) as X1.
  pose proof (from_lms_bound _ _ W' ltac:(lra)) as X2.
  assert (F1 : approx3 (from_xyz p (from_lms (a, b, c))) (from_xyz p (from_lms w')) (58 / 10 * (14 / 10000000 * T) + 17 / 10000000 * (367 / 100 * T))).
  { destruct (from_lms (a, b, c)) as ((y1, y2), y3). destruct (from_lms w') as ((z1, z2), z3). destruct X1 as (P1 & P2 & P3). destruct X2 as (R1 & R2 & R3).
    apply (from_xyz_scaled (367 / 100 * T) p (y1, y2, y3) (z1, z2, z3) (14 / 10000000 * T) ltac:(lra)); [|cbn; repeat split; lra|lra].
    split; [|split]; (eapply approx_le; [eassumption|lra]). }
  unfold w' in F1. rewrite uncones_code in F1.
  pose proof (uncones_lip p _ _ _ _ _ _ e HA HB HC) as F2.
  pose proof (uncones_cones p r g bl T RR RG RB) as F4. destruct (cones p r g bl) as ((c1, c2), c3). destruct CN as (N1 & N2 & N3).
  pose proof (uncones_lip p _ _ _ _ _ _ d N1 N2 N3) as F3.
  destruct (from_xyz p (from_lms (a, b, c))) as ((q1, q2), q3). destruct (uncones p (fval a) (fval b) (fval c)) as ((p1, p2), p3).
  destruct (uncones p x y z) as ((r1, r2), r3). destruct (uncones p c1 c2 c3) as ((s1, s2), s3).
  destruct F1 as (G1 & G2 & G3). destruct F2 as (H1 & H2 & H3). destruct F3 as (I1 & I2 & I3). destruct F4 as (J1 & J2 & J3).
  clear - HT E D G1 G2 G3 H1 H2 H3 I1 I2 I3 J1 J2 J3.
  apply Rabs_le_inv in H1. apply Rabs_le_inv in H2. apply Rabs_le_inv in H3. apply Rabs_le_inv in I1. apply Rabs_le_inv in I2. apply Rabs_le_inv in I3.
  apply Rabs_le_inv in J1. apply Rabs_le_inv in J2. apply Rabs_le_inv in J3.
  split; [|split]; (eapply approx_weaken; [eassumption|]).
  - assert (Rabs (p1 - r) <= 14 * e + 14 * d + T / 100000) by (apply Rabs_le; lra). lra.
  - assert (Rabs (p2 - g) <= 14 * e + 14 * d + T / 100000) by (apply Rabs_le; lra). lra.
  - assert (Rabs (p3 - bl) <= 14 * e + 14 * d + T / 100000) by (apply Rabs_le; lra). lra.
Qed.

(** The color the back ends have for a pixel of an ICtCp image: the PQ code of
    light [v] near the light that the pixel stands for *)
Lemma source_light_pq : forall L m src sps i x y, accurate L -> valid_image src sps -> levels_ok m src sps ->
  sampling_of (im_format src) <> SRGB -> im_color src = CYUV i -> yc_space i = SpICtCpPQ -> ci_transfer (im_color src) = TBT2100PQ -> in_image src x y ->
  forall l' m' n' red green blue T d, l' <= 1 -> m' <= 1 -> n' <= 1 ->
  ictcp_pq l' m' n' = (y_at m src sps i x y, u_at m src sps i x y, v_at m src sps i x y) ->
  T <= 10000 -> pq_decode l' <= T -> pq_decode m' <= T -> pq_decode n' <= T ->
  Rabs red <= T -> Rabs green <= T -> Rabs blue <= T -> 0 <= d <= 100 ->
  SpecIctcp.within3 d (pq_decode l', pq_decode m', pq_decode n') (cones (ci_primaries (im_color src)) red green blue) ->
  0 <= T /\ exists v, source_pixel L m (im_format src) (im_color src) sps x y = (map3 (oetf L TBT2100PQ) v, fone) /\
    approx3 v (red, green, blue) (14 * (11 / 10000 + 18 / 10000 * T) + 14 * d + 4 / 100000 * (1 + T)).
Proof.
  intros L m src sps i x y A VS LV FS CI S TS HS l' m' n' cr cg cb' T d HL HM HN MX T1 TL TM TN GR GG GB D CN.
  assert (HCS : forall c, c = CY \/ c = CU \/ c = CV -> has_comp (im_format src) c = true)
    by (intros c' [-> |[-> | ->]]; unfold has_comp; destruct (sampling_of (im_format src)); congruence).
  destruct (norm_acc m src sps CY x y VS LV HS (HCS _ ltac:(auto))) as (AY & BY).
  destruct (norm_acc m src sps CU x y VS LV HS (HCS _ ltac:(auto))) as (AU & BU).
  destruct (norm_acc m src sps CV x y VS LV HS (HCS _ ltac:(auto))) as (AV & BV).
  assert (TE : yc_transfer i = TBT2100PQ /\ yc_primaries i = ci_primaries (im_color src)) by (rewrite CI in *; auto). destruct TE as (TE & PE).
  set (ps := ci_primaries (im_color src)) in *.
  unfold y_at, u_at, v_at in MX. rewrite (level_y_div _ (IZR (max_level (im_format src)))), !(level_c_div _ (IZR (max_level (im_format src)))) in MX.
  destruct (expand_near L i _ _ _ _ _ _ AY AU AV BY BU BV) as (a & bb & cc & EQ & QA & QB & QC).
  assert (BQ : forall v, 0 <= v <= 1 -> Rabs (level_c (yc_full_range i) 1 v) <= 6 / 10) by (intros v V; unfold level_c; destruct (yc_full_range i); apply Rabs_le; lra).
  assert (BQY : forall v, 0 <= v <= 1 -> - (1 / 10) <= level_y (yc_full_range i) 1 v <= 11 / 10) by (intros v V; unfold level_y; destruct (yc_full_range i); lra).
  pose proof (unmix_pq a bb cc _ _ _ l' m' n' QA QB QC (BQY _ BY) (BQ _ BU) (BQ _ BV) MX) as U.
  set (lms := (a + bb * flit 8609037 9 + cc * flit 111029625 9, a + bb * flit (-8609037) 9 + cc * flit (-111029625) 9, a + bb * flit 5600313 7 + cc * flit (-32062715) 8)%F) in *.
  assert (H3 : approx3 (map3 (eotf L TBT2100PQ) lms) (pq_decode l', pq_decode m', pq_decode n') (11 / 10000 + 18 / 10000 * T) /\ 0 <= pq_decode l' /\ 0 <= pq_decode m' /\ 0 <= pq_decode n').
  { destruct lms as [[x1 x2] x3]. destruct U as (U1 & U2 & U3).
    destruct (pq_dec_color L x1 l' A ltac:(eapply approx_le; [exact U1|lra]) HL) as (V1 & W1).
    destruct (pq_dec_color L x2 m' A ltac:(eapply approx_le; [exact U2|lra]) HM) as (V2 & W2).
    destruct (pq_dec_color L x3 n' A ltac:(eapply approx_le; [exact U3|lra]) HN) as (V3 & W3).
    cbn [map3 approx3]. split; [|lra]. split; [|split]; (eapply approx_le; [eassumption|lra]). }
  destruct H3 as (H3 & L0 & M0 & N0).
  pose proof (light_back (1 + T) ps _ _ _ _ cr cg cb' _ d ltac:(lra) H3 ltac:(split; [|split]; lra) ltac:(lra) ltac:(lra) ltac:(lra) ltac:(lra) ltac:(lra) CN) as F3.
  split; [lra|]. exists (from_xyz ps (from_lms (map3 (eotf L TBT2100PQ) lms))). split; [|exact F3].
  unfold source_pixel. rewrite CI. assert (EX : decode_yuv L i (norm m (im_format src) sps CY x y) (norm m (im_format src) sps CU x y) (norm m (im_format src) sps CV x y)
    = map3 (oetf L TBT2100PQ) (from_xyz ps (from_lms (map3 (eotf L TBT2100PQ) lms)))) by (rewrite EQ, S, TE, PE; reflexivity).
  rewrite EX. destruct (sampling_of (im_format src)); congruence.
Qed.

(** * C77 *)

(** Converting ICtCp with the PQ curve to RGB in PQ: if no encoded cone response
    of a pixel is above 1, what is stored is the PQ code of the linear light with
    these cone responses, up to 27/1000 of the brightest light [T] and the
    rounding of the integer.  The light need not be in the gamut: it is clipped.
    Missing: responses above 1; other transfer functions or primaries than those
    of the source. *)
Theorem C77_pq_to_rgb_partial : forall sp sl b m src sps dst dps i,
  converts (libm_of sp sl) b m src sps dst dps -> levels_ok m src sps ->
  sampling_of (im_format src) <> SRGB -> sampling_of (im_format dst) = SRGB ->
  im_color src = CYUV i -> yc_space i = SpICtCpPQ ->
  same_light (im_color src) (im_color dst) = true ->
  ci_transfer (im_color src) = TBT2100PQ ->
  forall c x y, In c comps -> in_image dst x y ->
  let cb := column_backend b (im_width dst) x in
  platform_pow sp sl cb ->
  forall l' m' n' red green blue T d, l' <= 1 -> m' <= 1 -> n' <= 1 ->
  ictcp_pq l' m' n' = (y_at m src sps i x y, u_at m src sps i x y, v_at m src sps i x y) ->
  T <= 10000 -> pq_decode l' <= T -> pq_decode m' <= T -> pq_decode n' <= T ->
  Rabs red <= T -> Rabs green <= T -> Rabs blue <= T -> 0 <= d <= 100 ->
  SpecIctcp.within3 d (pq_decode l', pq_decode m', pq_decode n') (cones (ci_primaries (im_color src)) red green blue) ->
  exists z light, stored (libm_of sp sl) b m src dst dps c x y = Some z /\ (0 <= z <= 255)%Z /\
    Rabs (light - channel c (red, green, blue)) <= (16 + 27 * T) / 1000 + 14 * d /\
    stored_for cb (1 / 15) (clamp 255 (255 * pq_code light)) z.
Proof.
  intros sp sl b m src sps dst dps i CVT LV FS FD CI S SL TS c x y HC HI cb PL l' m' n' cr cg cb' T d HL HM HN MX T1 TL TM TN GR GG GB D CN.
  pose proof (accurate_lane sp sl cb PL) as A.
  assert (VS : valid_image src sps) by apply CVT. pose proof (converts_convertible _ _ _ _ _ _ _ CVT) as CT.
  set (L := lane_of (libm_of sp sl) cb) in *.
  assert (SK : same_image_kind src dst = false).
  { unfold same_image_kind. apply andb_false_iff; left. destruct (im_format src), (im_format dst); try reflexivity; cbn in FS, FD; congruence. }
  assert (HD : has_comp (im_format dst) c = true) by (unfold has_comp; rewrite FD; cbn [In comps] in HC; intuition (subst; reflexivity)).
  assert (ICT : ictcp_chroma420 (im_format dst) (im_color dst) c = false) by (unfold ictcp_chroma420; rewrite FD; reflexivity).
  assert (HS : in_image src x y) by (unfold in_image in *; rewrite (cv_width _ _ _ _ CT), (cv_height _ _ _ _ CT); exact HI).
  destruct (source_light_pq L m src sps i x y A VS LV FS CI S TS HS l' m' n' cr cg cb' T d HL HM HN MX T1 TL TM TN GR GG GB D CN) as (T0 & v & EP & F3).
  rewrite (stored_expected _ _ _ _ _ _ _ CVT c x y HD HI ICT). fold cb L.
  assert (E3 : expected_value L m src sps dst c x y = oetf L TBT2100PQ (match c with CR => fst3 | CG => snd3 | _ => thd3 end v)).
  { unfold expected_value. rewrite SK. unfold target. rewrite FD. unfold recolored. rewrite SL, EP. destruct v as ((q1, q2), q3).
    cbn [In comps] in HC. destruct HC as [<- |[<- |[<- |[]]]]; reflexivity. }
  rewrite E3. clear E3.
  destruct v as ((q1, q2), q3). destruct F3 as (Q1 & Q2 & Q3).
  assert (MF : max_level (im_format dst) = 255%Z) by (destruct (im_format dst); try discriminate FD; reflexivity).
  assert (TF : top (im_format dst) = 255%Z) by (destruct (im_format dst); try discriminate FD; reflexivity).
  assert (END : forall q v, approx q v (14 * (11 / 10000 + 18 / 10000 * T) + 14 * d + 4 / 100000 * (1 + T)) -> Rabs v <= T ->
    exists z light, Some (quantise (quant_of cb) (im_format dst) (oetf L TBT2100PQ q)) = Some z /\ (0 <= z <= 255)%Z /\
      Rabs (light - v) <= (16 + 27 * T) / 1000 + 14 * d /\ stored_for cb (1 / 15) (clamp 255 (255 * pq_code light)) z).
  { intros q v (NQ & EQ') V. clear - A NQ EQ' V T1 D FD MF TF T0. pose proof EQ' as EQ''. apply Rabs_le_inv in EQ''. apply Rabs_le_inv in V.
    destruct (pq_enc_far L q A NQ ltac:(lra)) as ((NP & EP) & PB). fold (pq_code (fval q)) in EP, PB.
    set (o := oetf L TBT2100PQ q) in *.
    destruct (acc_store cb (im_format dst) o (fval o) 0 (exact_approx _ NP) ltac:(apply Rabs_le_inv in EP; apply Rabs_le; lra) ltac:(lra) ltac:(left; exact FD)) as (S1 & S0).
    rewrite MF, TF in S1. exists (quantise (quant_of cb) (im_format dst) o), (fval q). split; [reflexivity|].
    assert (DD : Rabs (255 * fval o - 255 * pq_code (fval q)) <= 255 / 4000).
    { replace (255 * fval o - 255 * pq_code (fval q)) with (255 * (fval o - pq_code (fval q))) by ring. rewrite Rabs_mult, (Rabs_pos_eq 255) by lra. lra. }
    pose proof (clamp_near 255 _ _ _ ltac:(lra) DD) as CN. apply Rabs_le_inv in CN.
    assert (CB : 0 <= clamp 255 (255 * fval o) <= 255) by (destruct (clamp_cases 255 (255 * fval o) ltac:(lra)) as [(? & ->)|[(? & ->)|(? & ->)]]; lra).
    split; [split; [exact S0|]|split; [eapply Rle_trans; [exact EQ'|lra]|]].
    - assert (H : IZR (quantise (quant_of cb) (im_format dst) o) < 256); [|apply lt_IZR in H; lia].
      unfold u7 in S1. destruct cb; cbn [stored_for] in S1; unfold truncated, rounded in S1; try (apply Rabs_le_inv in S1); lra.
    - unfold u7 in S1. destruct cb; cbn [stored_for] in *; unfold truncated, rounded in *; try lra; apply Rabs_le_inv in S1; apply Rabs_le; lra. }
  cbn [In comps] in HC. destruct HC as [<- |[<- |[<- |[]]]]; cbn [channel fst3 snd3 thd3 fst snd].
  - apply (END q1 cr); assumption.
  - apply (END q2 cg); assumption.
  - apply (END q3 cb'); assumption.
Qed.
Print Assumptions C77_pq_to_rgb_partial.

(** A gray of 27 cd/m2 in ICtCp, read as RGB *)
Lemma pq_gray : 0 <= pq_decode (84 / 219) <= 30.
Proof.
  assert (X : approx (fdiv (f32_of_Z 99) (f32_of_Z 255)) (99 / 255) (1 / 10000000)) by const_approx. destruct X as (N & E). apply Rabs_le_inv in E.
  set (d := fdiv (f32_of_Z 99) (f32_of_Z 255)) in *.
  destruct (pq_dec_rel _ _ avx_lane_ok N ltac:(lra)) as ((_ & E1) & B1).
  assert (A1 : approx (eotf avx_lane TBT2100PQ d) (285 / 10) 1) by const_approx. destruct A1 as (_ & A1).
  apply Rabs_le_inv in E1. apply Rabs_le_inv in A1.
  pose proof (pq_decode_mono (84 / 219) (fval d) ltac:(lra) ltac:(lra)) as MO.
  split; [rewrite pq_decode_eq; pose proof (power_ge0 (pq_inner (power (84 / 219) (1 / m2))) (1 / m1)); lra|lra].
Qed.

Definition gray_pq_ci : yuv_color_info := YuvCI TBT2100PQ PrBT2020 SpICtCpPQ false.
Definition gray_ictcp_pq : image := ex_image I444 2 2 (CYUV gray_pq_ci) i444_planes.

Example C77_pq_example : forall b,
  let l := 84 / 219 in
  let light := pq_decode l in
  converts (libm_of avx_pow avx_log) b gray_mem gray_ictcp_pq i444_planes pq_2020 (ex_rgba_planes 0) /\ levels_ok gray_mem gray_ictcp_pq i444_planes /\
  same_light (im_color gray_ictcp_pq) (im_color pq_2020) = true /\ (forall cb, platform_pow avx_pow avx_log cb) /\
  ictcp_pq l l l = (y_at gray_mem gray_ictcp_pq i444_planes gray_pq_ci 1 1, u_at gray_mem gray_ictcp_pq i444_planes gray_pq_ci 1 1, v_at gray_mem gray_ictcp_pq i444_planes gray_pq_ci 1 1) /\
  l <= 1 /\ 0 <= light <= 30 /\
  SpecIctcp.within3 (1 / 250) (pq_decode l, pq_decode l, pq_decode l) (cones PrBT2020 light light light) /\
  map (fun c => stored (libm_of avx_pow avx_log) b gray_mem gray_ictcp_pq pq_2020 (ex_rgba_planes 0) c 1 1) [CR; CG; CB] = [Some 97; Some 97; Some 97]%Z.
Proof.
  intros b l light.
  assert (CVT : forall b, converts (libm_of avx_pow avx_log) b gray_mem gray_ictcp_pq i444_planes pq_2020 (ex_rgba_planes 0)).
  { intros b'. apply runs; [| |apply single_disjoint|exact i444_strides|vm_compute; reflexivity];
      (split; [reflexivity|split; [repeat constructor; cbn; unfold usize; cbn; lia|reflexivity]]). }
  split; [apply CVT|]. split; [apply bytes_levels; [|reflexivity]; intros b' i; unfold gray_mem; destruct (i <? 4)%nat; lia|].
  split; [reflexivity|].
  split; [intros cb _; split; [exact avx_pow_ok|split; [exact (log_contract avx_log avx_log_ok)|exact avx_pow_negative]]|].
  split.
  { unfold y_at, u_at, v_at, level_y, level_c, gray_pq_ci, yc_full_range, SpecIctcp.ictcp_pq.
    change (level gray_mem (im_format gray_ictcp_pq) i444_planes CY 1 1) with 100.
    change (level gray_mem (im_format gray_ictcp_pq) i444_planes CU 1 1) with 128.
    change (level gray_mem (im_format gray_ictcp_pq) i444_planes CV 1 1) with 128.
    change (IZR (max_level (im_format gray_ictcp_pq))) with 255. unfold l. apply f_equal2; [apply f_equal2|]; lra. }
  split; [unfold l; lra|]. split; [apply pq_gray|].
  split.
  { pose proof pq_gray as G. fold l in G. fold light in G |- *. clearbody light. unfold SpecIctcp.within3, cones. PropIctcp.run_matrix. repeat split; apply Rabs_le; lra. }
  cbn [map]; rewrite !(fun c => narrow_expected _ b gray_mem gray_ictcp_pq i444_planes pq_2020 (ex_rgba_planes 0) c 1 1 (CVT b)) by
    (first [reflexivity | split; cbn; lia]).
  vm_compute. reflexivity.
Qed.
