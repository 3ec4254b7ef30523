(** C61 for PQ pictures, in RGB or ICtCp, that are converted to RGB. *)

From Coq Require Import List ZArith Bool Arith Reals Lia Lra Psatz.
From Flocq Require Import Core.
From Verif Require Import Base Types Planes ImageM F32 Vector Simd SpecVector SimdProofs QuantProofs SpecGeom GeomProofs
  SpecColor SpecConvert SpecRun Formats Visit Convert VisitProofs ColorProofs ConvertProofs ExactProofs PropConvert PropFidelity
  SpecReal FloatProofs AccProofs TargetProofs PropColor ColorR SpecTransfer PowerProofs MathProofs SpecMath LaneProofs TransferProofs
  Math NegProofs RecolorProofs PropRecolor GamutProofs PropGamut PropBackends PropBackends2 SpecIctcp PropIctcp IctcpProofs WideProofs PropWide GrayProofs PropGray PqProofs PqEncProofs
  PropBT2020 PropOut PropIctcpGray PropGrayPq PropToPQ PropFromPQ PropPQ PropIctcpAcc PropIctcpDec PropIctcpPqDec PropIctcpRecolor PropCodes PropIctcpOther PropIctcpHlgRecolor PropIctcpApart PropPqLevels.
From Verif Require PropTransfer PropExact.
Import ListNotations.
Local Open Scope R_scope.

(** RGB in PQ to linear, sRGB or BT.709 RGB on two CPUs.  The light differs by at most
    twice [pq_error], half a percent of the brightest channel plus 3/1000. *)
Theorem C61_from_pq : forall sp1 sl1 b1 sp2 sl2 b2 m src sps dst dps,
  converts (libm_of sp1 sl1) b1 m src sps dst dps -> converts (libm_of sp2 sl2) b2 m src sps dst dps -> bytes_ok m ->
  sampling_of (im_format src) = SRGB -> sampling_of (im_format dst) = SRGB ->
  let td := ci_transfer (im_color dst) in
  ci_transfer (im_color src) = TBT2100PQ -> gentle td ->
  forall c x y, In c comps -> in_image dst x y ->
  platform_pow sp1 sl1 (column_backend b1 (im_width dst) x) -> platform_pow sp2 sl2 (column_backend b2 (im_width dst) x) ->
  let s c := level m (im_format src) sps c x y / 255 in
  let exact := channel c (light_of TBT2100PQ (ci_primaries (im_color src)) (ci_primaries (im_color dst)) (s CR) (s CG) (s CB)) in
  let error := pq_error (s CR) (s CG) (s CB) in
  (td = TLinear -> exact + error <= 128) ->
  (forall n, 1 / 2 + 1 / 300 + 255 * magnified td (2 * error) < IZR n ->
   apart n (stored (libm_of sp1 sl1) b1 m src dst dps c x y) (stored (libm_of sp2 sl2) b2 m src dst dps c x y)) /\
  (1 + error <= exact -> apart 1 (stored (libm_of sp1 sl1) b1 m src dst dps c x y) (stored (libm_of sp2 sl2) b2 m src dst dps c x y)).
Proof.
  intros sp1 sl1 b1 sp2 sl2 b2 m src sps dst dps C1 C2 B FS FD td TS G c x y HC HI P1 P2 s exact error LI.
  assert (TD : td <> TBT2100PQ) by (destruct G as [-> |[-> | ->]]; discriminate).
  destruct (C81_rgb_to_rgb_partial sp1 sl1 b1 m src sps dst dps C1 B FS FD TS TD c x y HC HI P1 LI) as (z1 & v1 & S1 & _ & A1 & Q1).
  destruct (C81_rgb_to_rgb_partial sp2 sl2 b2 m src sps dst dps C2 B FS FD TS TD c x y HC HI P2 LI) as (z2 & v2 & S2 & _ & A2 & Q2).
  change (Rabs (v1 - exact) <= error) in A1. change (Rabs (v2 - exact) <= error) in A2. fold td in Q1, Q2. clearbody exact error td. clear s.
  split.
  - intros n N. exists z1, z2. split; [exact S1|split; [exact S2|]].
    pose proof (encodings_apart td v1 v2 _ _ G A1 A2) as E.
    refine (stored_apart_by _ _ _ _ _ _ _ _ n _ E _ Q1 Q2); lra.
  - intros BR. exists z1, z2. split; [exact S1|split; [exact S2|]]. apply Rabs_le_inv in A1. apply Rabs_le_inv in A2.
    assert (W : forall v, 1 <= v -> 255 - 1 / 1000 <= clamp 255 (255 * encoded td (Rmax 0 v)) <= 255).
    { intros v V. rewrite Rmax_right by lra. pose proof (encoded_mono td 1 v TD ltac:(lra)) as M.
      assert (E1 : encoded td 1 = 1).
      { destruct G as [-> |[-> | ->]]; cbn [encoded]; [reflexivity|unfold srgb_encode; destruct (Rle_dec 1 _); [lra|]; rewrite power_1; lra|
          unfold sdr_encode; destruct (Rlt_dec 1 _); [lra|]; rewrite power_1; lra]. }
      rewrite E1 in M. unfold clamp, Rmin, Rmax. destruct (Rle_dec 255 _), (Rle_dec 0 _); lra. }
    pose proof (W v1 ltac:(lra)) as W1. pose proof (W v2 ltac:(lra)) as W2.
    refine (stored_apart_by _ _ _ _ _ (1 / 1000) _ _ 1 _ _ _ Q1 Q2); [lra|apply Rabs_le; lra|lra].
Qed.
Print Assumptions C61_from_pq.

(** ICtCp with the PQ curve to RGB in PQ on two CPUs *)
Theorem C61_ictcp_pq_to_rgb : forall sp1 sl1 b1 sp2 sl2 b2 m src sps dst dps i,
  converts (libm_of sp1 sl1) b1 m src sps dst dps -> converts (libm_of sp2 sl2) b2 m src sps dst dps -> levels_ok m src sps ->
  sampling_of (im_format src) <> SRGB -> sampling_of (im_format dst) = SRGB ->
  im_color src = CYUV i -> yc_space i = SpICtCpPQ ->
  same_light (im_color src) (im_color dst) = true ->
  ci_transfer (im_color src) = TBT2100PQ ->
  forall c x y, In c comps -> in_image dst x y ->
  platform_pow sp1 sl1 (column_backend b1 (im_width dst) x) -> platform_pow sp2 sl2 (column_backend b2 (im_width dst) x) ->
  forall l' m' n' red green blue T d, l' <= 1 -> m' <= 1 -> n' <= 1 ->
  ictcp_pq l' m' n' = (y_at m src sps i x y, u_at m src sps i x y, v_at m src sps i x y) ->
  T <= 10000 -> pq_decode l' <= T -> pq_decode m' <= T -> pq_decode n' <= T ->
  Rabs red <= T -> Rabs green <= T -> Rabs blue <= T -> 0 <= d <= 100 ->
  SpecIctcp.within3 d (pq_decode l', pq_decode m', pq_decode n') (cones (ci_primaries (im_color src)) red green blue) ->
  let exact := channel c (red, green, blue) in 0 < exact ->
  forall n, 19 / 30 + 2 * (((16 + 27 * T) / 1000 + 14 * d) / exact * (255 * pq_code exact)) < IZR n ->
  apart n (stored (libm_of sp1 sl1) b1 m src dst dps c x y) (stored (libm_of sp2 sl2) b2 m src dst dps c x y).
Proof.
  intros sp1 sl1 b1 sp2 sl2 b2 m src sps dst dps i C1 C2 LV FS FD CI S SL TS c x y HC HI P1 P2 l' m' n' red green blue T d HL HM HN MX T1 TL TM TN GR GG GB D CN exact EX n N.
  destruct (C77_pq_to_rgb_levels_partial sp1 sl1 b1 m src sps dst dps i C1 LV FS FD CI S SL TS c x y HC HI P1 l' m' n' red green blue T d HL HM HN MX T1 TL TM TN GR GG GB D CN EX) as (z1 & S1 & _ & Q1).
  destruct (C77_pq_to_rgb_levels_partial sp2 sl2 b2 m src sps dst dps i C2 LV FS FD CI S SL TS c x y HC HI P2 l' m' n' red green blue T d HL HM HN MX T1 TL TM TN GR GG GB D CN EX) as (z2 & S2 & _ & Q2).
  exists z1, z2. split; [exact S1|split; [exact S2|]]. fold exact in Q1, Q2.
  set (E := ((16 + 27 * T) / 1000 + 14 * d) / exact * (255 * pq_code exact)) in *.
  assert (E0 : 0 <= E).
  { unfold E. apply Rmult_le_pos; [apply Rmult_le_pos; [|left; apply Rinv_0_lt_compat, EX]|].
    - pose proof (Rabs_pos red). clear - GR D H. lra.
    - unfold pq_code, pq_encode. cbv zeta. apply Rmult_le_pos; [lra|apply power_ge0]. }
  clearbody E. refine (stored_apart_by _ _ (1 / 15 + E) _ _ 0 _ _ n _ _ _ Q1 Q2); [lra|rewrite Rminus_diag_eq, Rabs_R0 by reflexivity; lra|lra].
Qed.
Print Assumptions C61_ictcp_pq_to_rgb.

(** The gray of C61_pq_example to sRGB: it is brighter than 1, so two CPUs store
    white up to one level.  The hypotheses of C61_ictcp_pq_to_rgb are those of
    C77_pq_example and [pq_84]. *)
Definition pq_srgb : image := ex_image RGBA 2 2 (CRGB TSRGB PrBT2020) (ex_rgba_planes 1).

Example C61_from_pq_example : forall b1 b2, let lm := libm_of avx_pow avx_log in
  apart 1 (stored lm b1 even_mem pq_in pq_srgb (ex_rgba_planes 1) CG 1 1) (stored lm b2 even_mem pq_in pq_srgb (ex_rgba_planes 1) CG 1 1).
Proof.
  intros b1 b2 lm.
  assert (CVT : forall b, converts lm b even_mem pq_in (ex_rgba_planes 0) pq_srgb (ex_rgba_planes 1)) by (intros b; unfold lm; ex_converts b).
  assert (PL : forall cb, platform_pow avx_pow avx_log cb)
    by (intros cb _; split; [exact avx_pow_ok|split; [exact (log_contract avx_log avx_log_ok)|exact avx_pow_negative]]).
  pose proof pq_99 as B. remember (pq_decode (99 / 255)) as L eqn:LE.
  assert (X : 99 / 100 * L <= snd3 (light_of TBT2100PQ PrBT2020 PrBT2020 (99 / 255) (99 / 255) (99 / 255))).
  { unfold light_of. cbn [decoded]. rewrite <- LE. cbn [to_xyz from_xyz]; unfold snd3; cbn [fst snd]; unfold dot; cbn [fadd fmul flit R_ops]; PropExact.lits; lra. }
  assert (PK : peak (99 / 255) (99 / 255) (99 / 255) = L) by (unfold peak; rewrite <- LE; rewrite !(Rmax_left L L) by apply Rle_refl; reflexivity).
  refine (proj2 (C61_from_pq _ _ b1 _ _ b2 _ _ (ex_rgba_planes 0) _ _ (CVT b1) (CVT b2) ltac:(intros ? ?; unfold even_mem; lia) eq_refl eq_refl eq_refl ltac:(right; left; reflexivity)
    CG 1 1 ltac:(cbn; auto) ltac:(split; cbn; lia) (PL _) (PL _) ltac:(discriminate)) _)%nat.
  change (level even_mem (im_format pq_in) (ex_rgba_planes 0) _ 1%nat 1%nat) with 99.
  change (1 + pq_error (99 / 255) (99 / 255) (99 / 255) <= snd3 (light_of TBT2100PQ PrBT2020 PrBT2020 (99 / 255) (99 / 255) (99 / 255))).
  unfold pq_error. rewrite PK. lra.
Qed.
