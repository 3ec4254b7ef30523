(** C81, C77 and C61 in levels, for PQ on both sides: the relative error of a PQ
    code is at most the relative error of the light. *)

From Coq Require Import List ZArith Bool Arith Reals Lia Lra Psatz.
From Flocq Require Import Core.
From Verif Require Import Base Types Planes ImageM F32 Vector Simd SpecVector SimdProofs QuantProofs SpecGeom GeomProofs
  SpecColor SpecConvert SpecRun Formats Visit Convert VisitProofs ColorProofs ConvertProofs ExactProofs PropConvert PropFidelity
  SpecReal FloatProofs AccProofs TargetProofs PropColor ColorR SpecTransfer PowerProofs MathProofs SpecMath LaneProofs TransferProofs
  Math NegProofs RecolorProofs PropRecolor GamutProofs PropGamut PropBackends PropBackends2 SpecIctcp PropIctcp IctcpProofs WideProofs PropWide PropGray PqProofs PqEncProofs
  PropBT2020 PropOut PropIctcpGray PropGrayPq PropToPQ PropFromPQ PropPQ PropIctcpAcc PropIctcpDec PropIctcpPqDec PropIctcpRecolor PropCodes.
From Verif Require PropTransfer.
Import ListNotations.
Local Open Scope R_scope.

(** * Relative errors *)

Lemma pq_code_relative : forall a v r, 0 < v -> 0 <= r -> Rabs (a - v) <= r * v -> Rabs (pq_code a - pq_code v) <= r * pq_code v.
Proof.
  intros a v r V R D. apply Rabs_le_inv in D. unfold pq_code. rewrite (Rmax_left v 0) by lra.
  assert (P : forall v, 0 <= pq_encode v) by (intros w; unfold pq_encode; cbv zeta; apply power_ge0).
  pose proof (P v) as PV. destruct (Rle_dec v a) as [C|C].
  - rewrite (Rmax_left a 0) by lra. pose proof (pq_mono v a ltac:(lra)) as M.
    assert (S : pq_encode a <= (a / v) * pq_encode v).
    { replace a with (v * (a / v)) at 1 by (field; lra). apply pq_scale; [lra|].
      apply Rmult_le_reg_r with v; [lra|]. unfold Rdiv. rewrite Rmult_assoc, Rinv_l by lra. lra. }
    assert (Q : a / v <= 1 + r).
    { apply Rmult_le_reg_r with v; [lra|]. unfold Rdiv. rewrite Rmult_assoc, Rinv_l by lra. lra. }
    apply Rabs_le. split; [nra|]. assert (a / v * pq_encode v <= (1 + r) * pq_encode v) by (apply Rmult_le_compat_r; assumption). lra.
  - assert (LE : Rmax a 0 <= v) by (apply Rmax_lub; lra). pose proof (pq_mono (Rmax a 0) v ltac:(split; [apply Rmax_r|exact LE])) as M.
    assert (G : (1 - r) * pq_encode v <= pq_encode (Rmax a 0)).
    { pose proof (P (Rmax a 0)) as PA. destruct (Rle_dec a 0) as [A|A].
      - assert (1 <= r) by nra. assert ((1 - r) * pq_encode v <= 0) by nra. lra.
      - rewrite (Rmax_left a 0) in * by lra.
        assert (S : pq_encode v <= (v / a) * pq_encode a).
        { replace v with (a * (v / a)) at 1 by (field; lra). apply pq_scale; [lra|].
          apply Rmult_le_reg_r with a; [lra|]. unfold Rdiv. rewrite Rmult_assoc, Rinv_l by lra. lra. }
        assert (Q : (1 - r) * v <= a) by lra.
        apply Rmult_le_reg_l with v; [exact V|].
        assert (a * pq_encode v <= v * pq_encode a).
        { replace (v * pq_encode a) with (a * (v / a * pq_encode a)) by (field; lra). apply Rmult_le_compat_l; lra. }
        assert ((1 - r) * v * pq_encode v <= a * pq_encode v) by (apply Rmult_le_compat_r; assumption). lra. }
    apply Rabs_le. lra.
Qed.

(** A stored sample of the PQ code of light that is nearly [v] *)
Lemma stored_relative : forall cb light v r z, 0 < v -> 0 <= r -> Rabs (light - v) <= r * v ->
  stored_for cb (1 / 15) (clamp 255 (255 * pq_code light)) z ->
  stored_for cb (1 / 15 + r * (255 * pq_code v)) (clamp 255 (255 * pq_code v)) z.
Proof.
  intros cb light v r z V R D S. pose proof (pq_code_relative light v r V R D) as N.
  apply stored_for_shift with (2 := S). apply clamp_near; [lra|].
  rewrite <- Rmult_minus_distr_l, Rabs_mult, (Rabs_pos_eq 255) by lra. lra.
Qed.

(** * C81 *)

(** RGB to RGB, both with the PQ curve, with other primaries: a level is exact up to
    1/15, the rounding of the integer and the part of itself that the error of
    the light is of the light.  [pq_error] is half a percent of the brightest
    channel plus 3/1000 cd/m2. *)
Theorem C81_rgb_to_pq_rgb_levels : forall sp sl b m src sps dst dps,
  converts (libm_of sp sl) b m src sps dst dps -> bytes_ok m ->
  sampling_of (im_format src) = SRGB -> sampling_of (im_format dst) = SRGB ->
  ci_transfer (im_color src) = TBT2100PQ -> ci_transfer (im_color dst) = TBT2100PQ -> ci_primaries (im_color src) <> ci_primaries (im_color dst) ->
  forall c x y, In c comps -> in_image dst x y ->
  let cb := column_backend b (im_width dst) x in
  platform_pow sp sl cb ->
  let s c := level m (im_format src) sps c x y / 255 in
  let exact := channel c (light_of TBT2100PQ (ci_primaries (im_color src)) (ci_primaries (im_color dst)) (s CR) (s CG) (s CB)) in
  0 < exact ->
  let v := 255 * pq_code exact in
  exists z, stored (libm_of sp sl) b m src dst dps c x y = Some z /\
    stored_for cb (1 / 15 + pq_error (s CR) (s CG) (s CB) / exact * v) (clamp 255 v) z.
Proof.
  intros sp sl b m src sps dst dps CVT B FS FD TS TD PP c x y HC HI cb PL s exact EX v.
  destruct (C81_rgb_to_pq_rgb sp sl b m src sps dst dps CVT B FS FD TS TD PP c x y HC HI PL) as (z & light & ST & D & SF).
  exists z. split; [exact ST|]. fold s in D. fold exact in D. fold cb in SF.
  assert (R : 0 <= pq_error (s CR) (s CG) (s CB) / exact).
  { apply Rmult_le_pos; [exact (Rle_trans _ _ _ (Rabs_pos _) D)|left; apply Rinv_0_lt_compat, EX]. }
  refine (stored_relative cb light exact _ z EX R _ SF).
  unfold Rdiv. rewrite Rmult_assoc, Rinv_l, Rmult_1_r by (apply Rgt_not_eq, EX). exact D.
Qed.
Print Assumptions C81_rgb_to_pq_rgb_levels.

(** From YUV, colors of at most 1 *)
Theorem C81_yuv_to_pq_rgb_levels_partial : forall sp sl b m src sps dst dps is ks,
  converts (libm_of sp sl) b m src sps dst dps -> levels_ok m src sps ->
  sampling_of (im_format src) <> SRGB -> sampling_of (im_format dst) = SRGB ->
  im_color src = CYUV is -> weights_of (yc_space is) = Some ks ->
  ci_transfer (im_color src) = TBT2100PQ -> ci_transfer (im_color dst) = TBT2100PQ -> ci_primaries (im_color src) <> ci_primaries (im_color dst) ->
  forall c x y, In c comps -> in_image dst x y ->
  let cb := column_backend b (im_width dst) x in
  platform_pow sp sl cb ->
  let s c := Rmax 0 (read_at ks m src sps is c x y) in
  (forall c, In c comps -> s c <= 1) ->
  let exact := channel c (light_of TBT2100PQ (ci_primaries (im_color src)) (ci_primaries (im_color dst)) (s CR) (s CG) (s CB)) in
  0 < exact ->
  let v := 255 * pq_code exact in
  exists z, stored (libm_of sp sl) b m src dst dps c x y = Some z /\
    stored_for cb (1 / 15 + pq_error (s CR) (s CG) (s CB) / exact * v) (clamp 255 v) z.
Proof.
  intros sp sl b m src sps dst dps is ks CVT LV FS FD CI WS TS TD PP c x y HC HI cb PL s SB exact EX v.
  destruct (C81_yuv_to_pq_rgb_partial sp sl b m src sps dst dps is ks CVT LV FS FD CI WS TS TD PP c x y HC HI PL SB) as (z & light & ST & D & SF).
  exists z. split; [exact ST|]. fold s in D. fold exact in D. fold cb in SF.
  assert (R : 0 <= pq_error (s CR) (s CG) (s CB) / exact).
  { apply Rmult_le_pos; [exact (Rle_trans _ _ _ (Rabs_pos _) D)|left; apply Rinv_0_lt_compat, EX]. }
  refine (stored_relative cb light exact _ z EX R _ SF).
  unfold Rdiv. rewrite Rmult_assoc, Rinv_l, Rmult_1_r by (apply Rgt_not_eq, EX). exact D.
Qed.
Print Assumptions C81_yuv_to_pq_rgb_levels_partial.

(** * C77 *)

(** ICtCp with the PQ curve to RGB in PQ.  Missing: responses above 1. *)
Theorem C77_pq_to_rgb_levels_partial : forall sp sl b m src sps dst dps i,
  converts (libm_of sp sl) b m src sps dst dps -> levels_ok m src sps ->
  sampling_of (im_format src) <> SRGB -> sampling_of (im_format dst) = SRGB ->
  im_color src = CYUV i -> yc_space i = SpICtCpPQ ->
  same_light (im_color src) (im_color dst) = true ->
  ci_transfer (im_color src) = TBT2100PQ ->
  forall c x y, In c comps -> in_image dst x y ->
  let cb := column_backend b (im_width dst) x in
  platform_pow sp sl cb ->
  forall l' m' n' red green blue T d, l' <= 1 -> m' <= 1 -> n' <= 1 ->
  ictcp_pq l' m' n' = (y_at m src sps i x y, u_at m src sps i x y, v_at m src sps i x y) ->
  T <= 10000 -> pq_decode l' <= T -> pq_decode m' <= T -> pq_decode n' <= T ->
  Rabs red <= T -> Rabs green <= T -> Rabs blue <= T -> 0 <= d <= 100 ->
  SpecIctcp.within3 d (pq_decode l', pq_decode m', pq_decode n') (cones (ci_primaries (im_color src)) red green blue) ->
  let exact := channel c (red, green, blue) in 0 < exact ->
  let v := 255 * pq_code exact in
  exists z, stored (libm_of sp sl) b m src dst dps c x y = Some z /\ (0 <= z <= 255)%Z /\
    stored_for cb (1 / 15 + ((16 + 27 * T) / 1000 + 14 * d) / exact * v) (clamp 255 v) z.
Proof.
  intros sp sl b m src sps dst dps i CVT LV FS FD CI S SL TS c x y HC HI cb PL l' m' n' cr cg cb' T d HL HM HN MX T1 TL TM TN GR GG GB D CN exact EX v.
  destruct (C77_pq_to_rgb_partial sp sl b m src sps dst dps i CVT LV FS FD CI S SL TS c x y HC HI PL l' m' n' cr cg cb' T d HL HM HN MX T1 TL TM TN GR GG GB D CN) as (z & light & ST & ZB & DD & SF).
  exists z. split; [exact ST|]. split; [exact ZB|]. fold exact in DD. fold cb in SF.
  assert (R : 0 <= ((16 + 27 * T) / 1000 + 14 * d) / exact).
  { apply Rmult_le_pos; [exact (Rle_trans _ _ _ (Rabs_pos _) DD)|left; apply Rinv_0_lt_compat, EX]. }
  refine (stored_relative cb light exact _ z EX R _ SF).
  replace (((16 + 27 * T) / 1000 + 14 * d) / exact * exact) with ((16 + 27 * T) / 1000 + 14 * d) by (field; apply Rgt_not_eq, EX). exact DD.
Qed.
Print Assumptions C77_pq_to_rgb_levels_partial.

(** * C61 *)

(** RGB in PQ to other primaries, on two CPUs *)
Theorem C61_pq_to_pq : forall sp1 sl1 b1 sp2 sl2 b2 m src sps dst dps,
  converts (libm_of sp1 sl1) b1 m src sps dst dps -> converts (libm_of sp2 sl2) b2 m src sps dst dps -> bytes_ok m ->
  sampling_of (im_format src) = SRGB -> sampling_of (im_format dst) = SRGB ->
  ci_transfer (im_color src) = TBT2100PQ -> ci_transfer (im_color dst) = TBT2100PQ -> ci_primaries (im_color src) <> ci_primaries (im_color dst) ->
  forall c x y, In c comps -> in_image dst x y ->
  platform_pow sp1 sl1 (column_backend b1 (im_width dst) x) -> platform_pow sp2 sl2 (column_backend b2 (im_width dst) x) ->
  let s c := level m (im_format src) sps c x y / 255 in
  let exact := channel c (light_of TBT2100PQ (ci_primaries (im_color src)) (ci_primaries (im_color dst)) (s CR) (s CG) (s CB)) in
  0 < exact ->
  forall n, 19 / 30 + 2 * (pq_error (s CR) (s CG) (s CB) / exact * (255 * pq_code exact)) < IZR n ->
  apart n (stored (libm_of sp1 sl1) b1 m src dst dps c x y) (stored (libm_of sp2 sl2) b2 m src dst dps c x y).
Proof.
  intros sp1 sl1 b1 sp2 sl2 b2 m src sps dst dps C1 C2 B FS FD TS TD PP c x y HC HI P1 P2 s exact EX n N.
  destruct (C81_rgb_to_pq_rgb_levels sp1 sl1 b1 m src sps dst dps C1 B FS FD TS TD PP c x y HC HI P1 EX) as (z1 & S1 & Q1).
  destruct (C81_rgb_to_pq_rgb_levels sp2 sl2 b2 m src sps dst dps C2 B FS FD TS TD PP c x y HC HI P2 EX) as (z2 & S2 & Q2).
  exists z1, z2. split; [exact S1|split; [exact S2|]].
  fold s in Q1, Q2. fold exact in Q1, Q2. set (E := pq_error (s CR) (s CG) (s CB) / exact * (255 * pq_code exact)) in *.
  assert (E0 : 0 <= E).
  { unfold E. apply Rmult_le_pos; [apply Rmult_le_pos; [|left; apply Rinv_0_lt_compat, EX]|].
    - unfold pq_error. pose proof (peak_ge (s CR) (s CG) (s CB)). pose proof (pq_ge0 (s CR)). lra.
    - unfold pq_code, pq_encode. cbv zeta. apply Rmult_le_pos; [lra|apply power_ge0]. }
  refine (stored_apart_by _ _ (1 / 15 + E) _ _ 0 _ _ n _ _ _ Q1 Q2); [lra|rewrite Rminus_diag_eq, Rabs_R0 by reflexivity; lra|lra].
Qed.
Print Assumptions C61_pq_to_pq.

(** A gray of level 99, 28 cd/m2, to BT.709 primaries: the hypotheses are met, and two
    CPUs agree within 2 levels.  The hypotheses of C77_pq_to_rgb_levels_partial
    are those of C77_pq_example and [pq_84]; those of
    C81_yuv_to_pq_rgb_levels_partial, but for [0 < exact], are in
    C81_pq_example. *)
Definition even_mem : mem := fun _ _ => 99%Z.

Lemma pq_84 : 0 < pq_decode (84 / 219).
Proof. pose proof (pq_first (84 / 219) ltac:(lra)). lra. Qed.

Lemma pq_99 : 26 <= pq_decode (99 / 255) <= 31.
Proof.
  assert (X : approx (fdiv (f32_of_Z 99) (f32_of_Z 255)) (99 / 255) (1 / 10000000)) by const_approx. destruct X as (N & E). apply Rabs_le_inv in E.
  assert (XL : approx (fdiv (f32_of_Z 98) (f32_of_Z 255)) (98 / 255) (1 / 10000000)) by const_approx. destruct XL as (NL & EL). apply Rabs_le_inv in EL.
  assert (XH : approx (fdiv (f32_of_Z 100) (f32_of_Z 255)) (100 / 255) (1 / 10000000)) by const_approx. destruct XH as (NH & EH). apply Rabs_le_inv in EH.
  set (dl := fdiv (f32_of_Z 98) (f32_of_Z 255)) in *. set (dh := fdiv (f32_of_Z 100) (f32_of_Z 255)) in *.
  destruct (pq_dec_rel _ _ avx_lane_ok NL ltac:(lra)) as ((_ & E1) & B1). destruct (pq_dec_rel _ _ avx_lane_ok NH ltac:(lra)) as ((_ & E2) & B2).
  assert (A1 : approx (eotf avx_lane TBT2100PQ dl) 27 (8 / 10)) by const_approx. destruct A1 as (_ & A1).
  assert (A2 : approx (eotf avx_lane TBT2100PQ dh) 30 (8 / 10)) by const_approx. destruct A2 as (_ & A2).
  apply Rabs_le_inv in E1. apply Rabs_le_inv in A1. apply Rabs_le_inv in E2. apply Rabs_le_inv in A2.
  pose proof (pq_decode_mono (fval dl) (99 / 255) ltac:(lra) ltac:(lra)). pose proof (pq_decode_mono (99 / 255) (fval dh) ltac:(lra) ltac:(lra)). lra.
Qed.

Example C61_pq_example : forall b1 b2, let lm := libm_of avx_pow avx_log in
  apart 2 (stored lm b1 even_mem pq_in pq709 (ex_rgba_planes 1) CG 1 1) (stored lm b2 even_mem pq_in pq709 (ex_rgba_planes 1) CG 1 1).
Proof.
  intros b1 b2 lm.
  assert (CVT : forall b, converts lm b even_mem pq_in (ex_rgba_planes 0) pq709 (ex_rgba_planes 1)) by (intros b; unfold lm; ex_converts b).
  assert (PL : forall cb, platform_pow avx_pow avx_log cb)
    by (intros cb _; split; [exact avx_pow_ok|split; [exact (log_contract avx_log avx_log_ok)|exact avx_pow_negative]]).
  pose proof pq_99 as B. remember (pq_decode (99 / 255)) as L eqn:LE.
  assert (X : exists k, snd3 (light_of TBT2100PQ PrBT2020 PrBT709 (99 / 255) (99 / 255) (99 / 255)) = L * k /\ 1 - 1 / 1000 <= k <= 1 + 1 / 1000).
  { exists (snd3 (from_xyz PrBT709 (to_xyz PrBT2020 (1, 1, 1)))). split.
    - unfold light_of. cbn [decoded]. rewrite <- LE. cbn [to_xyz from_xyz]; unfold snd3; cbn [fst snd]; unfold dot; cbn [fadd fmul flit R_ops]; ring.
    - cbn [to_xyz from_xyz]; unfold snd3; cbn [fst snd]; unfold dot; cbn [fadd fmul flit R_ops]; PropExact.lits; lra. }
  destruct X as (k & X & K).
  assert (PK : peak (99 / 255) (99 / 255) (99 / 255) = L) by (unfold peak; rewrite <- LE; rewrite !(Rmax_left L L) by apply Rle_refl; reflexivity).
  assert (EX : 0 < L * k). { clear - B K. apply Rmult_lt_0_compat; lra. }
  assert (CODE : pq_code (L * k) <= 2 / 5).
  { pose proof (pq_code_relative (L * k) L (1 / 1000) ltac:(lra) ltac:(lra)) as R.
    assert (P : pq_code L = 99 / 255) by (unfold pq_code; rewrite Rmax_left by lra; rewrite LE; apply pq_code_back; lra).
    rewrite P in R. assert (R' : Rabs (L * k - L) <= 1 / 1000 * L) by (apply Rabs_le; nra). specialize (R R'). apply Rabs_le_inv in R. lra. }
  refine (C61_pq_to_pq _ _ b1 _ _ b2 _ _ (ex_rgba_planes 0) _ _ (CVT b1) (CVT b2) ltac:(intros ? ?; unfold even_mem; lia) eq_refl eq_refl eq_refl eq_refl ltac:(discriminate)
    CG 1 1 ltac:(cbn; auto) ltac:(split; cbn; lia) (PL _) (PL _) _ 2%Z _)%nat;
    change (level even_mem (im_format pq_in) (ex_rgba_planes 0) _ 1%nat 1%nat) with 99;
    change (channel CG) with (fun w : R * R * R => snd3 w); cbv beta; change (ci_primaries (im_color pq_in)) with PrBT2020; change (ci_primaries (im_color pq709)) with PrBT709; rewrite X.
  - exact EX.
  - unfold pq_error. rewrite PK. assert (Q : (3 + 5 * L) / 1000 / (L * k) <= 6 / 1000).
    { apply Rmult_le_reg_r with (L * k); [exact EX|]. unfold Rdiv at 1. rewrite Rmult_assoc, Rinv_l by lra. nra. }
    assert (0 <= pq_code (L * k)) by (unfold pq_code, pq_encode; cbv zeta; apply power_ge0).
    assert ((3 + 5 * L) / 1000 / (L * k) * (255 * pq_code (L * k)) <= 6 / 1000 * 102); [|lra].
    apply Rmult_le_compat; [|lra|exact Q|lra]. apply Rmult_le_pos; [lra|left; apply Rinv_0_lt_compat, EX].
Qed.
