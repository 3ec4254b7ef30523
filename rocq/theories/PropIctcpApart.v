(** C61 for ICtCp sources: how far the samples that two CPUs store for RGB can be
    apart. *)

From Coq Require Import List ZArith Bool Arith Reals Lia Lra Psatz.
From Flocq Require Import Core.
From Verif Require Import Base Types Planes ImageM F32 Vector Simd SpecVector SimdProofs QuantProofs SpecGeom GeomProofs
  SpecColor SpecConvert SpecRun Formats Visit Convert VisitProofs ColorProofs ConvertProofs ExactProofs PropConvert PropFidelity
  SpecReal FloatProofs AccProofs TargetProofs PropColor ColorR SpecTransfer PowerProofs MathProofs SpecMath LaneProofs TransferProofs
  Math NegProofs RecolorProofs PropRecolor GamutProofs PropGamut PropBackends PropBackends2 SpecIctcp PropIctcp IctcpProofs WideProofs HlgProofs PropWide PropGray
  PropDrift PropOut PropIctcpAcc PropIctcpDec PropIctcpRecolor PropCodes PropIctcpOther PropIctcpHlgRecolor.
Import ListNotations.
Local Open Scope R_scope.

(** How much the encoding can magnify a difference of the light: not at all for
    linear RGB, the slope of sRGB (and less for BT.709) at black otherwise *)
Definition magnified (t : color_transfer) (g : R) : R := match t with TLinear => g | _ => Rmax (13 * g + 1 / 1000000) (46 / 10 * g + 1 / 3500) end.

Lemma encodings_apart : forall t a b v e, gentle t -> Rabs (a - v) <= e -> Rabs (b - v) <= e ->
  Rabs (clamp 255 (255 * encoded t (Rmax 0 a)) - clamp 255 (255 * encoded t (Rmax 0 b))) <= 255 * magnified t (2 * e).
Proof.
  intros t a b v e G A B. apply Rabs_le_inv in A. apply Rabs_le_inv in B.
  assert (D : Rabs (Rmax 0 a - Rmax 0 b) <= 2 * e) by (unfold Rmax; destruct (Rle_dec 0 a), (Rle_dec 0 b); apply Rabs_le; lra).
  assert (M : Rabs (encoded t (Rmax 0 a) - encoded t (Rmax 0 b)) <= magnified t (2 * e)).
  { pose proof (encoded_lip2 t (Rmax 0 a) (Rmax 0 b) G (Rmax_l _ _) (Rmax_l _ _)) as H.
    assert (MM : Rmax (13 * Rabs (Rmax 0 a - Rmax 0 b) + 1 / 1000000) (46 / 10 * Rabs (Rmax 0 a - Rmax 0 b) + 1 / 3500) <=
      Rmax (13 * (2 * e) + 1 / 1000000) (46 / 10 * (2 * e) + 1 / 3500)).
    { apply Rmax_lub; [eapply Rle_trans; [|apply Rmax_l]; lra|eapply Rle_trans; [|apply Rmax_r]; lra]. }
    destruct G as [-> |[-> | ->]]; cbn [magnified] in *; [exact D|lra|lra]. }
  assert (T : Rabs (255 * encoded t (Rmax 0 a) - 255 * encoded t (Rmax 0 b)) <= 255 * magnified t (2 * e)).
  { rewrite <- Rmult_minus_distr_l, Rabs_mult, (Rabs_pos_eq 255) by lra. lra. }
  apply clamp_near; [lra|exact T].
Qed.

(** ICtCp with the HLG curve to RGB of the same primaries and transfer function
    (linear, sRGB or BT.709) on two CPUs: one level for linear RGB, five for the
    others, if the pixel holds the cone responses of a color exactly ([d] = 0). *)
Theorem C61_ictcp_to_rgb : forall sp1 sl1 b1 sp2 sl2 b2 m src sps dst dps i,
  converts (libm_of sp1 sl1) b1 m src sps dst dps -> converts (libm_of sp2 sl2) b2 m src sps dst dps -> levels_ok m src sps ->
  sampling_of (im_format src) <> SRGB -> sampling_of (im_format dst) = SRGB ->
  im_color src = CYUV i -> yc_space i = SpICtCpHLG ->
  same_light (im_color src) (im_color dst) = true ->
  let t := ci_transfer (im_color src) in gentle t ->
  forall c x y, In c comps -> in_image dst x y ->
  platform_pow sp1 sl1 (column_backend b1 (im_width dst) x) -> platform_pow sp2 sl2 (column_backend b2 (im_width dst) x) ->
  forall l' m' n' red green blue d, 0 <= l' <= 1 -> 0 <= m' <= 1 -> 0 <= n' <= 1 ->
  ictcp_hlg l' m' n' = (y_at m src sps i x y, u_at m src sps i x y, v_at m src sps i x y) ->
  nearly_shown red -> nearly_shown green -> nearly_shown blue -> 0 <= d <= 1 / 1000 ->
  SpecIctcp.within3 d (hlg_decode l', hlg_decode m', hlg_decode n') (cones (ci_primaries (im_color src)) red green blue) ->
  forall n, 1 / 2 + 1 / 300 + 255 * magnified t (1 / 850 + 28 * d) < IZR n ->
  apart n (stored (libm_of sp1 sl1) b1 m src dst dps c x y) (stored (libm_of sp2 sl2) b2 m src dst dps c x y).
Proof.
  intros sp1 sl1 b1 sp2 sl2 b2 m src sps dst dps i C1 C2 LV FS FD CI S SL t G c x y HC HI P1 P2 l' m' n' red green blue d HL HM HN MX GR GG GB D CN n N.
  assert (TS : t <> TBT2100PQ) by (destruct G as [-> |[-> | ->]]; discriminate).
  destruct (C77_ictcp_to_rgb_partial sp1 sl1 b1 m src sps dst dps i C1 LV FS FD CI S SL TS c x y HC HI P1 l' m' n' red green blue d HL HM HN MX GR GG GB D CN) as (z1 & v1 & S1 & _ & A1 & Q1).
  destruct (C77_ictcp_to_rgb_partial sp2 sl2 b2 m src sps dst dps i C2 LV FS FD CI S SL TS c x y HC HI P2 l' m' n' red green blue d HL HM HN MX GR GG GB D CN) as (z2 & v2 & S2 & _ & A2 & Q2).
  exists z1, z2. split; [exact S1|split; [exact S2|]].
  pose proof (encodings_apart t v1 v2 _ _ G A1 A2) as E. replace (2 * (1 / 1700 + 14 * d)) with (1 / 850 + 28 * d) in E by field.
  refine (stored_apart_by _ _ _ _ _ _ _ _ n _ E _ Q1 Q2); lra.
Qed.
Print Assumptions C61_ictcp_to_rgb.

(** The same with other primaries or another transfer function *)
Theorem C61_ictcp_to_other_rgb : forall sp1 sl1 b1 sp2 sl2 b2 m src sps dst dps i,
  converts (libm_of sp1 sl1) b1 m src sps dst dps -> converts (libm_of sp2 sl2) b2 m src sps dst dps -> levels_ok m src sps ->
  sampling_of (im_format src) <> SRGB -> sampling_of (im_format dst) = SRGB ->
  im_color src = CYUV i -> yc_space i = SpICtCpHLG ->
  same_light (im_color src) (im_color dst) = false ->
  let td := ci_transfer (im_color dst) in
  restores (ci_transfer (im_color src)) -> gentle td ->
  forall c x y, In c comps -> in_image dst x y ->
  platform_pow sp1 sl1 (column_backend b1 (im_width dst) x) -> platform_pow sp2 sl2 (column_backend b2 (im_width dst) x) ->
  forall l' m' n' red green blue d, 0 <= l' <= 1 -> 0 <= m' <= 1 -> 0 <= n' <= 1 ->
  ictcp_hlg l' m' n' = (y_at m src sps i x y, u_at m src sps i x y, v_at m src sps i x y) ->
  0 <= red <= 1 -> 0 <= green <= 1 -> 0 <= blue <= 1 -> 0 <= d <= 1 / 10000 ->
  SpecIctcp.within3 d (hlg_decode l', hlg_decode m', hlg_decode n') (cones (ci_primaries (im_color src)) red green blue) ->
  forall n, 1 / 2 + 1 / 300 + 255 * magnified td (1 / 150 + 72 * d) < IZR n ->
  apart n (stored (libm_of sp1 sl1) b1 m src dst dps c x y) (stored (libm_of sp2 sl2) b2 m src dst dps c x y).
Proof.
  intros sp1 sl1 b1 sp2 sl2 b2 m src sps dst dps i C1 C2 LV FS FD CI S SL td TS G c x y HC HI P1 P2 l' m' n' red green blue d HL HM HN MX GR GG GB D CN n N.
  assert (TD : td <> TBT2100PQ) by (destruct G as [-> |[-> | ->]]; discriminate).
  destruct (C77_hlg_to_other_rgb_partial sp1 sl1 b1 m src sps dst dps i C1 LV FS FD CI S SL TS TD c x y HC HI P1 l' m' n' red green blue d HL HM HN MX GR GG GB D CN) as (z1 & v1 & S1 & _ & A1 & Q1).
  destruct (C77_hlg_to_other_rgb_partial sp2 sl2 b2 m src sps dst dps i C2 LV FS FD CI S SL TS TD c x y HC HI P2 l' m' n' red green blue d HL HM HN MX GR GG GB D CN) as (z2 & v2 & S2 & _ & A2 & Q2).
  exists z1, z2. split; [exact S1|split; [exact S2|]].
  pose proof (encodings_apart td v1 v2 _ _ G A1 A2) as E. replace (2 * (1 / 300 + 36 * d)) with (1 / 150 + 72 * d) in E by field.
  refine (stored_apart_by _ _ _ _ _ _ _ _ n _ E _ Q1 Q2); lra.
Qed.
Print Assumptions C61_ictcp_to_other_rgb.

(** The hypotheses are met by C77_example and C77_hlg_recolor_example, with [n] =
    5 and 24: the CPUs agree within these numbers of levels *)
Example C61_ictcp_example : forall b1 b2, let lm := libm_of avx_pow avx_log in
  apart 5 (stored lm b1 gray_mem gray_ictcp srgb_2020 (ex_rgba_planes 0) CG 1 1) (stored lm b2 gray_mem gray_ictcp srgb_2020 (ex_rgba_planes 0) CG 1 1) /\
  apart 24 (stored lm b1 gray_mem gray_ictcp srgb_709 (ex_rgba_planes 0) CG 1 1) (stored lm b2 gray_mem gray_ictcp srgb_709 (ex_rgba_planes 0) CG 1 1).
Proof.
  intros b1 b2 lm.
  destruct (C77_example b1) as (C1 & LV & SL & PL & MX & HL & NS & CN & _). destruct (C77_example b2) as (C2 & _).
  destruct (C77_hlg_recolor_example b1) as (D1 & _ & SL' & RS & _ & _ & _ & LT & _ & _). destruct (C77_hlg_recolor_example b2) as (D2 & _).
  assert (MB : forall g u, 0 <= g -> 13 * g + 1 / 3000 <= u -> magnified TSRGB g <= u) by (intros g u G U; cbn [magnified]; apply Rmax_lub; lra).
  assert (GT : gentle TSRGB) by (right; left; reflexivity). assert (HG : In CG comps) by (cbn; auto).
  split.
  - refine (C61_ictcp_to_rgb _ _ b1 _ _ b2 _ _ _ _ _ gray_ci C1 C2 LV ltac:(discriminate) eq_refl eq_refl eq_refl SL GT CG 1 1 HG ltac:(split; cbn; lia)
      (PL _) (PL _) _ _ _ _ _ _ (1 / 200000)%R HL HL HL MX NS NS NS ltac:(lra) CN 5%Z _)%nat.
    pose proof (MB (1 / 850 + 28 * (1 / 200000)) (1745 / 100000) ltac:(lra) ltac:(lra)). change (ci_transfer _) with TSRGB. lra.
  - refine (C61_ictcp_to_other_rgb _ _ b1 _ _ b2 _ _ _ _ _ gray_ci D1 D2 LV ltac:(discriminate) eq_refl eq_refl eq_refl SL' RS GT CG 1 1 HG ltac:(split; cbn; lia)
      (PL _) (PL _) _ _ _ _ _ _ (1 / 200000)%R HL HL HL MX LT LT LT ltac:(lra) CN 24%Z _)%nat.
    pose proof (MB (1 / 150 + 72 * (1 / 200000)) (92 / 1000) ltac:(lra) ltac:(lra)). change (ci_transfer _) with TSRGB. lra.
Qed.
