(** C61, continued: how far the results on two CPUs can differ for BT.2020 and
    where the transfer function or the primaries change. *)

From Coq Require Import List ZArith Bool Arith Reals Lia Lra Psatz.
From Flocq Require Import Core.
From Verif Require Import Base Types Planes ImageM F32 Vector Simd SpecVector SimdProofs QuantProofs SpecGeom GeomProofs
  SpecColor SpecConvert SpecRun Formats Visit Convert VisitProofs ColorProofs ConvertProofs ExactProofs PropConvert PropFidelity
  SpecReal FloatProofs AccProofs TargetProofs PropColor ColorR SpecTransfer PowerProofs MathProofs SpecMath LaneProofs TransferProofs
  Math NegProofs RecolorProofs PropRecolor GamutProofs PropGamut PropBackends PropBT2020.
Import ListNotations.
Local Open Scope R_scope.

(** ** BT.2020 *)

Theorem C61_bt2020_from_rgb : forall lm1 b1 lm2 b2 m src sps dst dps i,
  converts lm1 b1 m src sps dst dps -> converts lm2 b2 m src sps dst dps -> bytes_ok m ->
  sampling_of (im_format src) = SRGB -> sampling_of (im_format dst) <> SRGB ->
  im_color dst = CYUV i -> yc_space i = SpBT2020 -> same_light (im_color src) (im_color dst) = true ->
  forall c x y, has_comp (im_format dst) c = true -> in_image dst x y ->
  one_apart (stored lm1 b1 m src dst dps c x y) (stored lm2 b2 m src dst dps c x y).
Proof.
  intros lm1 b1 lm2 b2 m src sps dst dps i C1 C2 BM SS SD CI S20 SL c x y HC HI.
  destruct (C75_encode lm1 b1 m src sps dst dps i C1 BM SS SD CI S20 SL c x y HC HI) as (z1 & S1 & A1 & _).
  destruct (C75_encode lm2 b2 m src sps dst dps i C2 BM SS SD CI S20 SL c x y HC HI) as (z2 & S2 & A2 & _).
  exists z1, z2. split; [exact S1|split; [exact S2|]]. eapply stored_one_apart; [|exact A1|exact A2].
  pose proof (max_level_R (im_format dst)). lra.
Qed.
Print Assumptions C61_bt2020_from_rgb.

Theorem C61_bt2020_to_rgb : forall lm1 b1 lm2 b2 m src sps dst dps i,
  converts lm1 b1 m src sps dst dps -> converts lm2 b2 m src sps dst dps -> levels_ok m src sps ->
  sampling_of (im_format src) <> SRGB -> sampling_of (im_format dst) = SRGB ->
  im_color src = CYUV i -> yc_space i = SpBT2020 -> same_light (im_color src) (im_color dst) = true ->
  forall c x y, In c [CR; CG; CB] -> in_image dst x y ->
  one_apart (stored lm1 b1 m src dst dps c x y) (stored lm2 b2 m src dst dps c x y).
Proof.
  intros lm1 b1 lm2 b2 m src sps dst dps i C1 C2 LV SS SD CI S20 SL c x y HC HI.
  pose proof (C75_decode lm1 b1 m src sps dst dps i C1 LV SS SD CI S20 SL x y HI) as A1.
  pose proof (C75_decode lm2 b2 m src sps dst dps i C2 LV SS SD CI S20 SL x y HI) as A2.
  cbv zeta in A1, A2.
  set (Y := level_y _ _ _) in *. set (U := level_c _ _ (level m _ sps CU x y)) in *. set (V := level_c _ _ (level m _ sps CV x y)) in *.
  assert (Q : exists q, (c = CR /\ q = red bt2020 Y U V) \/ (c = CG /\ q = Y + 678 / 322 * (green bt2020 Y U V - Y)) \/ (c = CB /\ q = blue bt2020 Y U V)).
  { cbn [In] in HC. destruct HC as [<- |[<- |[<- |[]]]]; eexists; [left|right; left|right; right]; split; reflexivity. }
  destruct Q as (q & Q). destruct (A1 c q Q) as (z1 & S1 & B1 & _). destruct (A2 c q Q) as (z2 & S2 & B2 & _).
  exists z1, z2. split; [exact S1|split; [exact S2|]]. eapply stored_one_apart; [|exact B1|exact B2]. lra.
Qed.
Print Assumptions C61_bt2020_to_rgb.

Theorem C61_bt2020_to_yuv : forall lm1 b1 lm2 b2 m src sps dst dps is ks id kd,
  converts lm1 b1 m src sps dst dps -> converts lm2 b2 m src sps dst dps -> same_image_kind src dst = false -> levels_ok m src sps ->
  sampling_of (im_format src) <> SRGB -> sampling_of (im_format dst) <> SRGB ->
  im_color src = CYUV is -> weights_of (yc_space is) = Some ks ->
  im_color dst = CYUV id -> weights_of (yc_space id) = Some kd ->
  same_light (im_color src) (im_color dst) = true ->
  forall c x y, has_comp (im_format dst) c = true -> in_image dst x y ->
  let g x y := read_green (yc_space is) ks (y_at m src sps is x y) (u_at m src sps is x y) (v_at m src sps is x y) in
  let t := ideal_level kd (yc_full_range id) (im_format dst) (red_at ks m src sps is)
             (fun x y => written_green (yc_space id) (g x y)) (blue_at ks m src sps is) c x y in
  let hi := IZR (if (sample_bytes (im_format dst) =? 2)%nat then 65535 else 255) in
  (column_backend b1 (im_width dst) x = AVX512 \/ column_backend b2 (im_width dst) x = AVX512 -> 0 <= t <= hi) ->
  one_apart (stored lm1 b1 m src dst dps c x y) (stored lm2 b2 m src dst dps c x y).
Proof.
  intros lm1 b1 lm2 b2 m src sps dst dps is ks id kd C1 C2 SK LV SS SD CIS WS CID WD SL c x y HC HI g t hi RG.
  destruct (C75_yuv_to_yuv lm1 b1 m src sps dst dps is ks id kd C1 SK LV SS SD CIS WS CID WD SL c x y HC HI (fun E => RG (or_introl E))) as (z1 & S1 & A1).
  destruct (C75_yuv_to_yuv lm2 b2 m src sps dst dps is ks id kd C2 SK LV SS SD CIS WS CID WD SL c x y HC HI (fun E => RG (or_intror E))) as (z2 & S2 & A2).
  exists z1, z2. split; [exact S1|split; [exact S2|]]. eapply stored_one_apart; [|exact A1|exact A2].
  pose proof (max_level_R (im_format dst)). lra.
Qed.
Print Assumptions C61_bt2020_to_yuv.

(** ** Change of the transfer function or the primaries *)

(** At most [n] levels apart *)
Definition apart (n : Z) (a b : option Z) : Prop := exists x y, a = Some x /\ b = Some y /\ (- n <= x - y <= n)%Z.

Lemma stored_apart : forall b1 b2 e t x y n, 0 <= e -> 3 / 2 + 2 * e <= IZR n + 1 -> 1 + 2 * e < IZR n + 1 ->
  stored_for b1 e t x -> stored_for b2 e t y -> (- n <= x - y <= n)%Z.
Proof.
  assert (H : forall b1 b2 e t x y n, 0 <= e -> 3 / 2 + 2 * e <= IZR n + 1 -> 1 + 2 * e < IZR n + 1 ->
    stored_for b1 e t x -> stored_for b2 e t y -> (x - y < n + 1)%Z).
  { intros b1 b2 e t x y n E N N' S1 S2. apply lt_IZR. rewrite minus_IZR, plus_IZR.
    destruct b1, b2; cbn [stored_for] in S1, S2; unfold truncated, rounded in S1, S2; try apply Rabs_le_inv in S1; try apply Rabs_le_inv in S2; lra. }
  intros b1 b2 e t x y n E N N' S1 S2. pose proof (H b1 b2 e t x y n E N N' S1 S2). pose proof (H b2 b1 e t y x n E N N' S2 S1). lia.
Qed.

(** RGB to YUV, colors within the gamut of the destination: 8 bit samples differ
    by at most one level, 10 bit samples by two, 12 bit samples by five *)
Theorem C61_recolor_to_yuv : forall sp1 sl1 b1 sp2 sl2 b2 m src sps dst dps i k,
  converts (libm_of sp1 sl1) b1 m src sps dst dps -> converts (libm_of sp2 sl2) b2 m src sps dst dps -> bytes_ok m ->
  sampling_of (im_format src) = SRGB -> sampling_of (im_format dst) <> SRGB ->
  im_color dst = CYUV i -> weights_of (yc_space i) = Some k -> yc_space i <> SpBT2020 ->
  same_light (im_color src) (im_color dst) = false ->
  let ts := ci_transfer (im_color src) in
  let td := ci_transfer (im_color dst) in
  ts <> TBT2100PQ -> td = TLinear \/ td = TSRGB \/ td = TSDR ->
  forall c x y, has_comp (im_format dst) c = true -> in_image dst x y ->
  let cb1 := column_backend b1 (im_width dst) x in
  let cb2 := column_backend b2 (im_width dst) x in
  platform_pow sp1 sl1 cb1 -> platform_pow sp2 sl2 cb2 ->
  let s c x y := level m (im_format src) sps c x y / 255 in
  let light x y := light_of ts (ci_primaries (im_color src)) (ci_primaries (im_color dst)) (s CR x y) (s CG x y) (s CB x y) in
  (forall p, In p ((x, y) :: chroma_block (sampling_of (im_format dst)) x y) -> forall c, In c comps -> in_gamut (channel c (light (fst p) (snd p)))) ->
  (cb1 = AVX512 \/ cb2 = AVX512 -> yc_full_range i = false \/ sample_bytes (im_format dst) = 1%nat) ->
  let n := if (max_level (im_format dst) =? 255)%Z then 1%Z else if (max_level (im_format dst) =? 1023)%Z then 2%Z else 5%Z in
  apart n (stored (libm_of sp1 sl1) b1 m src dst dps c x y) (stored (libm_of sp2 sl2) b2 m src dst dps c x y).
Proof.
  intros sp1 sl1 b1 sp2 sl2 b2 m src sps dst dps i k C1 C2 BM SS SD CI W N20 SL ts td TS TD c x y HC HI cb1 cb2 P1 P2 s light GM AV n.
  destruct (C64_rgb_to_yuv_partial sp1 sl1 b1 m src sps dst dps i k C1 BM SS SD CI W N20 SL TS TD c x y HC HI P1 GM (fun E => AV (or_introl E))) as (z1 & S1 & _ & A1).
  destruct (C64_rgb_to_yuv_partial sp2 sl2 b2 m src sps dst dps i k C2 BM SS SD CI W N20 SL TS TD c x y HC HI P2 GM (fun E => AV (or_intror E))) as (z2 & S2 & _ & A2).
  exists z1, z2. split; [exact S1|split; [exact S2|]].
  eapply stored_apart; [| | |exact A1|exact A2]; unfold n; destruct (im_format dst); cbn; lra.
Qed.
Print Assumptions C61_recolor_to_yuv.

(** YUV to RGB, colors in 0 .. 1: two levels; three for HLG sources *)
Theorem C61_recolor_from_yuv : forall sp1 sl1 b1 sp2 sl2 b2 m src sps dst dps i k,
  converts (libm_of sp1 sl1) b1 m src sps dst dps -> converts (libm_of sp2 sl2) b2 m src sps dst dps -> levels_ok m src sps ->
  sampling_of (im_format src) <> SRGB -> sampling_of (im_format dst) = SRGB ->
  im_color src = CYUV i -> weights_of (yc_space i) = Some k -> yc_space i <> SpBT2020 ->
  same_light (im_color src) (im_color dst) = false ->
  let ts := ci_transfer (im_color src) in
  let td := ci_transfer (im_color dst) in
  ts <> TBT2100PQ -> td = TLinear \/ td = TSRGB \/ td = TSDR ->
  forall c x y, In c comps -> in_image dst x y ->
  platform_pow sp1 sl1 (column_backend b1 (im_width dst) x) -> platform_pow sp2 sl2 (column_backend b2 (im_width dst) x) ->
  real_color k m src sps i x y ->
  apart (match ts with TBT2100HLG => 3 | _ => 2 end)%Z
    (stored (libm_of sp1 sl1) b1 m src dst dps c x y) (stored (libm_of sp2 sl2) b2 m src dst dps c x y).
Proof.
  intros sp1 sl1 b1 sp2 sl2 b2 m src sps dst dps i k C1 C2 LV SS SD CI W N20 SL ts td TS TD c x y HC HI P1 P2 RC.
  destruct (C65_yuv_to_rgb_levels_partial sp1 sl1 b1 m src sps dst dps i k C1 LV SS SD CI W N20 SL TS TD c x y HC HI P1 RC) as (z1 & S1 & _ & A1).
  destruct (C65_yuv_to_rgb_levels_partial sp2 sl2 b2 m src sps dst dps i k C2 LV SS SD CI W N20 SL TS TD c x y HC HI P2 RC) as (z2 & S2 & _ & A2).
  exists z1, z2. split; [exact S1|split; [exact S2|]]. fold ts in A1, A2. clearbody ts.
  eapply stored_apart; [| | |exact A1|exact A2]; destruct ts; lra.
Qed.
Print Assumptions C61_recolor_from_yuv.

(** YUV to YUV, colors in 0 .. 1 and within the gamut of the destination *)
Definition recolor_gap (f : pixel_format) (ts : color_transfer) : Z :=
  match ts with
  | TBT2100HLG => if (max_level f =? 255)%Z then 3 else if (max_level f =? 1023)%Z then 10 else 38
  | _ => if (max_level f =? 255)%Z then 2 else if (max_level f =? 1023)%Z then 7 else 24
  end%Z.

Theorem C61_recolor_yuv : forall sp1 sl1 b1 sp2 sl2 b2 m src sps dst dps is ks id kd,
  converts (libm_of sp1 sl1) b1 m src sps dst dps -> converts (libm_of sp2 sl2) b2 m src sps dst dps -> levels_ok m src sps ->
  sampling_of (im_format src) <> SRGB -> sampling_of (im_format dst) <> SRGB ->
  im_color src = CYUV is -> weights_of (yc_space is) = Some ks -> yc_space is <> SpBT2020 ->
  im_color dst = CYUV id -> weights_of (yc_space id) = Some kd -> yc_space id <> SpBT2020 ->
  same_light (im_color src) (im_color dst) = false ->
  let ts := ci_transfer (im_color src) in
  let td := ci_transfer (im_color dst) in
  ts <> TBT2100PQ -> td = TLinear \/ td = TSRGB \/ td = TSDR ->
  forall c x y, has_comp (im_format dst) c = true -> in_image dst x y ->
  let cb1 := column_backend b1 (im_width dst) x in
  let cb2 := column_backend b2 (im_width dst) x in
  platform_pow sp1 sl1 cb1 -> platform_pow sp2 sl2 cb2 ->
  let light x y := light_of ts (ci_primaries (im_color src)) (ci_primaries (im_color dst))
                     (red_at ks m src sps is x y) (green_at ks m src sps is x y) (blue_at ks m src sps is x y) in
  (forall p, In p ((x, y) :: chroma_block (sampling_of (im_format dst)) x y) ->
     real_color ks m src sps is (fst p) (snd p) /\ forall c, In c comps -> in_gamut (channel c (light (fst p) (snd p)))) ->
  (cb1 = AVX512 \/ cb2 = AVX512 -> yc_full_range id = false) ->
  apart (recolor_gap (im_format dst) ts) (stored (libm_of sp1 sl1) b1 m src dst dps c x y) (stored (libm_of sp2 sl2) b2 m src dst dps c x y).
Proof.
  intros sp1 sl1 b1 sp2 sl2 b2 m src sps dst dps is ks id kd C1 C2 LV SS SD CI W N20 CID WD ND SL ts td TS TD c x y HC HI cb1 cb2 P1 P2 light GM AV.
  destruct (C65_yuv_to_yuv_partial sp1 sl1 b1 m src sps dst dps is ks id kd C1 LV SS SD CI W N20 CID WD ND SL TS TD c x y HC HI P1 GM (fun E => AV (or_introl E))) as (z1 & S1 & _ & A1).
  destruct (C65_yuv_to_yuv_partial sp2 sl2 b2 m src sps dst dps is ks id kd C2 LV SS SD CI W N20 CID WD ND SL TS TD c x y HC HI P2 GM (fun E => AV (or_intror E))) as (z2 & S2 & _ & A2).
  exists z1, z2. split; [exact S1|split; [exact S2|]]. fold ts in A1, A2. clear TS GM. subst light. clearbody ts.
  eapply stored_apart; [| | |exact A1|exact A2]; destruct ts; destruct (im_format dst); cbn; lra.
Qed.
Print Assumptions C61_recolor_yuv.

(** The hypotheses are those of C64, C65 and C75, twice; C64_example, C65_example
    and C75_example meet them on every back end.  Here with AVX2 and NEON side by
    side. *)
Example C61_recolor_example :
  converts (libm_of avx_pow avx_log) AVX2 soft_mem soft_src (ex_yuv_planes 0) soft_rgb (ex_rgba_planes 1) /\
  converts (libm_of avx_pow avx_log) NEON soft_mem soft_src (ex_yuv_planes 0) soft_rgb (ex_rgba_planes 1) /\
  (forall x y, in_image soft_src x y -> real_color bt709 soft_mem soft_src (ex_yuv_planes 0) soft_info x y).
Proof. split; [apply C65_example|]. split; [apply C65_example|exact soft_colors]. Qed.
