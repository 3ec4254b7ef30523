(** C61: how far the results on two CPUs can differ. *)

From Coq Require Import List ZArith Bool Arith Reals Lia Lra Psatz.
From Flocq Require Import Core.
From Verif Require Import Base Types Planes ImageM F32 Vector Simd SpecVector SimdProofs QuantProofs SpecGeom GeomProofs
  SpecColor SpecConvert SpecRun Formats Visit Convert VisitProofs ColorProofs ConvertProofs ExactProofs PropConvert PropFidelity
  SpecReal FloatProofs AccProofs TargetProofs PropColor ColorR SpecTransfer PowerProofs MathProofs SpecMath LaneProofs TransferProofs
  Math NegProofs RecolorProofs PropRecolor.
Import ListNotations.
Local Open Scope R_scope.

(** Two stored samples are neighbours or equal. *)
Definition one_apart (a b : option Z) : Prop :=
  exists x y, a = Some x /\ b = Some y /\ (- 1 <= x - y <= 1)%Z.

Lemma stored_one_apart : forall b1 b2 e t x y, 0 <= e <= 1 / 4 -> stored_for b1 e t x -> stored_for b2 e t y -> (- 1 <= x - y <= 1)%Z.
Proof.
  assert (H : forall b1 b2 e t x y, 0 <= e <= 1 / 4 -> stored_for b1 e t x -> stored_for b2 e t y -> (x - y < 2)%Z).
  { intros b1 b2 e t x y E S1 S2. apply lt_IZR. rewrite minus_IZR.
    assert (A1 : t - 1 - e < IZR x <= t + 1 / 2 + e /\ (b1 = Scalar \/ b1 = NEON -> IZR x <= t + e))
      by (destruct b1; cbn [stored_for] in S1; unfold truncated, rounded in S1; try (apply Rabs_le_inv in S1);
          (split; [lra|intros [Q|Q]; try discriminate Q; lra])).
    assert (A2 : t - 1 - e < IZR y <= t + 1 / 2 + e)
      by (destruct b2; cbn [stored_for] in S2; unfold truncated, rounded in S2; try (apply Rabs_le_inv in S2); lra).
    assert (A3 : (b2 = AVX2 \/ b2 = AVX512) -> t - 1 / 2 - e <= IZR y)
      by (intros [-> | ->]; cbn [stored_for] in S2; unfold rounded in S2; apply Rabs_le_inv in S2; lra).
    lra. }
  intros b1 b2 e t x y E S1 S2. pose proof (H b1 b2 e t x y E S1 S2). pose proof (H b2 b1 e t y x E S2 S1). lia.
Qed.

(** RGB to YUV without change of the transfer function or the primaries: the
    samples that two back ends store differ by at most one level, 8, 10 or 12
    bits, whichever column of whichever image width they are in. *)
Theorem C61_rgb_to_yuv : forall lm1 b1 lm2 b2 m src sps dst dps i k,
  converts lm1 b1 m src sps dst dps -> converts lm2 b2 m src sps dst dps -> bytes_ok m ->
  sampling_of (im_format src) = SRGB -> sampling_of (im_format dst) <> SRGB ->
  im_color dst = CYUV i -> weights_of (yc_space i) = Some k -> yc_space i <> SpBT2020 ->
  same_light (im_color src) (im_color dst) = true ->
  forall c x y, has_comp (im_format dst) c = true -> in_image dst x y ->
  one_apart (stored lm1 b1 m src dst dps c x y) (stored lm2 b2 m src dst dps c x y).
Proof.
  intros lm1 b1 lm2 b2 m src sps dst dps i k C1 C2 BM SS SD CI WK N20 SL c x y HC HI.
  destruct (C48_rgb_to_yuv_accuracy lm1 b1 m src sps dst dps i k C1 BM SS SD CI WK N20 SL c x y HC HI) as (z1 & S1 & A1 & _).
  destruct (C48_rgb_to_yuv_accuracy lm2 b2 m src sps dst dps i k C2 BM SS SD CI WK N20 SL c x y HC HI) as (z2 & S2 & A2 & _).
  exists z1, z2. split; [exact S1|split; [exact S2|]]. eapply stored_one_apart; [|exact A1|exact A2].
  pose proof (max_level_R (im_format dst)). lra.
Qed.
Print Assumptions C61_rgb_to_yuv.

(** The same for YUV to RGB *)
Theorem C61_yuv_to_rgb : forall lm1 b1 lm2 b2 m src sps dst dps i k,
  converts lm1 b1 m src sps dst dps -> converts lm2 b2 m src sps dst dps -> levels_ok m src sps ->
  sampling_of (im_format src) <> SRGB -> sampling_of (im_format dst) = SRGB ->
  im_color src = CYUV i -> weights_of (yc_space i) = Some k -> yc_space i <> SpBT2020 ->
  same_light (im_color src) (im_color dst) = true ->
  forall c x y, In c [CR; CG; CB] -> in_image dst x y ->
  one_apart (stored lm1 b1 m src dst dps c x y) (stored lm2 b2 m src dst dps c x y).
Proof.
  intros lm1 b1 lm2 b2 m src sps dst dps i k C1 C2 LV SS SD CI WK N20 SL c x y HC HI.
  pose proof (C49_yuv_to_rgb_accuracy lm1 b1 m src sps dst dps i k C1 LV SS SD CI WK N20 SL x y HI) as A1.
  pose proof (C49_yuv_to_rgb_accuracy lm2 b2 m src sps dst dps i k C2 LV SS SD CI WK N20 SL x y HI) as A2.
  cbv zeta in A1, A2.
  set (Y := level_y _ _ _) in *. set (U := level_c _ _ (level m _ sps CU x y)) in *. set (V := level_c _ _ (level m _ sps CV x y)) in *.
  assert (Q : exists q, (c = CR /\ q = red k Y U V) \/ (c = CG /\ q = green k Y U V) \/ (c = CB /\ q = blue k Y U V)).
  { cbn [In] in HC. destruct HC as [<- |[<- |[<- |[]]]]; eexists; [left|right; left|right; right]; split; reflexivity. }
  destruct Q as (q & Q). destruct (A1 c q Q) as (z1 & S1 & B1 & _). destruct (A2 c q Q) as (z2 & S2 & B2 & _).
  exists z1, z2. split; [exact S1|split; [exact S2|]]. eapply stored_one_apart; [|exact B1|exact B2]. lra.
Qed.
Print Assumptions C61_yuv_to_rgb.

(** The same for YUV to YUV; AVX-512 needs a level inside of the range of the
    integers (see C25) *)
Theorem C61_yuv_to_yuv : forall lm1 b1 lm2 b2 m src sps dst dps is ks id kd,
  converts lm1 b1 m src sps dst dps -> converts lm2 b2 m src sps dst dps -> same_image_kind src dst = false -> levels_ok m src sps ->
  sampling_of (im_format src) <> SRGB -> sampling_of (im_format dst) <> SRGB ->
  im_color src = CYUV is -> weights_of (yc_space is) = Some ks -> yc_space is <> SpBT2020 ->
  im_color dst = CYUV id -> weights_of (yc_space id) = Some kd -> yc_space id <> SpBT2020 ->
  same_light (im_color src) (im_color dst) = true ->
  forall c x y, has_comp (im_format dst) c = true -> in_image dst x y ->
  let t := ideal_level kd (yc_full_range id) (im_format dst) (red_at ks m src sps is) (green_at ks m src sps is) (blue_at ks m src sps is) c x y in
  let hi := IZR (if (sample_bytes (im_format dst) =? 2)%nat then 65535 else 255) in
  (column_backend b1 (im_width dst) x = AVX512 \/ column_backend b2 (im_width dst) x = AVX512 -> 0 <= t <= hi) ->
  one_apart (stored lm1 b1 m src dst dps c x y) (stored lm2 b2 m src dst dps c x y).
Proof.
  intros lm1 b1 lm2 b2 m src sps dst dps is ks id kd C1 C2 SK LV SS SD CIS WS NS CID WD ND SL c x y HC HI t hi RG.
  destruct (C50_yuv_to_yuv_accuracy lm1 b1 m src sps dst dps is ks id kd C1 SK LV SS SD CIS WS NS CID WD ND SL c x y HC HI (fun E => RG (or_introl E)))
    as (z1 & S1 & A1).
  destruct (C50_yuv_to_yuv_accuracy lm2 b2 m src sps dst dps is ks id kd C2 SK LV SS SD CIS WS NS CID WD ND SL c x y HC HI (fun E => RG (or_intror E)))
    as (z2 & S2 & A2).
  exists z1, z2. split; [exact S1|split; [exact S2|]]. eapply stored_one_apart; [|exact A1|exact A2].
  pose proof (max_level_R (im_format dst)). lra.
Qed.
Print Assumptions C61_yuv_to_yuv.

(** RGB to RGB with a change of the transfer function or the primaries, to
    linear light, sRGB or SDR; [sp] and [sl] are the power and logarithm of the
    platform *)
Theorem C61_recolor : forall sp1 sl1 b1 sp2 sl2 b2 m src sps dst dps,
  converts (libm_of sp1 sl1) b1 m src sps dst dps -> converts (libm_of sp2 sl2) b2 m src sps dst dps -> bytes_ok m ->
  sampling_of (im_format src) = SRGB -> sampling_of (im_format dst) = SRGB ->
  same_light (im_color src) (im_color dst) = false ->
  let ts := ci_transfer (im_color src) in
  let td := ci_transfer (im_color dst) in
  ts <> TBT2100PQ -> (td = TLinear \/ td = TSRGB \/ td = TSDR) ->
  forall c x y, In c [CR; CG; CB] -> in_image dst x y ->
  platform_pow sp1 sl1 (column_backend b1 (im_width dst) x) -> platform_pow sp2 sl2 (column_backend b2 (im_width dst) x) ->
  one_apart (stored (libm_of sp1 sl1) b1 m src dst dps c x y) (stored (libm_of sp2 sl2) b2 m src dst dps c x y).
Proof.
  intros sp1 sl1 b1 sp2 sl2 b2 m src sps dst dps C1 C2 BM SS SD SL ts td TS TD c x y HC HI P1 P2.
  destruct (C55_recolor_levels sp1 sl1 b1 m src sps dst dps C1 BM SS SD SL TS TD c x y HC HI P1) as (z1 & S1 & _ & A1).
  destruct (C55_recolor_levels sp2 sl2 b2 m src sps dst dps C2 BM SS SD SL TS TD c x y HC HI P2) as (z2 & S2 & _ & A2).
  exists z1, z2. split; [exact S1|split; [exact S2|]]. eapply stored_one_apart; [|exact A1|exact A2]. lra.
Qed.
Print Assumptions C61_recolor.

(** Without change of the transfer function or the primaries, and not in ICtCp,
    scalar and NEON code store exactly the same: all sources, also those with
    samples out of range, and BT.2020. *)
Definition truncates (b : backend) : Prop := b = Scalar \/ b = NEON.
Definition no_ictcp (color : color_info) : Prop := match color with CYUV i => is_ictcp (yc_space i) = false | CRGB _ _ => True end.

Lemma decode_same : forall (L L' : lane_ops f32) i y u v, is_ictcp (yc_space i) = false -> decode_yuv L i y u v = decode_yuv L' i y u v.
Proof. intros L L' [t p s full] y u v S. destruct s; try discriminate S; reflexivity. Qed.
Lemma rgb_yuv_same : forall (L L' : lane_ops f32) s t p v, is_ictcp s = false -> rgb_yuv L s t p v = rgb_yuv L' s t p v.
Proof. intros L L' s t p [[r g] b] S. destruct s; try discriminate S; reflexivity. Qed.

Lemma expected_same : forall (L L' : lane_ops f32) m src sps dst c x y,
  no_ictcp (im_color src) -> no_ictcp (im_color dst) -> same_light (im_color src) (im_color dst) = true ->
  expected_value L m src sps dst c x y = expected_value L' m src sps dst c x y.
Proof.
  intros L L' m src sps dst c x y NS ND SL. unfold expected_value. destruct (same_image_kind src dst); [exact eq_refl|].
  assert (P : forall x y, recolored L (im_color src) (im_color dst) (source_pixel L m (im_format src) (im_color src) sps x y)
    = recolored L' (im_color src) (im_color dst) (source_pixel L' m (im_format src) (im_color src) sps x y)).
  { intros x' y'. unfold recolored. rewrite SL. unfold source_pixel. unfold no_ictcp in NS.
    destruct (im_color src) as [|i]; [exact eq_refl|]. rewrite (decode_same L L') by exact NS. exact eq_refl. }
  unfold target. unfold no_ictcp in ND. destruct (im_color dst) as [|i].
  - destruct (sampling_of (im_format dst)), c; rewrite ?P; exact eq_refl.
  - rewrite !P. rewrite !(rgb_yuv_same L L') by exact ND. exact eq_refl.
Qed.

Theorem C61_truncating : forall lm1 b1 lm2 b2 m src sps dst dps,
  converts lm1 b1 m src sps dst dps -> converts lm2 b2 m src sps dst dps ->
  no_ictcp (im_color src) -> no_ictcp (im_color dst) -> same_light (im_color src) (im_color dst) = true ->
  forall c x y, has_comp (im_format dst) c = true -> in_image dst x y ->
  truncates (column_backend b1 (im_width dst) x) -> truncates (column_backend b2 (im_width dst) x) ->
  stored lm1 b1 m src dst dps c x y = stored lm2 b2 m src dst dps c x y.
Proof.
  intros lm1 b1 lm2 b2 m src sps dst dps C1 C2 NS ND SL c x y HC HI R1 R2.
  assert (ICT : ictcp_chroma420 (im_format dst) (im_color dst) c = false).
  { unfold ictcp_chroma420. unfold no_ictcp in ND. destruct (sampling_of (im_format dst)), (im_color dst), c; auto. }
  rewrite (stored_expected _ _ _ _ _ _ _ C1 c x y HC HI ICT), (stored_expected _ _ _ _ _ _ _ C2 c x y HC HI ICT). f_equal.
  rewrite (expected_same (lane_of lm1 (column_backend b1 (im_width dst) x)) (lane_of lm2 (column_backend b2 (im_width dst) x)) m src sps dst c x y NS ND SL).
  set (v := expected_value _ _ _ _ _ _ _ _). clearbody v.
  assert (Q : forall b, truncates b -> quantise (quant_of b) (im_format dst) v = quantise scalar_quant (im_format dst) v).
  { intros b R. destruct R as [-> | ->]; [exact eq_refl|]. unfold quantise.
    destruct (im_format dst); cbn [quant_of neon_quant scalar_quant q_u8 q_u8i q_u16]; rewrite ?neon_u8_as, ?neon_u16_as; exact eq_refl. }
  rewrite (Q _ R1), (Q _ R2). exact eq_refl.
Qed.
Print Assumptions C61_truncating.

(** The hypotheses are met and the difference occurs: a picture of the color
    (50, 153, 201) becomes another YUV picture on AVX2 and AVX-512 than on NEON
    and without SIMD. *)
Definition teal_mem : mem := fun b i => nth (i mod 3) [50; 153; 201]%Z 0%Z.
Definition teal_planes : list (slice * nat) := [(Slice 0 0 192, 96)]%nat.
Definition teal : image := ex_image RGB 32 2 (CRGB TLinear PrBT709) teal_planes.
Definition teal_dst_planes : list (slice * nat) := [(Slice 1 0 64, 32); (Slice 1 64 64, 32); (Slice 1 128 64, 32)]%nat.
Definition teal_dst : image := ex_image I444 32 2 (CYUV (YuvCI TLinear PrBT709 SpBT709 true)) teal_dst_planes.

Example C61_example : forall lm b, converts lm b teal_mem teal teal_planes teal_dst teal_dst_planes /\ bytes_ok teal_mem /\
  same_light (im_color teal) (im_color teal_dst) = true /\
  map (fun c => stored lm b teal_mem teal teal_dst teal_dst_planes c 17 1) [CY; CU; CV]
    = match b with Scalar | NEON => [Some 134%Z; Some 163%Z; Some 73%Z] | _ => [Some 135%Z; Some 163%Z; Some 74%Z] end.
Proof.
  intros lm b. split; [|split; [|split]].
  - split; [|split; [|split; [|split]]]; try (split; [reflexivity|split; [repeat constructor; cbn; unfold usize; cbn; lia|reflexivity]]).
    + intros i j a c H Ha Hc k K. destruct i as [|[|[|i]]], j as [|[|[|j]]]; cbn in Ha, Hc; try discriminate Ha; try discriminate Hc;
      try (destruct (H eq_refl)); try (destruct i; discriminate Ha); try (destruct j; discriminate Hc);
      injection Ha as <-; injection Hc as <-; cbn in K; lia.
    + intros Q; discriminate Q.
    + destruct b; vm_compute; reflexivity.
  - intros bb j. unfold teal_mem. pose proof (Nat.mod_upper_bound j 3). destruct (j mod 3)%nat as [|[|[|k]]]; cbn; lia.
  - reflexivity.
  - destruct b; vm_compute; reflexivity.
Qed.

(** In general the claim is false: the cyan picture of C54 has a green of 222 on
    NEON and is black on AVX2 and AVX-512. *)
Theorem C61_refuted : forall sp sl b, avx b ->
  converts (libm_of sp sl) b cyan_mem cyan cyan_planes cyan_dst cyan_dst_planes /\
  converts (libm_of sp sl) NEON cyan_mem cyan cyan_planes cyan_dst cyan_dst_planes /\
  stored (libm_of sp sl) b cyan_mem cyan cyan_dst cyan_dst_planes CG 0 0 = Some 0%Z /\
  stored (libm_of sp sl) NEON cyan_mem cyan cyan_dst cyan_dst_planes CG 0 0 = Some 222%Z.
Proof.
  intros sp sl b AV. destruct (C54_clipping_refuted sp sl b AV) as (CV & _ & X). split; [exact CV|]. split.
  - destruct CV as (V1 & V2 & V3 & V4 & _). repeat (split; [assumption|]). vm_compute. reflexivity.
  - split; [apply (X 0%nat 0%nat); split; cbn; lia|]. vm_compute. reflexivity.
Qed.
Print Assumptions C61_refuted.
