(** C77 for YUV and PQ destinations: what convert stores for YUV of another
    kind if the source is ICtCp. *)

From Coq Require Import List ZArith Bool Arith Reals Lia Lra Psatz.
From Flocq Require Import Core.
From Verif Require Import Base Types Planes ImageM F32 Vector Simd SpecVector SimdProofs QuantProofs SpecGeom GeomProofs
  SpecColor SpecConvert SpecRun Formats Visit Convert VisitProofs ColorProofs ConvertProofs ExactProofs PropConvert PropFidelity
  SpecReal FloatProofs AccProofs TargetProofs PropColor ColorR SpecTransfer PowerProofs MathProofs SpecMath LaneProofs TransferProofs
  Math NegProofs RecolorProofs PropRecolor GamutProofs PropGamut PropBackends PropBackends2 SpecIctcp PropIctcp IctcpProofs WideProofs HlgProofs PropWide PropGray PqProofs PqEncProofs
  PropDrift PropBT2020 PropOut PropToPQ PropFromPQ PropPQ PropIctcpAcc PropIctcpDec PropIctcpPqDec PropIctcpRecolor PropIctcpOther PropIctcpHlgRecolor.
Import ListNotations.
Local Open Scope R_scope.

(** * What a pixel stands for *)

(** The pixel encodes cone responses in 0 .. 1, which are those of the light [w] up to [d] *)
Definition holds_hlg (m : mem) (src : image) (sps : list (slice * nat)) (i : yuv_color_info) (d : R) (w : nat -> nat -> R * R * R) (x y : nat) : Prop :=
  exists l' m' n', 0 <= l' <= 1 /\ 0 <= m' <= 1 /\ 0 <= n' <= 1 /\
    ictcp_hlg l' m' n' = (y_at m src sps i x y, u_at m src sps i x y, v_at m src sps i x y) /\
    SpecIctcp.within3 d (hlg_decode l', hlg_decode m', hlg_decode n')
      (cones (ci_primaries (im_color src)) (channel CR (w x y)) (channel CG (w x y)) (channel CB (w x y))).

(** The same with the PQ curve; no response is brighter than [T] *)
Definition holds_pq (m : mem) (src : image) (sps : list (slice * nat)) (i : yuv_color_info) (T d : R) (w : nat -> nat -> R * R * R) (x y : nat) : Prop :=
  exists l' m' n', l' <= 1 /\ m' <= 1 /\ n' <= 1 /\
    ictcp_pq l' m' n' = (y_at m src sps i x y, u_at m src sps i x y, v_at m src sps i x y) /\
    pq_decode l' <= T /\ pq_decode m' <= T /\ pq_decode n' <= T /\
    SpecIctcp.within3 d (pq_decode l', pq_decode m', pq_decode n')
      (cones (ci_primaries (im_color src)) (channel CR (w x y)) (channel CG (w x y)) (channel CB (w x y))).

(** * Storing *)

(** Samples are mixed of the colors of their pixels *)
Lemma colors_mixed : forall sp sl b m src sps dst dps i k (color : nat -> nat -> R * R * R) e,
  converts (libm_of sp sl) b m src sps dst dps -> same_image_kind src dst = false ->
  sampling_of (im_format dst) <> SRGB -> im_color dst = CYUV i -> weights_of (yc_space i) = Some k ->
  0 <= e <= 5 / 1000000 ->
  forall c x y, has_comp (im_format dst) c = true -> in_image dst x y ->
  let cb := column_backend b (im_width dst) x in
  let L := lane_of (libm_of sp sl) cb in
  (forall p, In p ((x, y) :: chroma_block (sampling_of (im_format dst)) x y) ->
     pixel_approx e (recolored L (im_color src) (im_color dst) (source_pixel L m (im_format src) (im_color src) sps (fst p) (snd p)))
       (channel CR (color (fst p) (snd p))) (channel CG (color (fst p) (snd p))) (channel CB (color (fst p) (snd p)))) ->
  let ch c x y := channel c (color x y) in
  let t := ideal_level k (yc_full_range i) (im_format dst) (ch CR) (fun x y => written_green (yc_space i) (ch CG x y)) (ch CB) c x y in
  let hi := IZR (if (sample_bytes (im_format dst) =? 2)%nat then 65535 else 255) in
  (cb = AVX512 -> - (1 / 4) <= t <= hi + 1 / 4) ->
  exists z, stored (libm_of sp sl) b m src dst dps c x y = Some z /\ (0 <= z)%Z /\
    stored_for cb (IZR (max_level (im_format dst)) * (11 / 10 * e + 12 / 1000000)) (clamp hi t) z.
Proof.
  intros sp sl b m src sps dst dps i k color e CVT SK SF CI WK E c x y HC HI cb L F ch t hi RG.
  pose proof (pixels_stored (libm_of sp sl) b m src sps dst dps i _ _ _ (ch CR) (ch CG) (ch CB) e CVT SK SF CI
    ltac:(destruct (yc_space i); try reflexivity; discriminate WK) (fun L => encoder_any L i k WK) ltac:(lra) c x y HC HI F) as S.
  cbv zeta in S.
  assert (ET : level_by (fun r g b => luma k r (written_green (yc_space i) g) b) (fun r g b => SpecReal.cb k r (written_green (yc_space i) g) b)
    (fun r g b => cr k r (written_green (yc_space i) g) b) (yc_full_range i) (im_format dst) (ch CR) (ch CG) (ch CB) c x y = t).
  { unfold level_by, t, ideal_level. cbv zeta.
    assert (CM : chroma_mean (sampling_of (im_format dst)) (fun x y => written_green (yc_space i) (ch CG x y)) x y
      = written_green (yc_space i) (chroma_mean (sampling_of (im_format dst)) (ch CG) x y)).
    { unfold written_green. destruct (yc_space i); try reflexivity.
      unfold chroma_mean, mean. destruct (sampling_of (im_format dst)); unfold chroma_block; cbn [map fold_right length fst snd]; simpl INR; field. }
    rewrite CM. destruct c; reflexivity. }
  rewrite ET in S. clearbody t. destruct S as (z & ST & SS & Z0); [exact RG|].
  exists z. split; [exact ST|]. split; [exact Z0|]. eapply stored_for_weaken; [exact SS|].
  pose proof (max_level_R (im_format dst)) as M. apply Rmult_le_compat_l; [lra|]. unfold u7. lra.
Qed.

Lemma ictcp_kind : forall src dst i j k, im_color src = CYUV i -> im_color dst = CYUV j -> is_ictcp (yc_space i) = true -> weights_of (yc_space j) = Some k ->
  same_image_kind src dst = false.
Proof.
  intros src dst i j k CI CJ I W. unfold same_image_kind. apply andb_false_iff; right. rewrite CI, CJ. unfold color_info_eqb.
  destruct (color_info_eq_dec _ _) as [EQ|]; [|reflexivity]. injection EQ as ->. destruct (yc_space j); try discriminate I; discriminate W.
Qed.

(** * C77 *)

(** ICtCp with the HLG curve to YUV of the same primaries and transfer function:
    every sample is the level of colors whose light is that of the pixels up to
    1/1600 of the reference white, up to 1/50000 of full scale and the rounding of
    the integer.
    Missing: light below [darkest]; PQ as the transfer function; responses
    outside of 0 .. 1. *)
Theorem C77_hlg_to_yuv_partial : forall sp sl b m src sps dst dps i j k,
  converts (libm_of sp sl) b m src sps dst dps -> levels_ok m src sps ->
  sampling_of (im_format src) <> SRGB -> sampling_of (im_format dst) <> SRGB ->
  im_color src = CYUV i -> yc_space i = SpICtCpHLG ->
  im_color dst = CYUV j -> weights_of (yc_space j) = Some k ->
  same_light (im_color src) (im_color dst) = true ->
  let td := yc_transfer j in
  td <> TBT2100PQ ->
  forall c x y, has_comp (im_format dst) c = true -> in_image dst x y ->
  let cb := column_backend b (im_width dst) x in
  platform_pow sp sl cb ->
  forall light d, 0 <= d <= 1 / 1000 ->
  let block := (x, y) :: chroma_block (sampling_of (im_format dst)) x y in
  let e := 1 / 1600 + 14 * d in
  (forall p, In p block -> holds_hlg m src sps i d light (fst p) (snd p) /\
     forall c, In c comps -> nearly_shown (channel c (light (fst p) (snd p))) /\ darkest cb td - 1 / 2500 + e <= channel c (light (fst p) (snd p))) ->
  exists near : nat -> nat -> R * R * R,
    (forall p c, In p block -> In c comps ->
       Rabs (channel c (near (fst p) (snd p)) - channel c (light (fst p) (snd p))) <= e) /\
    let color c x y := encoded td (channel c (near x y)) in
    let t := ideal_level k (yc_full_range j) (im_format dst) (color CR) (fun x y => written_green (yc_space j) (color CG x y)) (color CB) c x y in
    let hi := IZR (if (sample_bytes (im_format dst) =? 2)%nat then 65535 else 255) in
    (cb = AVX512 -> - (1 / 4) <= t <= hi + 1 / 4) ->
    exists z, stored (libm_of sp sl) b m src dst dps c x y = Some z /\ (0 <= z)%Z /\
      stored_for cb (IZR (max_level (im_format dst)) / 50000) (clamp hi t) z.
Proof.
  intros sp sl b m src sps dst dps i j k CVT LV FS FD CI S CJ WK SL td TD c x y HC HI cb PL light d D block e H.
  pose proof (accurate_lane sp sl cb PL) as A. assert (VS : valid_image src sps) by apply CVT.
  pose proof (converts_convertible _ _ _ _ _ _ _ CVT) as CT. set (L := lane_of (libm_of sp sl) cb) in *.
  pose proof (ictcp_kind src dst i j k CI CJ ltac:(rewrite S; reflexivity) WK) as SK.
  assert (TE : ci_transfer (im_color src) = td).
  { clear - SL CJ. unfold same_light in SL. apply andb_true_iff in SL as (SL & _). rewrite CJ in SL. cbn [ci_transfer] in SL. fold td in SL.
    destruct (ci_transfer (im_color src)), td; try discriminate SL; reflexivity. }
  assert (EX : forall p, In p block -> exists w : R * R * R,
    (forall c, In c comps -> Rabs (channel c w - channel c (light (fst p) (snd p))) <= e) /\
    pixel_approx (5 / 1000000) (recolored L (im_color src) (im_color dst) (source_pixel L m (im_format src) (im_color src) sps (fst p) (snd p)))
      (encoded td (channel CR w)) (encoded td (channel CG w)) (encoded td (channel CB w))).
  { intros p HP. destruct (H p HP) as ((l' & m' & n' & HL & HM & HN & MX & CN) & GM). clear H.
    assert (HI' : in_image dst (fst p) (snd p)) by (eapply block_in_image; [apply CT|apply CT|exact HI|exact HP]).
    assert (HS : in_image src (fst p) (snd p)) by (unfold in_image in *; rewrite (cv_width _ _ _ _ CT), (cv_height _ _ _ _ CT); exact HI').
    destruct (GM CR ltac:(cbn; auto)) as (S1 & G1). destruct (GM CG ltac:(cbn; auto)) as (S2 & G2). destruct (GM CB ltac:(cbn; auto)) as (S3 & G3). clear GM.
    destruct (source_light_hlg L m src sps i (fst p) (snd p) A VS LV FS CI S HS l' m' n' _ _ _ d HL HM HN MX S1 S2 S3 D CN) as (((q1, q2), q3) & EP & (F1 & F2 & F3)).
    rewrite EP, TE. unfold recolored. rewrite SL. cbn [map3].
    destruct F1 as (N1 & A1). destruct F2 as (N2 & A2). destruct F3 as (N3 & A3). unfold nearly_shown in S1, S2, S3.
    destruct (light (fst p) (snd p)) as ((p1, p2), p3). unfold channel, fst3, snd3, thd3 in *. cbn [fst snd] in *.
    apply Rabs_le_inv in A1. apply Rabs_le_inv in A2. apply Rabs_le_inv in A3. unfold e in *.
    destruct (encode_any sp sl cb td q1 A TD N1 ltac:(lra)) as (X1 & E1 & P1 & B1).
    destruct (encode_any sp sl cb td q2 A TD N2 ltac:(lra)) as (X2 & E2 & P2 & B2).
    destruct (encode_any sp sl cb td q3 A TD N3 ltac:(lra)) as (X3 & E3 & P3 & B3).
    apply Rabs_le_inv in E1. apply Rabs_le_inv in E2. apply Rabs_le_inv in E3.
    exists (X1, X2, X3). cbn [fst snd map3]. split.
    - intros c' HC'. cbn [In comps] in HC'. destruct HC' as [<- |[<- |[<- |[]]]]; cbn [fst snd]; apply Rabs_le; lra.
    - split; [split; [exact P1|split; [exact P2|exact P3]]|split; [exact B1|split; [exact B2|exact B3]]]. }
  destruct (choose _ _ (0, 0, 0) block EX) as (near & F). exists near. split; [intros p c' HP; apply (F p HP)|].
  intros color t hi RG.
  destruct (colors_mixed sp sl b m src sps dst dps j k (fun x y => (color CR x y, color CG x y, color CB x y)) (5 / 1000000) CVT SK FD CJ WK ltac:(lra) c x y HC HI
    (fun p HP => proj2 (F p HP)) RG) as (z & ST & Z0 & SS).
  exists z. split; [exact ST|]. split; [exact Z0|]. eapply stored_for_weaken; [exact SS|].
  pose proof (max_level_R (im_format dst)). lra.
Qed.
Print Assumptions C77_hlg_to_yuv_partial.

(** The linear light of a pixel, in the primaries of the destination *)
Lemma lit_hlg : forall sp sl cb m src sps i pd x y light d, let L := lane_of (libm_of sp sl) cb in accurate L ->
  valid_image src sps -> levels_ok m src sps -> sampling_of (im_format src) <> SRGB ->
  im_color src = CYUV i -> yc_space i = SpICtCpHLG -> in_image src x y -> restores (ci_transfer (im_color src)) ->
  0 <= d <= 1 / 10000 -> holds_hlg m src sps i d light x y -> between3 0 1 (light x y) ->
  lit L m src sps pd x y (from_xyz pd (to_xyz (ci_primaries (im_color src)) (light x y))) (1 / 300 + 36 * d) /\
  between3 (- (79 / 100)) (179 / 100) (from_xyz pd (to_xyz (ci_primaries (im_color src)) (light x y))).
Proof.
  intros sp sl cb m src sps i pd x y light d L A VS LV FS CI S HS TS D (l' & m' & n' & HL & HM & HN & MX & CN) W.
  unfold lit. destruct (light x y) as ((red, green), blue). unfold channel, fst3, snd3, thd3 in CN. cbn [fst snd] in CN. destruct W as (GR & GG & GB).
  destruct (source_light_hlg _ m src sps i x y A VS LV FS CI S HS l' m' n' red green blue d HL HM HN MX
    ltac:(unfold nearly_shown; lra) ltac:(unfold nearly_shown; lra) ltac:(unfold nearly_shown; lra) ltac:(lra) CN) as (((q1, q2), q3) & EP & (F1 & F2 & F3)).
  set (ts := ci_transfer (im_color src)) in *. set (ps := ci_primaries (im_color src)) in *. rewrite EP. cbn [fst].
  pose proof (restored_near sp sl cb ts q1 red _ A TS F1 GR ltac:(lra)) as R1.
  pose proof (restored_near sp sl cb ts q2 green _ A TS F2 GG ltac:(lra)) as R2.
  pose proof (restored_near sp sl cb ts q3 blue _ A TS F3 GB ltac:(lra)) as R3. fold L in R1, R2, R3.
  pose proof (light_rough ps pd (map3 (eotf L ts) (map3 (oetf L ts) (q1, q2, q3))) (red, green, blue) _
    ltac:(split; [exact R1|split; [exact R2|exact R3]]) ltac:(split; [exact GR|split; [exact GG|exact GB]]) ltac:(lra)) as F.
  pose proof (linear_wide ps pd 0 1 (red, green, blue) ltac:(lra) ltac:(lra) ltac:(split; [exact GR|split; [exact GG|exact GB]])) as FB.
  destruct (from_xyz pd (to_xyz ps (map3 (eotf L ts) (map3 (oetf L ts) (q1, q2, q3))))) as ((x1, x2), x3).
  destruct (from_xyz pd (to_xyz ps (red, green, blue))) as ((p1, p2), p3). destruct F as (Q1 & Q2 & Q3). destruct FB as (P1 & P2 & P3).
  split; [split; [split; [|split]; (eapply approx_le; [eassumption|lra])|]|split; [|split]; lra].
  intros c HC. cbn [In comps] in HC. unfold channel, fst3, snd3, thd3. destruct HC as [<- |[<- |[<- |[]]]]; cbn [fst snd]; lra.
Qed.

(** ICtCp with the HLG curve to YUV with another transfer function or other primaries *)
Theorem C77_hlg_to_other_yuv_partial : forall sp sl b m src sps dst dps i j k,
  converts (libm_of sp sl) b m src sps dst dps -> levels_ok m src sps ->
  sampling_of (im_format src) <> SRGB -> sampling_of (im_format dst) <> SRGB ->
  im_color src = CYUV i -> yc_space i = SpICtCpHLG ->
  im_color dst = CYUV j -> weights_of (yc_space j) = Some k ->
  same_light (im_color src) (im_color dst) = false ->
  let td := ci_transfer (im_color dst) in
  restores (ci_transfer (im_color src)) -> td <> TBT2100PQ ->
  forall c x y, has_comp (im_format dst) c = true -> in_image dst x y ->
  let cb := column_backend b (im_width dst) x in
  platform_pow sp sl cb ->
  forall light d, 0 <= d <= 1 / 10000 ->
  let block := (x, y) :: chroma_block (sampling_of (im_format dst)) x y in
  let e := 1 / 299 + 36 * d in
  let moved x y := from_xyz (ci_primaries (im_color dst)) (to_xyz (ci_primaries (im_color src)) (light x y)) in
  (forall p, In p block -> holds_hlg m src sps i d light (fst p) (snd p) /\ between3 0 1 (light (fst p) (snd p)) /\
     forall c, In c comps -> darkest cb td - 1 / 2500 + e <= channel c (moved (fst p) (snd p))) ->
  exists near : nat -> nat -> R * R * R,
    (forall p c, In p block -> In c comps ->
       Rabs (channel c (near (fst p) (snd p)) - channel c (moved (fst p) (snd p))) <= e) /\
    let color c x y := encoded td (channel c (near x y)) in
    let t := ideal_level k (yc_full_range j) (im_format dst) (color CR) (fun x y => written_green (yc_space j) (color CG x y)) (color CB) c x y in
    let hi := IZR (if (sample_bytes (im_format dst) =? 2)%nat then 65535 else 255) in
    (cb = AVX512 -> - (1 / 4) <= t <= hi + 1 / 4) ->
    exists z, stored (libm_of sp sl) b m src dst dps c x y = Some z /\ (0 <= z)%Z /\
      stored_for cb (IZR (max_level (im_format dst)) / 50000) (clamp hi t) z.
Proof.
  intros sp sl b m src sps dst dps i j k CVT LV FS FD CI S CJ WK SL td TS TD c x y HC HI cb PL light d D block e moved H.
  pose proof (accurate_lane sp sl cb PL) as A. assert (VS : valid_image src sps) by apply CVT.
  pose proof (converts_convertible _ _ _ _ _ _ _ CVT) as CT.
  destruct (light_stored sp sl b m src sps dst dps j k moved (1 / 300 + 36 * d) CVT SL FD CJ WK TD c x y HC HI A) as (near & N & R).
  { intros p HP. destruct (H p HP) as (HH & W & GM).
    assert (HI' : in_image dst (fst p) (snd p)) by (eapply block_in_image; [apply CT|apply CT|exact HI|exact HP]).
    assert (HS : in_image src (fst p) (snd p)) by (unfold in_image in *; rewrite (cv_width _ _ _ _ CT), (cv_height _ _ _ _ CT); exact HI').
    destruct (lit_hlg sp sl cb m src sps i (ci_primaries (im_color dst)) (fst p) (snd p) light d A VS LV FS CI S HS TS D HH W) as ((LT & _) & B).
    split; [exact LT|]. intros c' HC'. specialize (GM c' HC'). fold cb td. fold (moved (fst p) (snd p)) in B. unfold e in GM.
    split; [lra|]. destruct (moved (fst p) (snd p)) as ((p1, p2), p3). destruct B as (B1 & B2 & B3).
    cbn [In comps] in HC'. unfold channel, fst3, snd3, thd3. destruct HC' as [<- |[<- |[<- |[]]]]; cbn [fst snd]; lra. }
  exists near. split; [|exact R]. intros p c' HP HC'. eapply Rle_trans; [exact (N p c' HP HC')|]. unfold e. lra.
Qed.
Print Assumptions C77_hlg_to_other_yuv_partial.

(** ICtCp with the HLG curve to PQ *)
Theorem C77_hlg_to_pq_rgb_partial : forall sp sl b m src sps dst dps i,
  converts (libm_of sp sl) b m src sps dst dps -> levels_ok m src sps ->
  sampling_of (im_format src) <> SRGB -> sampling_of (im_format dst) = SRGB ->
  im_color src = CYUV i -> yc_space i = SpICtCpHLG ->
  restores (ci_transfer (im_color src)) -> ci_transfer (im_color dst) = TBT2100PQ ->
  forall c x y, In c comps -> in_image dst x y ->
  let cb := column_backend b (im_width dst) x in
  platform_pow sp sl cb ->
  forall light d, 0 <= d <= 1 / 10000 -> holds_hlg m src sps i d light x y -> between3 0 1 (light x y) ->
  let moved := from_xyz (ci_primaries (im_color dst)) (to_xyz (ci_primaries (im_color src)) (light x y)) in
  exists z l, stored (libm_of sp sl) b m src dst dps c x y = Some z /\
    Rabs (l - channel c moved) <= 1 / 300 + 36 * d /\ stored_for cb (1 / 15) (clamp 255 (255 * pq_code l)) z.
Proof.
  intros sp sl b m src sps dst dps i CVT LV FS FD CI S TS TD c x y HC HI cb PL light d D HH W moved.
  pose proof (accurate_lane sp sl cb PL) as A. assert (VS : valid_image src sps) by apply CVT.
  pose proof (converts_convertible _ _ _ _ _ _ _ CVT) as CT.
  assert (HS : in_image src x y) by (unfold in_image in *; rewrite (cv_width _ _ _ _ CT), (cv_height _ _ _ _ CT); exact HI).
  assert (SL : same_light (im_color src) (im_color dst) = false).
  { unfold same_light. rewrite TD. destruct TS as [-> |[-> | ->]]; reflexivity. }
  apply (lit_rgb sp sl b m src sps dst dps moved (1 / 300 + 36 * d) CVT SL FD TD c x y HC HI A).
  apply (lit_hlg sp sl cb m src sps i (ci_primaries (im_color dst)) x y light d A VS LV FS CI S HS TS D HH W).
Qed.
Print Assumptions C77_hlg_to_pq_rgb_partial.

Theorem C77_hlg_to_pq_yuv_partial : forall sp sl b m src sps dst dps i j k,
  converts (libm_of sp sl) b m src sps dst dps -> levels_ok m src sps ->
  sampling_of (im_format src) <> SRGB -> sampling_of (im_format dst) <> SRGB ->
  im_color src = CYUV i -> yc_space i = SpICtCpHLG ->
  im_color dst = CYUV j -> weights_of (yc_space j) = Some k ->
  restores (ci_transfer (im_color src)) -> yc_transfer j = TBT2100PQ ->
  forall c x y, has_comp (im_format dst) c = true -> in_image dst x y ->
  let cb := column_backend b (im_width dst) x in
  platform_pow sp sl cb ->
  forall light d, 0 <= d <= 1 / 10000 ->
  let block := (x, y) :: chroma_block (sampling_of (im_format dst)) x y in
  let moved x y := from_xyz (ci_primaries (im_color dst)) (to_xyz (ci_primaries (im_color src)) (light x y)) in
  (forall p, In p block -> holds_hlg m src sps i d light (fst p) (snd p) /\ between3 0 1 (light (fst p) (snd p))) ->
  exists l color : nat -> nat -> R * R * R,
    (forall p, In p block -> near_pq (moved (fst p) (snd p)) (1 / 300 + 36 * d) (l (fst p) (snd p)) (color (fst p) (snd p))) /\
    let ch c x y := channel c (color x y) in
    let t := ideal_level k (yc_full_range j) (im_format dst) (ch CR) (fun x y => written_green (yc_space j) (ch CG x y)) (ch CB) c x y in
    let hi := IZR (if (sample_bytes (im_format dst) =? 2)%nat then 65535 else 255) in
    (cb = AVX512 -> - (1 / 4) <= t <= hi + 1 / 4) ->
    exists z, stored (libm_of sp sl) b m src dst dps c x y = Some z /\ (0 <= z)%Z /\
      stored_for cb (IZR (max_level (im_format dst)) / 80000) (clamp hi t) z.
Proof.
  intros sp sl b m src sps dst dps i j k CVT LV FS FD CI S CJ WK TS TD c x y HC HI cb PL light d D block moved H.
  pose proof (accurate_lane sp sl cb PL) as A. assert (VS : valid_image src sps) by apply CVT.
  pose proof (converts_convertible _ _ _ _ _ _ _ CVT) as CT.
  assert (SL : same_light (im_color src) (im_color dst) = false).
  { unfold same_light. rewrite CJ. cbn [ci_transfer]. rewrite TD. destruct TS as [-> |[-> | ->]]; reflexivity. }
  apply (lit_yuv sp sl b m src sps dst dps j k moved (fun _ _ => 1 / 300 + 36 * d) CVT SL FD CJ WK TD c x y HC HI A).
  intros p HP. destruct (H p HP) as (HH & W).
  assert (HI' : in_image dst (fst p) (snd p)) by (eapply block_in_image; [apply CT|apply CT|exact HI|exact HP]).
  assert (HS : in_image src (fst p) (snd p)) by (unfold in_image in *; rewrite (cv_width _ _ _ _ CT), (cv_height _ _ _ _ CT); exact HI').
  apply (lit_hlg sp sl cb m src sps i (ci_primaries (im_color dst)) (fst p) (snd p) light d A VS LV FS CI S HS TS D HH W).
Qed.
Print Assumptions C77_hlg_to_pq_yuv_partial.

(** ICtCp with the PQ curve to YUV in PQ with the same primaries *)
Theorem C77_pq_to_yuv_partial : forall sp sl b m src sps dst dps i j k,
  converts (libm_of sp sl) b m src sps dst dps -> levels_ok m src sps ->
  sampling_of (im_format src) <> SRGB -> sampling_of (im_format dst) <> SRGB ->
  im_color src = CYUV i -> yc_space i = SpICtCpPQ -> yc_transfer i = TBT2100PQ ->
  im_color dst = CYUV j -> weights_of (yc_space j) = Some k ->
  same_light (im_color src) (im_color dst) = true ->
  forall c x y, has_comp (im_format dst) c = true -> in_image dst x y ->
  let cb := column_backend b (im_width dst) x in
  platform_pow sp sl cb ->
  forall light T d, T <= 10000 -> 0 <= d <= 100 ->
  let block := (x, y) :: chroma_block (sampling_of (im_format dst)) x y in
  (forall p, In p block -> holds_pq m src sps i T d light (fst p) (snd p) /\ RecolorProofs.within3 (light (fst p) (snd p)) T) ->
  exists l color : nat -> nat -> R * R * R,
    (forall p, In p block -> near_pq (light (fst p) (snd p)) ((16 + 27 * T) / 1000 + 14 * d) (l (fst p) (snd p)) (color (fst p) (snd p))) /\
    let ch c x y := channel c (color x y) in
    let t := ideal_level k (yc_full_range j) (im_format dst) (ch CR) (fun x y => written_green (yc_space j) (ch CG x y)) (ch CB) c x y in
    let hi := IZR (if (sample_bytes (im_format dst) =? 2)%nat then 65535 else 255) in
    (cb = AVX512 -> - (1 / 4) <= t <= hi + 1 / 4) ->
    exists z, stored (libm_of sp sl) b m src dst dps c x y = Some z /\ (0 <= z)%Z /\
      stored_for cb (IZR (max_level (im_format dst)) / 80000) (clamp hi t) z.
Proof.
  intros sp sl b m src sps dst dps i j k CVT LV FS FD CI S TI CJ WK SL c x y HC HI cb PL light T d T1 D block H.
  pose proof (accurate_lane sp sl cb PL) as A. assert (VS : valid_image src sps) by apply CVT.
  pose proof (converts_convertible _ _ _ _ _ _ _ CVT) as CT. set (L := lane_of (libm_of sp sl) cb) in *.
  pose proof (ictcp_kind src dst i j k CI CJ ltac:(rewrite S; reflexivity) WK) as SK.
  assert (TS : ci_transfer (im_color src) = TBT2100PQ) by (rewrite CI; exact TI).
  assert (EX : forall p, In p block -> exists lp : (R * R * R) * (R * R * R),
    near_pq (light (fst p) (snd p)) ((16 + 27 * T) / 1000 + 14 * d) (fst lp) (snd lp) /\
    pixel_approx 0 (recolored L (im_color src) (im_color dst) (source_pixel L m (im_format src) (im_color src) sps (fst p) (snd p)))
      (channel CR (snd lp)) (channel CG (snd lp)) (channel CB (snd lp))).
  { intros p HP. destruct (H p HP) as ((l' & m' & n' & HL & HM & HN & MX & TL & TM & TN & CN) & W). clear H.
    assert (HI' : in_image dst (fst p) (snd p)) by (eapply block_in_image; [apply CT|apply CT|exact HI|exact HP]).
    assert (HS : in_image src (fst p) (snd p)) by (unfold in_image in *; rewrite (cv_width _ _ _ _ CT), (cv_height _ _ _ _ CT); exact HI').
    destruct (light (fst p) (snd p)) as ((red, green), blue). unfold channel, fst3, snd3, thd3 in CN. cbn [fst snd] in CN. destruct W as (GR & GG & GB).
    destruct (source_light_pq L m src sps i (fst p) (snd p) A VS LV FS CI S TS HS l' m' n' red green blue T d HL HM HN MX T1 TL TM TN GR GG GB D CN)
      as (T0 & ((q1, q2), q3) & EP & ((N1 & A1) & (N2 & A2) & (N3 & A3))).
    rewrite EP. unfold recolored. rewrite SL. cbn [map3].
    pose proof (Rabs_le_inv _ _ A1) as R1. pose proof (Rabs_le_inv _ _ A2) as R2. pose proof (Rabs_le_inv _ _ A3) as R3.
    apply Rabs_le_inv in GR. apply Rabs_le_inv in GG. apply Rabs_le_inv in GB.
    destruct (pq_enc_far L q1 A N1 ltac:(lra)) as ((X1 & E1) & M1). destruct (pq_enc_far L q2 A N2 ltac:(lra)) as ((X2 & E2) & M2). destruct (pq_enc_far L q3 A N3 ltac:(lra)) as ((X3 & E3) & M3).
    exists ((fval q1, fval q2, fval q3), (fval (oetf L TBT2100PQ q1), fval (oetf L TBT2100PQ q2), fval (oetf L TBT2100PQ q3))). cbn [fst snd].
    split.
    - intros c' HC'. cbn [In comps] in HC'. unfold channel, fst3, snd3, thd3, pq_code. destruct HC' as [<- |[<- |[<- |[]]]]; cbn [fst snd]; (split; [eapply Rle_trans; [eassumption|lra]|assumption]).
    - unfold pixel_approx, channel, fst3, snd3, thd3. cbn [fst snd map3]. apply Rabs_le_inv in E1. apply Rabs_le_inv in E2. apply Rabs_le_inv in E3.
      split; [split; [apply exact_approx; exact X1|split; apply exact_approx; assumption]|split; [|split]; apply Rabs_le; lra]. }
  destruct (choose _ _ ((0, 0, 0), (0, 0, 0)) block EX) as (near & F).
  exists (fun x y => fst (near x y)), (fun x y => snd (near x y)). split; [intros p HP; apply (F p HP)|].
  intros ch t hi RG.
  destruct (colors_mixed sp sl b m src sps dst dps j k (fun x y => snd (near x y)) 0 CVT SK FD CJ WK ltac:(lra) c x y HC HI
    (fun p HP => proj2 (F p HP)) RG) as (z & ST & Z0 & SS).
  exists z. split; [exact ST|]. split; [exact Z0|]. eapply stored_for_weaken; [exact SS|].
  pose proof (max_level_R (im_format dst)). lra.
Qed.
Print Assumptions C77_pq_to_yuv_partial.

(** The linear light of a pixel with the PQ curve, in the primaries of the destination *)
Lemma lit_ictcp_pq : forall sp sl cb m src sps i pd x y light T d, let L := lane_of (libm_of sp sl) cb in accurate L ->
  valid_image src sps -> levels_ok m src sps -> sampling_of (im_format src) <> SRGB ->
  im_color src = CYUV i -> yc_space i = SpICtCpPQ -> yc_transfer i = TBT2100PQ -> in_image src x y ->
  T <= 8000 -> 0 <= d <= 100 -> recolor_error T d <= 2000 -> holds_pq m src sps i T d light x y -> RecolorProofs.within3 (light x y) T ->
  lit L m src sps pd x y (moved_light (ci_primaries (im_color src)) pd (channel CR (light x y)) (channel CG (light x y)) (channel CB (light x y))) (recolor_error T d - 1 / 1000).
Proof.
  intros sp sl cb m src sps i pd x y light T d L A VS LV FS CI S TI HS T1 D RE (l' & m' & n' & HL & HM & HN & MX & TL & TM & TN & CN) W.
  assert (TS : ci_transfer (im_color src) = TBT2100PQ) by (rewrite CI; exact TI).
  unfold lit. destruct (light x y) as ((red, green), blue). unfold channel, fst3, snd3, thd3 in *. cbn [fst snd] in *. destruct W as (GR & GG & GB).
  destruct (source_light_pq L m src sps i x y A VS LV FS CI S TS HS l' m' n' red green blue T d HL HM HN MX ltac:(lra) TL TM TN GR GG GB D CN) as (T0 & v & EP & F3).
  rewrite EP, TS. cbn [fst].
  destruct (light_again L (ci_primaries (im_color src)) pd v red green blue T d A ltac:(lra) D GR GG GB F3) as (F & FB).
  split; [exact F|]. destruct (moved_light (ci_primaries (im_color src)) pd red green blue) as ((p1, p2), p3). destruct FB as (B1 & B2 & B3).
  intros c HC. cbn [In comps] in HC. destruct HC as [<- |[<- |[<- |[]]]]; cbn [fst snd]; lra.
Qed.

(** ICtCp with the PQ curve to YUV with another transfer function.
    Missing: light outside of [darkest] .. 5/2 *)
Theorem C77_pq_to_other_yuv_partial : forall sp sl b m src sps dst dps i j k,
  converts (libm_of sp sl) b m src sps dst dps -> levels_ok m src sps ->
  sampling_of (im_format src) <> SRGB -> sampling_of (im_format dst) <> SRGB ->
  im_color src = CYUV i -> yc_space i = SpICtCpPQ -> yc_transfer i = TBT2100PQ ->
  im_color dst = CYUV j -> weights_of (yc_space j) = Some k ->
  let td := ci_transfer (im_color dst) in
  td <> TBT2100PQ ->
  forall c x y, has_comp (im_format dst) c = true -> in_image dst x y ->
  let cb := column_backend b (im_width dst) x in
  platform_pow sp sl cb ->
  forall light T d, T <= 8000 -> 0 <= d <= 100 -> recolor_error T d <= 2000 ->
  let block := (x, y) :: chroma_block (sampling_of (im_format dst)) x y in
  let e := recolor_error T d in
  let moved x y := moved_light (ci_primaries (im_color src)) (ci_primaries (im_color dst)) (channel CR (light x y)) (channel CG (light x y)) (channel CB (light x y)) in
  (forall p, In p block -> holds_pq m src sps i T d light (fst p) (snd p) /\ RecolorProofs.within3 (light (fst p) (snd p)) T /\
     forall c, In c comps -> darkest cb td - 1 / 2500 + e <= channel c (moved (fst p) (snd p)) <= 5 / 2 - e) ->
  exists near : nat -> nat -> R * R * R,
    (forall p c, In p block -> In c comps ->
       Rabs (channel c (near (fst p) (snd p)) - channel c (moved (fst p) (snd p))) <= e) /\
    let color c x y := encoded td (channel c (near x y)) in
    let t := ideal_level k (yc_full_range j) (im_format dst) (color CR) (fun x y => written_green (yc_space j) (color CG x y)) (color CB) c x y in
    let hi := IZR (if (sample_bytes (im_format dst) =? 2)%nat then 65535 else 255) in
    (cb = AVX512 -> - (1 / 4) <= t <= hi + 1 / 4) ->
    exists z, stored (libm_of sp sl) b m src dst dps c x y = Some z /\ (0 <= z)%Z /\
      stored_for cb (IZR (max_level (im_format dst)) / 50000) (clamp hi t) z.
Proof.
  intros sp sl b m src sps dst dps i j k CVT LV FS FD CI S TI CJ WK td TD c x y HC HI cb PL light T d T1 D RE block e moved H.
  pose proof (accurate_lane sp sl cb PL) as A. assert (VS : valid_image src sps) by apply CVT.
  pose proof (converts_convertible _ _ _ _ _ _ _ CVT) as CT.
  assert (SL : same_light (im_color src) (im_color dst) = false).
  { unfold same_light. fold td. rewrite CI. cbn [ci_transfer]. rewrite TI. destruct td; try reflexivity. congruence. }
  destruct (light_stored sp sl b m src sps dst dps j k moved (e - 1 / 1000) CVT SL FD CJ WK TD c x y HC HI A) as (near & N & R).
  { intros p HP. destruct (H p HP) as (HH & W & GM).
    assert (HI' : in_image dst (fst p) (snd p)) by (eapply block_in_image; [apply CT|apply CT|exact HI|exact HP]).
    assert (HS : in_image src (fst p) (snd p)) by (unfold in_image in *; rewrite (cv_width _ _ _ _ CT), (cv_height _ _ _ _ CT); exact HI').
    destruct (lit_ictcp_pq sp sl cb m src sps i (ci_primaries (im_color dst)) (fst p) (snd p) light T d A VS LV FS CI S TI HS T1 D RE HH W) as (LT & _).
    split; [exact LT|]. intros c' HC'. specialize (GM c' HC'). fold cb td. lra. }
  exists near. split; [|exact R]. intros p c' HP HC'. eapply Rle_trans; [exact (N p c' HP HC')|]. lra.
Qed.
Print Assumptions C77_pq_to_other_yuv_partial.

(** ICtCp with the PQ curve to YUV in PQ with other primaries *)
Theorem C77_pq_to_other_gamut_yuv_partial : forall sp sl b m src sps dst dps i j k,
  converts (libm_of sp sl) b m src sps dst dps -> levels_ok m src sps ->
  sampling_of (im_format src) <> SRGB -> sampling_of (im_format dst) <> SRGB ->
  im_color src = CYUV i -> yc_space i = SpICtCpPQ -> yc_transfer i = TBT2100PQ ->
  im_color dst = CYUV j -> weights_of (yc_space j) = Some k -> yc_transfer j = TBT2100PQ ->
  yc_primaries i <> yc_primaries j ->
  forall c x y, has_comp (im_format dst) c = true -> in_image dst x y ->
  let cb := column_backend b (im_width dst) x in
  platform_pow sp sl cb ->
  forall light T d, T <= 8000 -> 0 <= d <= 100 -> recolor_error T d <= 2000 ->
  let block := (x, y) :: chroma_block (sampling_of (im_format dst)) x y in
  let moved x y := moved_light (yc_primaries i) (yc_primaries j) (channel CR (light x y)) (channel CG (light x y)) (channel CB (light x y)) in
  (forall p, In p block -> holds_pq m src sps i T d light (fst p) (snd p) /\ RecolorProofs.within3 (light (fst p) (snd p)) T) ->
  exists l color : nat -> nat -> R * R * R,
    (forall p, In p block -> near_pq (moved (fst p) (snd p)) (recolor_error T d) (l (fst p) (snd p)) (color (fst p) (snd p))) /\
    let ch c x y := channel c (color x y) in
    let t := ideal_level k (yc_full_range j) (im_format dst) (ch CR) (fun x y => written_green (yc_space j) (ch CG x y)) (ch CB) c x y in
    let hi := IZR (if (sample_bytes (im_format dst) =? 2)%nat then 65535 else 255) in
    (cb = AVX512 -> - (1 / 4) <= t <= hi + 1 / 4) ->
    exists z, stored (libm_of sp sl) b m src dst dps c x y = Some z /\ (0 <= z)%Z /\
      stored_for cb (IZR (max_level (im_format dst)) / 80000) (clamp hi t) z.
Proof.
  intros sp sl b m src sps dst dps i j k CVT LV FS FD CI S TI CJ WK TJ PD c x y HC HI cb PL light T d T1 D RE block moved H.
  pose proof (accurate_lane sp sl cb PL) as A. assert (VS : valid_image src sps) by apply CVT.
  pose proof (converts_convertible _ _ _ _ _ _ _ CVT) as CT.
  assert (SL : same_light (im_color src) (im_color dst) = false).
  { unfold same_light. apply andb_false_iff. right. rewrite CI, CJ. cbn [ci_primaries]. destruct (yc_primaries i), (yc_primaries j); try reflexivity; congruence. }
  destruct (lit_yuv sp sl b m src sps dst dps j k moved (fun _ _ => recolor_error T d - 1 / 1000) CVT SL FD CJ WK TJ c x y HC HI A) as (l & color & N & R).
  { intros p HP. destruct (H p HP) as (HH & W).
    assert (HI' : in_image dst (fst p) (snd p)) by (eapply block_in_image; [apply CT|apply CT|exact HI|exact HP]).
    assert (HS : in_image src (fst p) (snd p)) by (unfold in_image in *; rewrite (cv_width _ _ _ _ CT), (cv_height _ _ _ _ CT); exact HI').
    pose proof (lit_ictcp_pq sp sl cb m src sps i (ci_primaries (im_color dst)) (fst p) (snd p) light T d A VS LV FS CI S TI HS T1 D RE HH W) as LT.
    assert (P1 : yc_primaries i = ci_primaries (im_color src)) by (rewrite CI; reflexivity).
    assert (P2 : yc_primaries j = ci_primaries (im_color dst)) by (rewrite CJ; reflexivity).
    unfold moved. rewrite P1, P2. exact LT. }
  exists l, color. split; [|exact R]. intros p HP c' HC'. destruct (N p HP c' HC') as (N1 & N2). split; [eapply Rle_trans; [exact N1|lra]|exact N2].
Qed.
Print Assumptions C77_pq_to_other_gamut_yuv_partial.

(** The gray of [C77_example] and that of [C77_recolor_example] in I420, converted to YUV *)
Definition gray_yuv (i : yuv_color_info) : image := ex_image I420 2 2 (CYUV i) (ex_yuv_planes 0).
Definition yuv_of (t : color_transfer) (p : color_primaries) : image := ex_image I420 2 2 (CYUV (YuvCI t p SpBT709 false)) (ex_yuv_planes 1).
Definition even (v : R) : nat -> nat -> R * R * R := fun _ _ => (v, v, v).

Lemma gray_levels : forall g y i x y', (x < 2)%nat -> (y' < 2)%nat ->
  let mm : mem := fun b n => if (n <? 4)%nat then y else 128%Z in
  g = gray_yuv i -> yc_full_range i = false ->
  y_at mm g (ex_yuv_planes 0) i x y' = (IZR y - 16) / 219 /\ u_at mm g (ex_yuv_planes 0) i x y' = 0 /\ v_at mm g (ex_yuv_planes 0) i x y' = 0.
Proof.
  intros g y i x y' X Y mm -> FR. unfold y_at, u_at, v_at, level_y, level_c. rewrite FR.
  destruct x as [|[|]]; [| |lia]; (destruct y' as [|[|]]; [| |lia]);
    match goal with |- context [level mm ?f ?p CY ?a ?b] =>
      change (level mm f p CY a b) with (IZR y); change (level mm f p CU a b) with 128; change (level mm f p CV a b) with 128; change (IZR (max_level f)) with 255 end;
    (repeat split); lra.
Qed.

Example C77_yuv_example : forall b, let lm := libm_of avx_pow avx_log in
  let gray := gray_yuv gray_ci in
  let dusk := gray_yuv gray_pq_ci in
  let l := 84 / 219 in
  let light := l * l / 3 in
  let q := 24 / 219 in
  converts lm b gray_mem gray (ex_yuv_planes 0) (yuv_of TSRGB PrBT2020) (ex_yuv_planes 1) /\
  converts lm b gray_mem gray (ex_yuv_planes 0) (yuv_of TSRGB PrBT709) (ex_yuv_planes 1) /\
  converts lm b gray_mem gray (ex_yuv_planes 0) (yuv_of TBT2100PQ PrBT709) (ex_yuv_planes 1) /\
  converts lm b dusk_mem dusk (ex_yuv_planes 0) (yuv_of TBT2100PQ PrBT2020) (ex_yuv_planes 1) /\
  converts lm b dusk_mem dusk (ex_yuv_planes 0) (yuv_of TBT2100PQ PrBT709) (ex_yuv_planes 1) /\
  converts lm b dusk_mem dusk (ex_yuv_planes 0) (yuv_of TSRGB PrBT709) (ex_yuv_planes 1) /\
  levels_ok gray_mem gray (ex_yuv_planes 0) /\ levels_ok dusk_mem dusk (ex_yuv_planes 0) /\ (forall cb, platform_pow avx_pow avx_log cb) /\
  restores (ci_transfer (im_color gray)) /\ recolor_error 1 (1 / 7000) <= 1 / 5 /\
  (forall x y, in_image gray x y -> holds_hlg gray_mem gray (ex_yuv_planes 0) gray_ci (1 / 200000) (even light) x y /\ 0 <= light <= 1) /\
  (forall x y, in_image dusk x y -> holds_pq dusk_mem dusk (ex_yuv_planes 0) gray_pq_ci 1 (1 / 7000) (even (pq_decode q)) x y /\ 0 <= pq_decode q <= 1) /\
  map (fun c => stored lm b gray_mem gray (yuv_of TSRGB PrBT2020) (ex_yuv_planes 1) c 1 1) [CY] = [Some 69]%Z /\
  map (fun c => stored lm b dusk_mem dusk (yuv_of TBT2100PQ PrBT2020) (ex_yuv_planes 1) c 1 1) [CY] = [Some 39]%Z.
Proof.
  intros b lm gray dusk l light q. unfold lm.
  split; [ex_converts b|]. split; [ex_converts b|]. split; [ex_converts b|]. split; [ex_converts b|]. split; [ex_converts b|]. split; [ex_converts b|].
  split; [apply bytes_levels; [|reflexivity]; intros b' i; unfold gray_mem; destruct (i <? 4)%nat; lia|].
  split; [apply bytes_levels; [|reflexivity]; intros b' i; unfold dusk_mem; destruct (i <? 4)%nat; lia|].
  split; [intros cb _; split; [exact avx_pow_ok|split; [exact (log_contract avx_log avx_log_ok)|exact avx_pow_negative]]|].
  split; [right; left; reflexivity|]. split; [unfold recolor_error; lra|].
  split.
  { intros x y (X & Y). split; [|unfold light, l; lra]. destruct (C77_example b) as (_ & _ & _ & _ & _ & HL & _ & CN & _). fold l in HL, CN. fold light in CN.
    destruct (gray_levels gray 100 gray_ci x y X Y eq_refl eq_refl) as (EY & EU & EV).
    exists l, l, l. split; [exact HL|]. split; [exact HL|]. split; [exact HL|]. split; [|exact CN].
    change gray_mem with (fun (_ : nat) n => if (n <? 4)%nat then 100%Z else 128%Z). rewrite EY, EU, EV. unfold ictcp_hlg, l. apply f_equal2; [apply f_equal2|]; lra. }
  split.
  { intros x y (X & Y). pose proof pq_dusk as G. split; [|exact G]. destruct (C77_recolor_example b) as (_ & _ & _ & _ & _ & HL & _ & _ & CN & _). fold q in HL, CN.
    destruct (gray_levels dusk 40 gray_pq_ci x y X Y eq_refl eq_refl) as (EY & EU & EV).
    exists q, q, q. split; [exact HL|]. split; [exact HL|]. split; [exact HL|]. split; [|split; [apply G|split; [apply G|split; [apply G|exact CN]]]].
    change dusk_mem with (fun (_ : nat) n => if (n <? 4)%nat then 40%Z else 128%Z). rewrite EY, EU, EV. unfold ictcp_pq, q. apply f_equal2; [apply f_equal2|]; lra. }
  split; [narrow b (ex_yuv_planes 0)|narrow b (ex_yuv_planes 0)].
Qed.
