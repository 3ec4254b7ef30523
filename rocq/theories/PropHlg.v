(** C79 and C80 for HLG images: YUV colors above 1 are light of far more than 1. *)

From Coq Require Import List ZArith Bool Arith Reals Lia Lra Psatz.
From Coq Require Import Floats.SpecFloat.
From Flocq Require Import Core.
From Verif Require Import Base Types Planes ImageM F32 Vector Simd SpecVector SimdProofs QuantProofs SpecGeom GeomProofs
  SpecColor SpecConvert SpecRun Formats Visit Convert VisitProofs ColorProofs ConvertProofs ExactProofs PropConvert PropFidelity
  SpecReal FloatProofs AccProofs TargetProofs PropColor ColorR SpecTransfer PowerProofs MathProofs SpecMath LaneProofs TransferProofs
  Math NegProofs RecolorProofs PropRecolor GamutProofs PropGamut GrayProofs PropGray PropDrift PropBT2020 PropOut PropToPQ IctcpProofs
  WideProofs PropWide PqProofs PropFromPQ PqEncProofs PropPQ HlgProofs.
Import ListNotations.
Local Open Scope R_scope.

(** The brightest channel of a color of an HLG image *)
Definition hlg_peak (r g b : R) : R :=
  Rmax (decoded_all TBT2100HLG r) (Rmax (decoded_all TBT2100HLG g) (decoded_all TBT2100HLG b)).

(** Accuracy of the light that is stored: a thousandth of the brightest channel *)
Definition hlg_error (r g b : R) : R := (1 + hlg_peak r g b) / 1000.

Lemma hlg_lit : forall sp sl cb m src sps i k pd x y, let L := lane_of (libm_of sp sl) cb in
  accurate L -> valid_image src sps -> levels_ok m src sps -> sampling_of (im_format src) <> SRGB ->
  im_color src = CYUV i -> weights_of (yc_space i) = Some k -> ci_transfer (im_color src) = TBT2100HLG -> in_image src x y ->
  let s c := read_at k m src sps i c x y in
  let light := light_all TBT2100HLG (ci_primaries (im_color src)) pd (s CR) (s CG) (s CB) in
  let P := hlg_peak (s CR) (s CG) (s CB) in
  lit L m src sps pd x y light (783 / 1000000 * (1 + P)) /\ 0 <= P <= 2400 /\
  (forall c, In c comps -> - (79 / 100) * P <= channel c light <= 179 / 100 * P).
Proof.
  intros sp sl cb m src sps i k pd x y L A V LV FS CI W TS HI s light P.
  assert (RG : forall c, In c comps -> - (6 / 5) <= s c <= 11 / 5) by (intros c HC; apply (C80_color_range m src sps i k V LV FS W c x y HC HI)).
  pose proof (RG CR ltac:(cbn; auto)) as RR. pose proof (RG CG ltac:(cbn; auto)) as RG'. pose proof (RG CB ltac:(cbn; auto)) as RB. clear RG.
  pose proof (pq_yuv_levels m src sps x y L i k V LV FS HI CI W) as AP. cbv zeta in AP. fold (s CR) (s CG) (s CB) in AP.
  unfold lit. rewrite TS.
  destruct (source_pixel L m (im_format src) (im_color src) sps x y) as (q, al). cbn [fst snd] in *.
  destruct q as ((qr, qg), qb). destruct AP as (AR & AG & AB).
  destruct (hlg_dec_far sp sl cb qr (s CR) A AR RR) as (DR & BR). destruct (hlg_dec_far sp sl cb qg (s CG) A AG RG') as (DG & BG).
  destruct (hlg_dec_far sp sl cb qb (s CB) A AB RB) as (DB & BB).
  unfold light, light_all, P, hlg_peak, decoded_all. cbn [decoded]. clear light P.
  fold L in DR, DG, DB. clearbody s. clear AR AG AB RR RG' RB.
  set (vr := hlg_decode (Rmax 0 (s CR))) in *. set (vg := hlg_decode (Rmax 0 (s CG))) in *. set (vb := hlg_decode (Rmax 0 (s CB))) in *.
  clearbody vr vg vb. set (P := Rmax vr (Rmax vg vb)).
  assert (PG : vr <= P /\ vg <= P /\ vb <= P).
  { unfold P. pose proof (Rmax_l vr (Rmax vg vb)). pose proof (Rmax_r vr (Rmax vg vb)). pose proof (Rmax_l vg vb). pose proof (Rmax_r vg vb). lra. }
  assert (PB : 0 <= P <= 2400) by (split; [lra|]; unfold P; repeat apply Rmax_lub; lra). clearbody P.
  set (e := 3 / 10000 * (1 + P)). set (w := (vr, vg, vb)).
  assert (W1 : between3 0 P w) by (split; [|split]; lra).
  assert (W2 : between3 0 (1 + P) w) by (split; [|split]; lra).
  assert (D3 : approx3 (map3 (eotf L TBT2100HLG) (qr, qg, qb)) w e) by (split; [|split]; (eapply approx_le; [eassumption|unfold e; lra])).
  pose proof (light_scaled (1 + P) (ci_primaries (im_color src)) pd _ w e ltac:(lra) D3 W2 ltac:(unfold e; lra)) as F3.
  pose proof (linear_wide (ci_primaries (im_color src)) pd 0 P w ltac:(lra) ltac:(lra) W1) as FB.
  destruct (from_xyz pd (to_xyz _ (map3 (eotf L TBT2100HLG) (qr, qg, qb)))) as ((q1, q2), q3).
  destruct (from_xyz pd (to_xyz (ci_primaries (im_color src)) w)) as ((p1, p2), p3).
  destruct F3 as (Q1 & Q2 & Q3). destruct FB as (P1 & P2 & P3). clear DR DG DB D3 W1 W2.
  split; [split|split; [exact PB|]].
  - split; [|split]; (eapply approx_le; [eassumption|unfold e; lra]).
  - intros c HC. unfold channel, fst3, snd3, thd3. cbn [In comps] in HC. destruct HC as [<- |[<- |[<- |[]]]]; cbn [fst snd]; lra.
  - intros c HC. unfold channel, fst3, snd3, thd3. cbn [In comps] in HC. destruct HC as [<- |[<- |[<- |[]]]]; cbn [fst snd]; lra.
Qed.

(** YUV images with the HLG curve to RGB with another curve or other primaries,
    whatever the samples are.
    Missing: linear destinations where the light reaches 128; there the code
    stores 0 with AVX2 and AVX-512 (C66_pq_linear_refuted). *)
Theorem C80_hlg_to_rgb_partial : forall sp sl b m src sps dst dps i k,
  converts (libm_of sp sl) b m src sps dst dps -> levels_ok m src sps ->
  sampling_of (im_format src) <> SRGB -> sampling_of (im_format dst) = SRGB ->
  im_color src = CYUV i -> weights_of (yc_space i) = Some k ->
  same_light (im_color src) (im_color dst) = false ->
  let td := ci_transfer (im_color dst) in
  ci_transfer (im_color src) = TBT2100HLG -> td <> TBT2100PQ ->
  forall c x y, In c comps -> in_image dst x y ->
  let cb := column_backend b (im_width dst) x in
  platform_pow sp sl cb ->
  let s c := read_at k m src sps i c x y in
  let exact := channel c (light_all TBT2100HLG (ci_primaries (im_color src)) (ci_primaries (im_color dst)) (s CR) (s CG) (s CB)) in
  let error := hlg_error (s CR) (s CG) (s CB) in
  (td = TLinear -> exact + error <= 128) ->
  exists z light, stored (libm_of sp sl) b m src dst dps c x y = Some z /\ (0 <= z <= 255)%Z /\
    Rabs (light - exact) <= error /\
    stored_for cb (255 * (6 / 1000000)) (clamp 255 (255 * encoded td (Rmax 0 light))) z.
Proof.
  intros sp sl b m src sps dst dps i k CVT LV FS FD CI WK SL td TS TD c x y HC HI cb PL s exact error LI.
  pose proof (light_kind _ _ SL) as SK. pose proof (converts_convertible _ _ _ _ _ _ _ CVT) as CT.
  assert (VS : valid_image src sps) by apply CVT.
  assert (HS : in_image src x y) by (unfold in_image in *; rewrite (cv_width _ _ _ _ CT), (cv_height _ _ _ _ CT); exact HI).
  assert (HD : has_comp (im_format dst) c = true) by (unfold has_comp; rewrite FD; cbn [In comps] in HC; intuition (subst; reflexivity)).
  assert (ICT : ictcp_chroma420 (im_format dst) (im_color dst) c = false) by (unfold ictcp_chroma420; rewrite FD; reflexivity).
  rewrite (stored_expected _ _ _ _ _ _ _ CVT c x y HD HI ICT). fold cb. set (L := lane_of (libm_of sp sl) cb).
  pose proof (accurate_lane sp sl cb PL) as A. fold L in A.
  assert (PN : pow_negative (l_pow L)) by (apply lane_negative; intros E; apply PL, E).
  destruct (hlg_lit sp sl cb m src sps i k (ci_primaries (im_color dst)) x y A VS LV FS CI WK TS HS) as ((F3 & _) & PB & FB).
  specialize (FB c HC). cbv beta in F3, PB, FB. fold (s CR) (s CG) (s CB) in F3, PB, FB. fold exact in FB. fold L in F3.
  unfold error, hlg_error in *. set (P := hlg_peak (s CR) (s CG) (s CB)) in *. clearbody P. clear error.
  assert (XE : exact = channel c (light_all TBT2100HLG (ci_primaries (im_color src)) (ci_primaries (im_color dst)) (s CR) (s CG) (s CB))) by reflexivity.
  clearbody exact. rewrite TS in F3.
  unfold expected_value. rewrite SK. unfold target. rewrite FD. unfold recolored. rewrite SL, TS.
  destruct (source_pixel L m (im_format src) (im_color src) sps x y) as (q, al). cbn [fst snd] in *. unfold recolor. fold td.
  destruct (from_xyz (ci_primaries (im_color dst)) (to_xyz (ci_primaries (im_color src)) (map3 (eotf L TBT2100HLG) q))) as ((q1, q2), q3).
  destruct (light_all TBT2100HLG _ _ _ _ _) as ((p1, p2), p3).
  destruct F3 as (Q1 & Q2 & Q3).
  assert (END : forall q, approx q exact (783 / 1000000 * (1 + P)) ->
    exists z light, Some (quantise (quant_of cb) (im_format dst) (oetf L td q)) = Some z /\ (0 <= z <= 255)%Z /\
      Rabs (light - exact) <= (1 + P) / 1000 /\ stored_for cb (255 * (6 / 1000000)) (clamp 255 (255 * encoded td (Rmax 0 light))) z).
  { intros q' (NQ & EQ). apply Rabs_le_inv in EQ. clear Q1 Q2 Q3 XE.
    destruct (store_far L cb (im_format dst) td q' A PN TD FD NQ ltac:(lra)) as (X & EX & ST & ZB).
    { intros EL. specialize (LI EL). lra. }
    exists (quantise (quant_of cb) (im_format dst) (oetf L td q')), X. split; [reflexivity|]. split; [exact ZB|]. apply Rabs_le_inv in EX.
    split; [apply Rabs_le; lra|]. eapply stored_for_weaken; [exact ST|lra]. }
  cbn [In comps] in HC. cbn [map3 fst3 snd3 thd3]. unfold channel, fst3, snd3, thd3 in XE.
  destruct HC as [<- |[<- |[<- |[]]]]; cbn [fst snd] in *; apply END; rewrite XE; assumption.
Qed.
Print Assumptions C80_hlg_to_rgb_partial.

(** The same to YUV.  Missing: light below [darkest] or above 12/5 *)
Theorem C80_hlg_to_yuv_partial : forall sp sl b m src sps dst dps is ks id kd,
  converts (libm_of sp sl) b m src sps dst dps -> levels_ok m src sps ->
  sampling_of (im_format src) <> SRGB -> sampling_of (im_format dst) <> SRGB ->
  im_color src = CYUV is -> weights_of (yc_space is) = Some ks ->
  im_color dst = CYUV id -> weights_of (yc_space id) = Some kd ->
  same_light (im_color src) (im_color dst) = false ->
  let td := ci_transfer (im_color dst) in
  ci_transfer (im_color src) = TBT2100HLG -> td <> TBT2100PQ ->
  forall c x y, has_comp (im_format dst) c = true -> in_image dst x y ->
  let cb := column_backend b (im_width dst) x in
  platform_pow sp sl cb ->
  let s := read_at ks m src sps is in
  let light x y := light_all TBT2100HLG (ci_primaries (im_color src)) (ci_primaries (im_color dst)) (s CR x y) (s CG x y) (s CB x y) in
  let block := (x, y) :: chroma_block (sampling_of (im_format dst)) x y in
  (forall p c, In p block -> In c comps ->
     hlg_peak (s CR (fst p) (snd p)) (s CG (fst p) (snd p)) (s CB (fst p) (snd p)) <= 5 /\
     darkest cb td + 5 / 1000 <= channel c (light (fst p) (snd p)) <= 12 / 5) ->
  exists near : nat -> nat -> R * R * R,
    (forall p c, In p block -> In c comps ->
       Rabs (channel c (near (fst p) (snd p)) - channel c (light (fst p) (snd p))) <= 5 / 1000) /\
    let color c x y := encoded td (channel c (near x y)) in
    let t := ideal_level kd (yc_full_range id) (im_format dst) (color CR) (fun x y => written_green (yc_space id) (color CG x y)) (color CB) c x y in
    let hi := IZR (if (sample_bytes (im_format dst) =? 2)%nat then 65535 else 255) in
    (cb = AVX512 -> - (1 / 4) <= t <= hi + 1 / 4) ->
    exists z, stored (libm_of sp sl) b m src dst dps c x y = Some z /\ (0 <= z)%Z /\
      stored_for cb (IZR (max_level (im_format dst)) / 50000) (clamp hi t) z.
Proof.
  intros sp sl b m src sps dst dps is ks id kd CVT LV FS FD CI WS CID WK SL td TS TD c x y HC HI cb PL s light block GM.
  pose proof (accurate_lane sp sl cb PL) as A. assert (VS : valid_image src sps) by apply CVT.
  pose proof (converts_convertible _ _ _ _ _ _ _ CVT) as CT.
  destruct (light_stored sp sl b m src sps dst dps id kd light (475 / 100000) CVT SL FD CID WK TD c x y HC HI A) as (near & N & R).
  { intros p HP.
    assert (HI' : in_image dst (fst p) (snd p)) by (eapply block_in_image; [apply CT|apply CT|exact HI|exact HP]).
    assert (HS : in_image src (fst p) (snd p)) by (unfold in_image in *; rewrite (cv_width _ _ _ _ CT), (cv_height _ _ _ _ CT); exact HI').
    destruct (hlg_lit sp sl cb m src sps is ks (ci_primaries (im_color dst)) (fst p) (snd p) A VS LV FS CI WS TS HS) as ((F3 & _) & PB & _).
    cbv beta in F3, PB. pose proof (proj1 (GM p CR HP ltac:(cbn; auto))) as PM. unfold s in PM. split.
    - rewrite TS in F3 |- *. unfold light, s. fold cb.
      destruct (from_xyz (ci_primaries (im_color dst)) (to_xyz _ (map3 _ _))) as ((q1, q2), q3).
      destruct (light_all TBT2100HLG _ _ _ _ _) as ((p1, p2), p3). destruct F3 as (F1 & F2 & F3).
      split; [|split]; (eapply approx_le; [eassumption|lra]).
    - intros c' HC'. pose proof (proj2 (GM p c' HP HC')). fold cb td. lra. }
  exists near. split; [|exact R]. intros p c' HP HC'. eapply Rle_trans; [exact (N p c' HP HC')|]. lra.
Qed.
Print Assumptions C80_hlg_to_yuv_partial.

(** To RGB with the PQ curve: whatever the samples are *)
Theorem C79_hlg_to_rgb : forall sp sl b m src sps dst dps i k,
  converts (libm_of sp sl) b m src sps dst dps -> levels_ok m src sps ->
  sampling_of (im_format src) <> SRGB -> sampling_of (im_format dst) = SRGB ->
  im_color src = CYUV i -> weights_of (yc_space i) = Some k ->
  ci_transfer (im_color src) = TBT2100HLG -> ci_transfer (im_color dst) = TBT2100PQ ->
  forall c x y, In c comps -> in_image dst x y ->
  let cb := column_backend b (im_width dst) x in
  platform_pow sp sl cb ->
  let s c := read_at k m src sps i c x y in
  let exact := channel c (light_all TBT2100HLG (ci_primaries (im_color src)) (ci_primaries (im_color dst)) (s CR) (s CG) (s CB)) in
  exists z light, stored (libm_of sp sl) b m src dst dps c x y = Some z /\ Rabs (light - exact) <= hlg_error (s CR) (s CG) (s CB) /\
    stored_for cb (1 / 15) (clamp 255 (255 * pq_code light)) z.
Proof.
  intros sp sl b m src sps dst dps i k CVT LV FS FD CI WS TS TD c x y HC HI cb PL s exact.
  pose proof (accurate_lane sp sl cb PL) as A. assert (VS : valid_image src sps) by apply CVT.
  pose proof (converts_convertible _ _ _ _ _ _ _ CVT) as CT.
  assert (SL : same_light (im_color src) (im_color dst) = false) by (unfold same_light; rewrite TS, TD; reflexivity).
  assert (HS : in_image src x y) by (unfold in_image in *; rewrite (cv_width _ _ _ _ CT), (cv_height _ _ _ _ CT); exact HI).
  destruct (hlg_lit sp sl cb m src sps i k (ci_primaries (im_color dst)) x y A VS LV FS CI WS TS HS) as (LT & PB & _). cbv beta in LT, PB.
  fold (s CR) (s CG) (s CB) in LT, PB.
  destruct (lit_rgb sp sl b m src sps dst dps _ _ CVT SL FD TD c x y HC HI A LT) as (z & l & ST & LE & SF).
  exists z, l. split; [exact ST|]. split; [|exact SF]. eapply Rle_trans; [exact LE|]. unfold hlg_error. lra.
Qed.
Print Assumptions C79_hlg_to_rgb.

(** To YUV with the PQ curve: whatever the samples are *)
Theorem C79_hlg_to_yuv : forall sp sl b m src sps dst dps is ks id kd,
  converts (libm_of sp sl) b m src sps dst dps -> levels_ok m src sps ->
  sampling_of (im_format src) <> SRGB -> sampling_of (im_format dst) <> SRGB ->
  im_color src = CYUV is -> weights_of (yc_space is) = Some ks ->
  im_color dst = CYUV id -> weights_of (yc_space id) = Some kd ->
  ci_transfer (im_color src) = TBT2100HLG -> yc_transfer id = TBT2100PQ ->
  forall c x y, has_comp (im_format dst) c = true -> in_image dst x y ->
  let cb := column_backend b (im_width dst) x in
  platform_pow sp sl cb ->
  let s := read_at ks m src sps is in
  let light x y := light_all TBT2100HLG (ci_primaries (im_color src)) (ci_primaries (im_color dst)) (s CR x y) (s CG x y) (s CB x y) in
  let error x y := hlg_error (s CR x y) (s CG x y) (s CB x y) in
  let block := (x, y) :: chroma_block (sampling_of (im_format dst)) x y in
  exists l color : nat -> nat -> R * R * R,
    (forall p, In p block -> near_pq (light (fst p) (snd p)) (error (fst p) (snd p)) (l (fst p) (snd p)) (color (fst p) (snd p))) /\
    let ch c x y := channel c (color x y) in
    let t := ideal_level kd (yc_full_range id) (im_format dst) (ch CR) (fun x y => written_green (yc_space id) (ch CG x y)) (ch CB) c x y in
    let hi := IZR (if (sample_bytes (im_format dst) =? 2)%nat then 65535 else 255) in
    (cb = AVX512 -> - (1 / 4) <= t <= hi + 1 / 4) ->
    exists z, stored (libm_of sp sl) b m src dst dps c x y = Some z /\ (0 <= z)%Z /\
      stored_for cb (IZR (max_level (im_format dst)) / 80000) (clamp hi t) z.
Proof.
  intros sp sl b m src sps dst dps is ks id kd CVT LV FS FD CI WS CID WK TS TD c x y HC HI cb PL s light error block.
  pose proof (accurate_lane sp sl cb PL) as A. assert (VS : valid_image src sps) by apply CVT.
  pose proof (converts_convertible _ _ _ _ _ _ _ CVT) as CT.
  assert (TD' : ci_transfer (im_color dst) = TBT2100PQ) by (rewrite CID; exact TD).
  assert (SL : same_light (im_color src) (im_color dst) = false) by (unfold same_light; rewrite TS, TD'; reflexivity).
  apply (lit_yuv sp sl b m src sps dst dps id kd light error CVT SL FD CID WK TD c x y HC HI A).
  intros p HP.
  assert (HI' : in_image dst (fst p) (snd p)) by (eapply block_in_image; [apply CT|apply CT|exact HI|exact HP]).
  assert (HS : in_image src (fst p) (snd p)) by (unfold in_image in *; rewrite (cv_width _ _ _ _ CT), (cv_height _ _ _ _ CT); exact HI').
  destruct (hlg_lit sp sl cb m src sps is ks (ci_primaries (im_color dst)) (fst p) (snd p) A VS LV FS CI WS TS HS) as ((F3 & UP) & PB & FB).
  cbv beta in F3, UP, PB, FB. unfold light, error, hlg_error, s. clear light error.
  set (P := hlg_peak _ _ _) in *. clearbody P. split.
  - destruct (from_xyz (ci_primaries (im_color dst)) (to_xyz _ (map3 _ _))) as ((q1, q2), q3).
    destruct (light_all TBT2100HLG _ _ _ _ _) as ((p1, p2), p3). destruct F3 as (F1 & F2 & F3).
    split; [|split]; (eapply approx_le; [eassumption|lra]).
  - intros c' HC'. specialize (FB c' HC'). lra.
Qed.
Print Assumptions C79_hlg_to_yuv.

(** A 2x2 image of orange and red light: the color is (1.06, 0.80, 0.87) *)
Definition glow_mem : mem := fun b i => if i <? 4 then 220%Z else if i <? 5 then 129%Z else 160%Z.
Definition glow_info : yuv_color_info := YuvCI TBT2100HLG PrBT709 SpBT709 true.
Definition glow : image := ex_image I420 2 2 (CYUV glow_info) (ex_yuv_planes 0).
Definition glow_rgb (t : color_transfer) : image := ex_image RGBA 2 2 (CRGB t PrBT2020) (ex_rgba_planes 1).
Definition glow_yuv (t : color_transfer) : image := ex_image I420 2 2 (CYUV (YuvCI t PrBT2020 SpBT709 true)) (ex_yuv_planes 1).

Example C80_hlg_example : forall b, let lm := libm_of avx_pow avx_log in
  (forall t, t = TLinear \/ t = TBT2100PQ -> converts lm b glow_mem glow (ex_yuv_planes 0) (glow_rgb t) (ex_rgba_planes 1)) /\
  (forall t, t = TLinear \/ t = TBT2100PQ -> converts lm b glow_mem glow (ex_yuv_planes 0) (glow_yuv t) (ex_yuv_planes 1)) /\ levels_ok glow_mem glow (ex_yuv_planes 0) /\
  (forall x y, in_image glow x y -> let s c := read_at bt709 glow_mem glow (ex_yuv_planes 0) glow_info c x y in
     106 / 100 < s CR < 107 / 100 /\ hlg_peak (s CR) (s CG) (s CB) <= 5 /\
     forall c, In c comps ->
       darkest Scalar TLinear + 5 / 1000 <= channel c (light_all TBT2100HLG PrBT709 PrBT2020 (s CR) (s CG) (s CB)) <= 12 / 5) /\
  map (fun c => stored lm b glow_mem glow (glow_rgb TLinear) (ex_rgba_planes 1) c 1 1) comps = [Some 255; Some 107; Some 129]%Z /\
  map (fun c => stored lm b glow_mem glow (glow_rgb TBT2100PQ) (ex_rgba_planes 1) c 1 1) comps = [Some 38; Some 28; Some 30]%Z /\
  map (fun c => stored lm b glow_mem glow (glow_yuv TLinear) (ex_yuv_planes 1) c 1 1) [CY; CU; CV] = [Some 141; Some 120; Some 203]%Z /\
  map (fun c => stored lm b glow_mem glow (glow_yuv TBT2100PQ) (ex_yuv_planes 1) c 1 1) [CY; CU; CV] = [Some 30; Some 127; Some 132]%Z.
Proof.
  intros b lm. split; [intros t [-> | ->]; unfold lm; ex_converts b|]. split; [intros t [-> | ->]; unfold lm; ex_converts b|]. split; [apply bytes_levels; [|reflexivity]|].
  { intros bf j. unfold glow_mem. destruct (j <? 4)%nat, (j <? 5)%nat; lia. }
  split.
  { intros x y (HX & HY) s. cbn in HX, HY.
    assert (X : (x = 0 \/ x = 1)%nat) by lia. assert (Y : (y = 0 \/ y = 1)%nat) by lia.
    assert (E : 106 / 100 < s CR < 107 / 100 /\ 80 / 100 < s CG < 81 / 100 /\ 86 / 100 < s CB < 88 / 100).
    { unfold s, read_at, y_at, u_at, v_at, level.
      destruct X as [-> | ->], Y as [-> | ->];
      (repeat match goal with |- context [component ?m ?f ?p ?c ?x ?y] => let v := eval vm_compute in (component m f p c x y) in change (component m f p c x y) with v end);
      cbn [im_format glow ex_image yc_full_range yc_space glow_info read_green];
      unfold green, red, blue, level_y, level_c, w_g, bt709; cbn [w_r w_b]; change (IZR (max_level I420)) with 255; lra. }
    clearbody s. destruct E as (ER & EG & EB). split; [lra|].
    assert (D : forall v, 0 <= v <= 107 / 100 -> 0 <= decoded_all TBT2100HLG v <= 2).
    { intros v B. unfold decoded_all. cbn [decoded]. rewrite Rmax_right by lra. unfold hlg_decode. destruct (Rle_dec v (1 / 2)); [nra|].
      match goal with |- context [power e' ?q] => set (w := q); assert (W : w <= 29 / 10) end.
      { apply Rmult_le_reg_r with ha; [unfold ha; lra|]. unfold w. replace ((v - hc) / ha * ha) with (v - hc) by (unfold ha; field). unfold ha, hc. lra. }
      pose proof (power_ge0 e' w) as P0. assert (P1 : power e' w <= 22).
      { apply Rle_trans with (power e' (29 / 10)).
        - rewrite !power_pos by (unfold e'; lra). apply Rle_Rpower; [unfold e'; lra|exact W].
        - left. apply (power_below _ _ _ 29 10); unfold e'; simpl; lra. }
      unfold hb. lra. }
    pose proof (D (s CR) ltac:(lra)) as DR. pose proof (D (s CG) ltac:(lra)) as DG. pose proof (D (s CB) ltac:(lra)) as DB.
    split; [unfold hlg_peak; repeat apply Rmax_lub; lra|]. intros c HC. cbn [darkest]. unfold light_all.
    set (vr := decoded_all _ (s CR)) in *. set (vg := decoded_all _ (s CG)) in *. set (vb := decoded_all _ (s CB)) in *. clearbody vr vg vb. clear D.
    cbn [to_xyz from_xyz]. unfold channel, fst3, snd3, thd3, dot. cbn [fst snd fadd fmul flit R_ops]. cbn [In comps] in HC.
    destruct HC as [<- |[<- |[<- |[]]]]; lits; lra. }
  unfold lm. split; [|split; [|split]]; narrow b (ex_yuv_planes 0).
Qed.
