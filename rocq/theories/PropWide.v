(** C80: recoloring YUV images whose colors are outside of 0 .. 1. *)

From Coq Require Import List ZArith Bool Arith Reals Lia Lra Psatz.
From Coq Require Import Floats.SpecFloat.
From Flocq Require Import Core.
From Verif Require Import Base Types Planes ImageM F32 Vector Simd SpecVector SimdProofs QuantProofs SpecGeom GeomProofs
  SpecColor SpecConvert SpecRun Formats Visit Convert VisitProofs ColorProofs ConvertProofs ExactProofs PropConvert PropFidelity
  SpecReal FloatProofs AccProofs TargetProofs PropColor ColorR SpecTransfer PowerProofs MathProofs SpecMath LaneProofs TransferProofs
  Math NegProofs RecolorProofs PropRecolor GamutProofs PropGamut GrayProofs PropGray PropDrift PropBT2020 PropOut WideProofs.
Import ListNotations.
Local Open Scope R_scope.

(** The samples of a YUV image can stand for colors from -6/5 to 11/5 *)
Theorem C80_color_range : forall m src sps i k, valid_image src sps -> levels_ok m src sps -> sampling_of (im_format src) <> SRGB ->
  weights_of (yc_space i) = Some k ->
  forall c x y, In c comps -> in_image src x y -> - (6 / 5) <= read_at k m src sps i c x y <= 11 / 5.
Proof.
  intros m src sps i k V LV SF W c x y HC HI.
  assert (HS : forall c, c = CY \/ c = CU \/ c = CV -> has_comp (im_format src) c = true)
    by (intros c' [-> |[-> | ->]]; unfold has_comp; destruct (sampling_of (im_format src)); congruence).
  destruct (norm_acc m src sps CY x y V LV HI (HS _ ltac:(auto))) as (_ & BY).
  destruct (norm_acc m src sps CU x y V LV HI (HS _ ltac:(auto))) as (_ & BU).
  destruct (norm_acc m src sps CV x y V LV HI (HS _ ltac:(auto))) as (_ & BV).
  unfold read_at, y_at, u_at, v_at, level_y, level_c.
  set (ly := level m (im_format src) sps CY x y / _) in *. set (lu := level m (im_format src) sps CU x y / _) in *.
  set (lv := level m (im_format src) sps CV x y / _) in *. clearbody ly lu lv.
  cbn [In comps] in HC.
  destruct (yc_space i) eqn:ES; cbn in W; try discriminate W; injection W as <-; unfold read_green; unfold_k;
    destruct HC as [<- |[<- |[<- |[]]]]; destruct (yc_full_range i); lra.
Qed.
Print Assumptions C80_color_range.

(** The linear light of a color, in the primaries of the destination *)
Definition light_all (ts : color_transfer) (ps pd : color_primaries) (r g b : R) : R * R * R :=
  from_xyz pd (to_xyz ps (decoded_all ts r, decoded_all ts g, decoded_all ts b)).

Lemma read_wide : forall sp sl b m src sps i k pd x y, let L := lane_of (libm_of sp sl) b in
  accurate L -> valid_image src sps -> levels_ok m src sps -> sampling_of (im_format src) <> SRGB ->
  im_color src = CYUV i -> weights_of (yc_space i) = Some k -> in_image src x y ->
  let ts := ci_transfer (im_color src) in
  let s c := read_at k m src sps i c x y in
  (forall c, In c comps -> readable b ts (s c)) ->
  approx3 (from_xyz pd (to_xyz (ci_primaries (im_color src)) (map3 (eotf L ts) (fst (source_pixel L m (im_format src) (im_color src) sps x y)))))
    (light_all ts (ci_primaries (im_color src)) pd (s CR) (s CG) (s CB)) (85 / 100000) /\
  between3 (-8) 17 (light_all ts (ci_primaries (im_color src)) pd (s CR) (s CG) (s CB)).
Proof.
  intros sp sl b m src sps i k pd x y L A V LV FS CI W HI ts s RR.
  pose proof (RR CR ltac:(cbn; auto)) as DR. pose proof (RR CG ltac:(cbn; auto)) as DG. pose proof (RR CB ltac:(cbn; auto)) as DB.
  destruct (yuv_source_acc_by L m src sps i _ _ _ x y V LV FS CI (decoder_any i k W) (fun vy vu vv => bound_any (yc_space i) k vy vu vv W) HI) as ((AR & AG & AB) & _).
  destruct (source_pixel L m (im_format src) (im_color src) sps x y) as (((r, g), bl), al).
  unfold fst3, snd3, thd3 in AR, AG, AB. cbn [fst snd] in *.
  pose proof (decoded_wide _ _ _ DR) as WR. pose proof (decoded_wide _ _ _ DG) as WG. pose proof (decoded_wide _ _ _ DB) as WB.
  assert (D3 : approx3 (map3 (eotf L ts) (r, g, bl)) (decoded_all ts (s CR), decoded_all ts (s CG), decoded_all ts (s CB)) (3 / 10000)).
  { split; [|split]; apply decode_wide; assumption. }
  assert (B3 : between3 (dimmest ts) (brightest ts) (decoded_all ts (s CR), decoded_all ts (s CG), decoded_all ts (s CB))) by (split; [|split]; assumption).
  unfold light_all. set (w := (decoded_all ts (s CR), decoded_all ts (s CG), decoded_all ts (s CB))) in *.
  assert (LH : - (6 / 5) <= dimmest ts <= 0 /\ 0 <= brightest ts <= 46 / 5) by (unfold dimmest, brightest; destruct ts; lra).
  pose proof (light_wide (ci_primaries (im_color src)) pd _ w _ D3) as LW.
  pose proof (linear_wide (ci_primaries (im_color src)) pd _ _ w ltac:(apply LH) ltac:(apply LH) B3) as LB.
  split.
  - assert (B4 : between3 (- (6 / 5)) (46 / 5) w).
    { unfold w in B3 |- *. destruct B3 as (B1 & B2 & B3). split; [|split]; lra. }
    specialize (LW B4 ltac:(lra)).
    destruct (from_xyz pd (to_xyz (ci_primaries (im_color src)) (map3 _ _))) as ((q1, q2), q3).
    destruct (from_xyz pd (to_xyz (ci_primaries (im_color src)) w)) as ((p1, p2), p3). destruct LW as (L1 & L2 & L3).
    split; [|split]; (eapply approx_le; [eassumption|lra]).
  - destruct (from_xyz pd (to_xyz (ci_primaries (im_color src)) w)) as ((p1, p2), p3). destruct LB as (L1 & L2 & L3). clear - L1 L2 L3.
    unfold dimmest, brightest in *. split; [|split]; destruct ts; lra.
Qed.

(** YUV to RGB with a change of the transfer function or the primaries, for
    colors on both sides of 0 .. 1.
    Missing: PQ; HLG colors above 1.  What is excluded by [readable] is wrong:
    negative colors with gamma 2.2 and 2.8 (C54_clipping_refuted), and on NEON
    (C80_neon_refuted). *)
Theorem C80_yuv_to_rgb_partial : forall sp sl b m src sps dst dps i k,
  converts (libm_of sp sl) b m src sps dst dps -> levels_ok m src sps ->
  sampling_of (im_format src) <> SRGB -> sampling_of (im_format dst) = SRGB ->
  im_color src = CYUV i -> weights_of (yc_space i) = Some k ->
  same_light (im_color src) (im_color dst) = false ->
  let ts := ci_transfer (im_color src) in
  let td := ci_transfer (im_color dst) in
  td <> TBT2100PQ ->
  forall c x y, In c comps -> in_image dst x y ->
  let cb := column_backend b (im_width dst) x in
  platform_pow sp sl cb ->
  let s c := read_at k m src sps i c x y in
  (forall c, In c comps -> readable cb ts (s c)) ->
  let exact := channel c (light_all ts (ci_primaries (im_color src)) (ci_primaries (im_color dst)) (s CR) (s CG) (s CB)) in
  exists z light, stored (libm_of sp sl) b m src dst dps c x y = Some z /\ (0 <= z <= 255)%Z /\
    Rabs (light - exact) <= 9 / 10000 /\
    stored_for cb (255 * (6 / 1000000)) (clamp 255 (255 * encoded td (Rmax 0 light))) z.
Proof.
  intros sp sl b m src sps dst dps i k CVT LV FS FD CI WK SL ts td TD c x y HC HI cb PL s RR exact.
  pose proof (light_kind _ _ SL) as SK. pose proof (converts_convertible _ _ _ _ _ _ _ CVT) as CT.
  assert (VS : valid_image src sps) by apply CVT.
  assert (HS : in_image src x y) by (unfold in_image in *; rewrite (cv_width _ _ _ _ CT), (cv_height _ _ _ _ CT); exact HI).
  assert (HD : has_comp (im_format dst) c = true) by (unfold has_comp; rewrite FD; cbn [In comps] in HC; intuition (subst; reflexivity)).
  assert (ICT : ictcp_chroma420 (im_format dst) (im_color dst) c = false) by (unfold ictcp_chroma420; rewrite FD; reflexivity).
  rewrite (stored_expected _ _ _ _ _ _ _ CVT c x y HD HI ICT). fold cb. set (L := lane_of (libm_of sp sl) cb).
  pose proof (accurate_lane sp sl cb PL) as A. fold L in A.
  assert (PN : pow_negative (l_pow L)) by (apply lane_negative; intros E; apply PL, E).
  destruct (read_wide sp sl cb m src sps i k (ci_primaries (im_color dst)) x y A VS LV FS CI WK HS RR) as (F3 & FB).
  unfold exact. fold ts in F3, FB. fold (s CR) (s CG) (s CB) in F3, FB. fold L in F3.
  unfold expected_value. rewrite SK. unfold target. rewrite FD. unfold recolored. rewrite SL.
  destruct (source_pixel L m (im_format src) (im_color src) sps x y) as (q, al). cbn [fst snd] in *. unfold recolor. fold ts. fold td.
  destruct (from_xyz (ci_primaries (im_color dst)) (to_xyz (ci_primaries (im_color src)) (map3 (eotf L ts) q))) as ((q1, q2), q3).
  destruct (light_all ts _ _ _ _ _) as ((p1, p2), p3).
  destruct F3 as (Q1 & Q2 & Q3). destruct FB as (P1 & P2 & P3).
  assert (END : forall q p, approx q p (85 / 100000) -> -8 <= p <= 17 ->
    exists z light, Some (quantise (quant_of cb) (im_format dst) (oetf L td q)) = Some z /\ (0 <= z <= 255)%Z /\
      Rabs (light - p) <= 9 / 10000 /\ stored_for cb (255 * (6 / 1000000)) (clamp 255 (255 * encoded td (Rmax 0 light))) z).
  { intros q' p (NQ & EQ) BP. apply Rabs_le_inv in EQ.
    destruct (store_wide L cb (im_format dst) td q' A PN TD FD NQ ltac:(lra)) as (X & EX & ST & ZB).
    exists (quantise (quant_of cb) (im_format dst) (oetf L td q')), X. split; [reflexivity|]. split; [exact ZB|]. apply Rabs_le_inv in EX.
    split; [apply Rabs_le; lra|]. eapply stored_for_weaken; [exact ST|lra]. }
  cbn [In comps] in HC. cbn [map3 fst3 snd3 thd3]. unfold channel, fst3, snd3, thd3.
  destruct HC as [<- |[<- |[<- |[]]]]; cbn [fst snd]; apply END; assumption.
Qed.
Print Assumptions C80_yuv_to_rgb_partial.

(** Linear, sRGB and SDR sources on every back end but NEON: nothing is assumed
    about the samples *)
Theorem C80_any_samples_to_rgb : forall sp sl b m src sps dst dps i k,
  converts (libm_of sp sl) b m src sps dst dps -> levels_ok m src sps ->
  sampling_of (im_format src) <> SRGB -> sampling_of (im_format dst) = SRGB ->
  im_color src = CYUV i -> weights_of (yc_space i) = Some k ->
  same_light (im_color src) (im_color dst) = false ->
  let ts := ci_transfer (im_color src) in
  let td := ci_transfer (im_color dst) in
  gentle ts -> td <> TBT2100PQ ->
  forall c x y, In c comps -> in_image dst x y ->
  let cb := column_backend b (im_width dst) x in
  platform_pow sp sl cb -> cb <> NEON ->
  let s c := read_at k m src sps i c x y in
  let exact := channel c (light_of ts (ci_primaries (im_color src)) (ci_primaries (im_color dst)) (s CR) (s CG) (s CB)) in
  exists z light, stored (libm_of sp sl) b m src dst dps c x y = Some z /\ (0 <= z <= 255)%Z /\
    Rabs (light - exact) <= 9 / 10000 /\
    stored_for cb (255 * (6 / 1000000)) (clamp 255 (255 * encoded td (Rmax 0 light))) z.
Proof.
  intros sp sl b m src sps dst dps i k CVT LV FS FD CI WK SL ts td G TD c x y HC HI cb PL NN s exact.
  pose proof (converts_convertible _ _ _ _ _ _ _ CVT) as CT. assert (VS : valid_image src sps) by apply CVT.
  assert (HS : in_image src x y) by (unfold in_image in *; rewrite (cv_width _ _ _ _ CT), (cv_height _ _ _ _ CT); exact HI).
  destruct (C80_yuv_to_rgb_partial sp sl b m src sps dst dps i k CVT LV FS FD CI WK SL TD c x y HC HI PL) as (z & light & ST & ZB & LE & SF).
  { intros c' HC'. pose proof (C80_color_range m src sps i k VS LV FS WK c' x y HC' HS) as R. fold cb ts.
    unfold readable. destruct G as [-> |[-> | ->]]; [exact R| |]; destruct cb; try congruence; exact R. }
  exists z, light. split; [exact ST|]. split; [exact ZB|]. split; [|exact SF].
  replace exact with (channel c (light_all ts (ci_primaries (im_color src)) (ci_primaries (im_color dst)) (s CR) (s CG) (s CB))); [exact LE|].
  unfold exact, light_all, light_of, decoded_all. destruct G as [-> |[-> | ->]]; reflexivity.
Qed.
Print Assumptions C80_any_samples_to_rgb.

(** YUV to YUV.  Missing: PQ; HLG colors above 1; light below [darkest] or above 12/5 *)
Theorem C80_yuv_to_yuv_partial : forall sp sl b m src sps dst dps is ks id kd,
  converts (libm_of sp sl) b m src sps dst dps -> levels_ok m src sps ->
  sampling_of (im_format src) <> SRGB -> sampling_of (im_format dst) <> SRGB ->
  im_color src = CYUV is -> weights_of (yc_space is) = Some ks ->
  im_color dst = CYUV id -> weights_of (yc_space id) = Some kd ->
  same_light (im_color src) (im_color dst) = false ->
  let ts := ci_transfer (im_color src) in
  let td := ci_transfer (im_color dst) in
  td <> TBT2100PQ ->
  forall c x y, has_comp (im_format dst) c = true -> in_image dst x y ->
  let cb := column_backend b (im_width dst) x in
  platform_pow sp sl cb ->
  let s := read_at ks m src sps is in
  let light x y := light_all ts (ci_primaries (im_color src)) (ci_primaries (im_color dst)) (s CR x y) (s CG x y) (s CB x y) in
  let block := (x, y) :: chroma_block (sampling_of (im_format dst)) x y in
  (forall p c, In p block -> In c comps -> readable cb ts (s c (fst p) (snd p)) /\
     darkest cb td + 5 / 10000 <= channel c (light (fst p) (snd p)) <= 12 / 5) ->
  exists near : nat -> nat -> R * R * R,
    (forall p c, In p block -> In c comps ->
       Rabs (channel c (near (fst p) (snd p)) - channel c (light (fst p) (snd p))) <= 9 / 10000) /\
    let color c x y := encoded td (channel c (near x y)) in
    let t := ideal_level kd (yc_full_range id) (im_format dst) (color CR) (fun x y => written_green (yc_space id) (color CG x y)) (color CB) c x y in
    let hi := IZR (if (sample_bytes (im_format dst) =? 2)%nat then 65535 else 255) in
    (cb = AVX512 -> - (1 / 4) <= t <= hi + 1 / 4) ->
    exists z, stored (libm_of sp sl) b m src dst dps c x y = Some z /\ (0 <= z)%Z /\
      stored_for cb (IZR (max_level (im_format dst)) / 50000) (clamp hi t) z.
Proof.
  intros sp sl b m src sps dst dps is ks id kd CVT LV FS FD CI WS CID WK SL ts td TD c x y HC HI cb PL s light block GM.
  pose proof (accurate_lane sp sl cb PL) as A. assert (VS : valid_image src sps) by apply CVT.
  pose proof (converts_convertible _ _ _ _ _ _ _ CVT) as CT.
  destruct (light_stored sp sl b m src sps dst dps id kd light (85 / 100000) CVT SL FD CID WK TD c x y HC HI A) as (near & N & R).
  { intros p HP.
    assert (HI' : in_image dst (fst p) (snd p)) by (eapply block_in_image; [apply CT|apply CT|exact HI|exact HP]).
    assert (HS : in_image src (fst p) (snd p)) by (unfold in_image in *; rewrite (cv_width _ _ _ _ CT), (cv_height _ _ _ _ CT); exact HI').
    destruct (read_wide sp sl cb m src sps is ks (ci_primaries (im_color dst)) (fst p) (snd p) A VS LV FS CI WS HS (fun c' HC' => proj1 (GM p c' HP HC'))) as (R1 & _).
    split; [exact R1|]. intros c' HC'. pose proof (proj2 (GM p c' HP HC')). fold cb td. lra. }
  exists near. split; [|exact R]. intros p c' HP HC'. eapply Rle_trans; [exact (N p c' HP HC')|]. lra.
Qed.
Print Assumptions C80_yuv_to_yuv_partial.

(** ** NEON *)

(** A dark blue without any red: its red is -0.77 *)
Definition dark_mem : mem := fun b i => if i <? 64 then 5%Z else if i <? 128 then 240%Z else 0%Z.
Definition dark_info : yuv_color_info := YuvCI TSRGB PrBT709 SpBT709 true.
Definition dark : image := ex_image I444 32 2 (CYUV dark_info) cyan_planes.
Definition dark_dst : image := ex_image RGB 32 2 (CRGB TSRGB PrBT2020) cyan_dst_planes.

Lemma dark_converts : forall sp sl b, b = AVX2 \/ b = NEON -> converts (libm_of sp sl) b dark_mem dark cyan_planes dark_dst cyan_dst_planes.
Proof.
  intros sp sl b HB. split; [|split; [|split; [|split]]]; try (split; [reflexivity|split; [repeat constructor; cbn; unfold usize; cbn; lia|reflexivity]]).
  - apply single_disjoint.
  - intros _ p q a c P Q. destruct p as [|[|[|p]]], q as [|[|[|q]]]; try lia; cbn; intros E1 E2; injection E1 as <-; injection E2 as <-; reflexivity.
  - destruct HB as [-> | ->]; vm_compute; reflexivity.
Qed.

(** The same pixel on AVX2 (as the theorems above have it) and on NEON, which
    takes the negative red for black: 54 levels of red that should not be there *)
Theorem C80_neon_refuted : forall sp sl,
  converts (libm_of sp sl) AVX2 dark_mem dark cyan_planes dark_dst cyan_dst_planes /\
  converts (libm_of sp sl) NEON dark_mem dark cyan_planes dark_dst cyan_dst_planes /\
  levels_ok dark_mem dark cyan_planes /\
  (let s c := read_at bt709 dark_mem dark cyan_planes dark_info c 0 0 in
   s CR < - (76 / 100) /\ 17 / 100 < s CG < 18 / 100 /\ 83 / 100 < s CB < 84 / 100) /\
  map (fun c => stored (libm_of sp sl) AVX2 dark_mem dark dark_dst cyan_dst_planes c 0 0) comps = [Some 0; Some 45; Some 204]%Z /\
  map (fun c => stored (libm_of sp sl) NEON dark_mem dark dark_dst cyan_dst_planes c 0 0) comps = [Some 54; Some 48; Some 203]%Z.
Proof.
  intros sp sl. pose proof (dark_converts sp sl AVX2 ltac:(auto)) as C1. pose proof (dark_converts sp sl NEON ltac:(auto)) as C2.
  split; [exact C1|]. split; [exact C2|]. split.
  { apply bytes_levels; [|reflexivity]. intros bb j. unfold dark_mem. destruct (j <? 64)%nat, (j <? 128)%nat; lia. }
  split.
  { cbv zeta. unfold read_at, y_at, u_at, v_at, level.
    repeat match goal with |- context [component ?m ?f ?p ?c ?x ?y] => let v := eval vm_compute in (component m f p c x y) in change (component m f p c x y) with v end.
    cbn [im_format dark ex_image yc_full_range yc_space dark_info read_green].
    unfold green, red, blue, level_y, level_c, w_g, bt709. cbn [w_r w_b]. change (IZR (max_level I444)) with 255. lra. }
  split; unfold comps; cbn [map]; [rewrite !(stored_expected _ _ _ _ _ _ _ C1) by (try reflexivity; split; cbn; lia)|
    rewrite !(stored_expected _ _ _ _ _ _ _ C2) by (try reflexivity; split; cbn; lia)]; vm_compute; reflexivity.
Qed.
Print Assumptions C80_neon_refuted.

(** A small image of the same color, whatever the back end: 2 columns are done
    by the scalar code *)
Definition small_mem : mem := fun b i => if i <? 4 then 5%Z else if i <? 5 then 240%Z else 0%Z.
Definition small_src : image := ex_image I420 2 2 (CYUV dark_info) (ex_yuv_planes 0).
Definition small_rgb : image := ex_image RGBA 2 2 (CRGB TSRGB PrBT2020) (ex_rgba_planes 1).
Definition small_yuv : image := ex_image I420 2 2 (CYUV (YuvCI TLinear PrBT2020 SpBT709 true)) (ex_yuv_planes 1).

Example C80_example : forall b, let lm := libm_of avx_pow avx_log in
  converts lm b small_mem small_src (ex_yuv_planes 0) small_rgb (ex_rgba_planes 1) /\
  converts lm b small_mem small_src (ex_yuv_planes 0) small_yuv (ex_yuv_planes 1) /\ levels_ok small_mem small_src (ex_yuv_planes 0) /\
  same_light (im_color small_src) (im_color small_rgb) = false /\ same_light (im_color small_src) (im_color small_yuv) = false /\
  (forall x y, in_image small_src x y -> let s c := read_at bt709 small_mem small_src (ex_yuv_planes 0) dark_info c x y in
     s CR < - (76 / 100) /\
     forall c, In c comps -> readable Scalar TSRGB (s c) /\
       darkest Scalar TLinear + 5 / 10000 <= channel c (light_all TSRGB PrBT709 PrBT2020 (s CR) (s CG) (s CB)) <= 12 / 5) /\
  map (fun c => stored lm b small_mem small_src small_rgb (ex_rgba_planes 1) c 1 1) comps = [Some 0; Some 45; Some 203]%Z /\
  map (fun c => stored lm b small_mem small_src small_yuv (ex_yuv_planes 1) c 1 1) [CY; CU; CV] = [Some 15; Some 201; Some 117]%Z.
Proof.
  intros b lm. split; [unfold lm; ex_converts b|]. split; [unfold lm; ex_converts b|]. split; [apply bytes_levels; [|reflexivity]|].
  { intros bf j. unfold small_mem. destruct (j <? 4)%nat, (j <? 5)%nat; lia. }
  split; [reflexivity|]. split; [reflexivity|]. split.
  { intros x y (HX & HY) s. cbn in HX, HY.
    assert (X : (x = 0 \/ x = 1)%nat) by lia. assert (Y : (y = 0 \/ y = 1)%nat) by lia.
    assert (E : - (77 / 100) < s CR < - (76 / 100) /\ 17 / 100 < s CG < 18 / 100 /\ 83 / 100 < s CB < 84 / 100).
    { unfold s, read_at, y_at, u_at, v_at, level.
      destruct X as [-> | ->], Y as [-> | ->];
      (repeat match goal with |- context [component ?m ?f ?p ?c ?x ?y] => let v := eval vm_compute in (component m f p c x y) in change (component m f p c x y) with v end);
      cbn [im_format small_src ex_image yc_full_range yc_space dark_info read_green];
      unfold green, red, blue, level_y, level_c, w_g, bt709; cbn [w_r w_b]; change (IZR (max_level I420)) with 255; lra. }
    clearbody s. destruct E as (ER & EG & EB). split; [lra|]. intros c HC. split.
    - cbn [readable]. cbn [In comps] in HC. destruct HC as [<- |[<- |[<- |[]]]]; lra.
    - cbn [darkest].
      assert (W : between3 (- (1 / 10)) (12 / 10) (decoded_all TSRGB (s CR), decoded_all TSRGB (s CG), decoded_all TSRGB (s CB))).
      { unfold decoded_all. split; [|split].
        - cbn [decoded]. unfold srgb_decode. destruct (Rle_dec (s CR) _) as [_|C]; lra.
        - pose proof (decoded_unit TSRGB (s CG) ltac:(discriminate) ltac:(lra)). lra.
        - pose proof (decoded_unit TSRGB (s CB) ltac:(discriminate) ltac:(lra)). lra. }
      pose proof (linear_wide PrBT709 PrBT2020 (- (1 / 10)) (12 / 10) _ ltac:(lra) ltac:(lra) W) as B. unfold light_all.
      destruct (from_xyz _ _) as ((p1, p2), p3). destruct B as (B1 & B2 & B3). unfold channel, fst3, snd3, thd3. cbn [fst snd].
      cbn [In comps] in HC. destruct HC as [<- |[<- |[<- |[]]]]; lra. }
  unfold lm. split; narrow b (ex_yuv_planes 0).
Qed.
