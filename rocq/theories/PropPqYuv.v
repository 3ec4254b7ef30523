(** C81 for YUV destinations with another curve. *)

From Coq Require Import List ZArith Bool Arith Reals Lia Lra Psatz.
From Coq Require Import Floats.SpecFloat.
From Flocq Require Import Core.
From Verif Require Import Base Types Planes ImageM F32 Vector Simd SpecVector SimdProofs QuantProofs SpecGeom GeomProofs
  SpecColor SpecConvert SpecRun Formats Visit Convert VisitProofs ColorProofs ConvertProofs ExactProofs PropConvert PropFidelity
  SpecReal FloatProofs AccProofs TargetProofs PropColor ColorR SpecTransfer PowerProofs MathProofs SpecMath LaneProofs TransferProofs
  Math NegProofs RecolorProofs PropRecolor GamutProofs PropGamut GrayProofs PropGray PropDrift PropBT2020 PropOut PropToPQ IctcpProofs
  WideProofs PropWide PqProofs PropFromPQ PqEncProofs PropPQ.
Import ListNotations.
Local Open Scope R_scope.

(** From the light to the samples, [top] being the brightest channel of the block *)
Lemma pq_block_stored : forall sp sl b m src sps dst dps i k (s : comp -> nat -> nat -> R) top,
  converts (libm_of sp sl) b m src sps dst dps ->
  sampling_of (im_format dst) <> SRGB -> im_color dst = CYUV i -> weights_of (yc_space i) = Some k ->
  let td := ci_transfer (im_color dst) in
  ci_transfer (im_color src) = TBT2100PQ -> td <> TBT2100PQ ->
  forall c x y, has_comp (im_format dst) c = true -> in_image dst x y ->
  let cb := column_backend b (im_width dst) x in
  let L := lane_of (libm_of sp sl) cb in
  accurate L ->
  let light x y := light_of TBT2100PQ (ci_primaries (im_color src)) (ci_primaries (im_color dst)) (s CR x y) (s CG x y) (s CB x y) in
  let block := (x, y) :: chroma_block (sampling_of (im_format dst)) x y in
  let error := (3 + 5 * top) / 1000 in
  (forall p, In p block -> lit L m src sps (ci_primaries (im_color dst)) (fst p) (snd p) (light (fst p) (snd p))
     (pq_error (s CR (fst p) (snd p)) (s CG (fst p) (snd p)) (s CB (fst p) (snd p)))) ->
  (forall p, In p block -> peak (s CR (fst p) (snd p)) (s CG (fst p) (snd p)) (s CB (fst p) (snd p)) <= top) ->
  (forall p c, In p block -> In c comps -> darkest cb td + error <= channel c (light (fst p) (snd p)) <= 5 / 2 - error) ->
  exists near : nat -> nat -> R * R * R,
    (forall p c, In p block -> In c comps ->
       Rabs (channel c (near (fst p) (snd p)) - channel c (light (fst p) (snd p))) <= error + 2 / 100000000) /\
    let color c x y := encoded td (channel c (near x y)) in
    let t := ideal_level k (yc_full_range i) (im_format dst) (color CR) (fun x y => written_green (yc_space i) (color CG x y)) (color CB) c x y in
    let hi := IZR (if (sample_bytes (im_format dst) =? 2)%nat then 65535 else 255) in
    (cb = AVX512 -> - (1 / 4) <= t <= hi + 1 / 4) ->
    exists z, stored (libm_of sp sl) b m src dst dps c x y = Some z /\ (0 <= z)%Z /\
      stored_for cb (IZR (max_level (im_format dst)) / 50000) (clamp hi t) z.
Proof.
  intros sp sl b m src sps dst dps i k s top CVT FD CID WK td TS TD c x y HC HI cb L A light block error LT PK GM.
  assert (SL : same_light (im_color src) (im_color dst) = false).
  { unfold same_light. rewrite TS. fold td. destruct td; try reflexivity. congruence. }
  apply (light_stored sp sl b m src sps dst dps i k light error CVT SL FD CID WK TD c x y HC HI A).
  intros p HP. destruct (LT p HP) as (F3 & _). specialize (PK p HP). split.
  - fold cb L. unfold pq_error in F3. unfold light in *.
    destruct (from_xyz (ci_primaries (im_color dst)) (to_xyz _ (map3 _ _))) as ((q1, q2), q3).
    destruct (light_of TBT2100PQ _ _ _ _ _) as ((p1, p2), p3). destruct F3 as (F1 & F2 & F3).
    split; [|split]; (eapply approx_le; [eassumption|unfold error; lra]).
  - intros c' HC'. specialize (GM p c' HP HC'). fold cb td. lra.
Qed.

(** RGB with the PQ curve to YUV with another curve.
    Missing: light below [darkest] or above 5/2 (up to the accuracy of the light) *)
Theorem C81_rgb_to_yuv_partial : forall sp sl b m src sps dst dps id kd top,
  converts (libm_of sp sl) b m src sps dst dps -> bytes_ok m ->
  sampling_of (im_format src) = SRGB -> sampling_of (im_format dst) <> SRGB ->
  im_color dst = CYUV id -> weights_of (yc_space id) = Some kd ->
  let td := ci_transfer (im_color dst) in
  ci_transfer (im_color src) = TBT2100PQ -> td <> TBT2100PQ ->
  forall c x y, has_comp (im_format dst) c = true -> in_image dst x y ->
  let cb := column_backend b (im_width dst) x in
  platform_pow sp sl cb ->
  let s c x y := level m (im_format src) sps c x y / 255 in
  let light x y := light_of TBT2100PQ (ci_primaries (im_color src)) (ci_primaries (im_color dst)) (s CR x y) (s CG x y) (s CB x y) in
  let block := (x, y) :: chroma_block (sampling_of (im_format dst)) x y in
  let error := (3 + 5 * top) / 1000 in
  (forall p, In p block -> peak (s CR (fst p) (snd p)) (s CG (fst p) (snd p)) (s CB (fst p) (snd p)) <= top) ->
  (forall p c, In p block -> In c comps -> darkest cb td + error <= channel c (light (fst p) (snd p)) <= 5 / 2 - error) ->
  exists near : nat -> nat -> R * R * R,
    (forall p c, In p block -> In c comps ->
       Rabs (channel c (near (fst p) (snd p)) - channel c (light (fst p) (snd p))) <= error + 2 / 100000000) /\
    let color c x y := encoded td (channel c (near x y)) in
    let t := ideal_level kd (yc_full_range id) (im_format dst) (color CR) (fun x y => written_green (yc_space id) (color CG x y)) (color CB) c x y in
    let hi := IZR (if (sample_bytes (im_format dst) =? 2)%nat then 65535 else 255) in
    (cb = AVX512 -> - (1 / 4) <= t <= hi + 1 / 4) ->
    exists z, stored (libm_of sp sl) b m src dst dps c x y = Some z /\ (0 <= z)%Z /\
      stored_for cb (IZR (max_level (im_format dst)) / 50000) (clamp hi t) z.
Proof.
  intros sp sl b m src sps dst dps id kd top CVT LV FS FD CID WK td TS TD c x y HC HI cb PL s light block error PK GM.
  pose proof (accurate_lane sp sl cb PL) as A. assert (VS : valid_image src sps) by apply CVT.
  pose proof (converts_convertible _ _ _ _ _ _ _ CVT) as CT.
  apply (pq_block_stored sp sl b m src sps dst dps id kd s top CVT FD CID WK TS TD c x y HC HI A); [|exact PK|exact GM].
  intros p HP.
  assert (HI' : in_image dst (fst p) (snd p)) by (eapply block_in_image; [apply CT|apply CT|exact HI|exact HP]).
  assert (HS : in_image src (fst p) (snd p)) by (unfold in_image in *; rewrite (cv_width _ _ _ _ CT), (cv_height _ _ _ _ CT); exact HI').
  destruct (pq_rgb_levels m src sps (fst p) (snd p) (lane_of (libm_of sp sl) cb) VS LV FS HS) as (Q & Q1 & Q2 & Q3).
  exact (lit_pq sp sl cb m src sps _ (fst p) (snd p) _ _ _ A TS Q Q1 Q2 Q3).
Qed.
Print Assumptions C81_rgb_to_yuv_partial.

(** YUV with the PQ curve to YUV with another curve.
    Missing: the same, and colors above 1 (wrong: C81_above_one_refuted) *)
Theorem C81_yuv_to_yuv_partial : forall sp sl b m src sps dst dps is ks id kd top,
  converts (libm_of sp sl) b m src sps dst dps -> levels_ok m src sps ->
  sampling_of (im_format src) <> SRGB -> sampling_of (im_format dst) <> SRGB ->
  im_color src = CYUV is -> weights_of (yc_space is) = Some ks ->
  im_color dst = CYUV id -> weights_of (yc_space id) = Some kd ->
  let td := ci_transfer (im_color dst) in
  ci_transfer (im_color src) = TBT2100PQ -> td <> TBT2100PQ ->
  forall c x y, has_comp (im_format dst) c = true -> in_image dst x y ->
  let cb := column_backend b (im_width dst) x in
  platform_pow sp sl cb ->
  let s := read_at ks m src sps is in
  let light x y := light_of TBT2100PQ (ci_primaries (im_color src)) (ci_primaries (im_color dst)) (s CR x y) (s CG x y) (s CB x y) in
  let block := (x, y) :: chroma_block (sampling_of (im_format dst)) x y in
  let error := (3 + 5 * top) / 1000 in
  (forall p c, In p block -> In c comps -> s c (fst p) (snd p) <= 1) ->
  (forall p, In p block -> peak (s CR (fst p) (snd p)) (s CG (fst p) (snd p)) (s CB (fst p) (snd p)) <= top) ->
  (forall p c, In p block -> In c comps -> darkest cb td + error <= channel c (light (fst p) (snd p)) <= 5 / 2 - error) ->
  exists near : nat -> nat -> R * R * R,
    (forall p c, In p block -> In c comps ->
       Rabs (channel c (near (fst p) (snd p)) - channel c (light (fst p) (snd p))) <= error + 2 / 100000000) /\
    let color c x y := encoded td (channel c (near x y)) in
    let t := ideal_level kd (yc_full_range id) (im_format dst) (color CR) (fun x y => written_green (yc_space id) (color CG x y)) (color CB) c x y in
    let hi := IZR (if (sample_bytes (im_format dst) =? 2)%nat then 65535 else 255) in
    (cb = AVX512 -> - (1 / 4) <= t <= hi + 1 / 4) ->
    exists z, stored (libm_of sp sl) b m src dst dps c x y = Some z /\ (0 <= z)%Z /\
      stored_for cb (IZR (max_level (im_format dst)) / 50000) (clamp hi t) z.
Proof.
  intros sp sl b m src sps dst dps is ks id kd top CVT LV FS FD CI WS CID WK td TS TD c x y HC HI cb PL s light block error SB PK GM.
  pose proof (accurate_lane sp sl cb PL) as A. assert (VS : valid_image src sps) by apply CVT.
  pose proof (converts_convertible _ _ _ _ _ _ _ CVT) as CT.
  apply (pq_block_stored sp sl b m src sps dst dps id kd s top CVT FD CID WK TS TD c x y HC HI A); [|exact PK|exact GM].
  intros p HP.
  assert (HI' : in_image dst (fst p) (snd p)) by (eapply block_in_image; [apply CT|apply CT|exact HI|exact HP]).
  assert (HS : in_image src (fst p) (snd p)) by (unfold in_image in *; rewrite (cv_width _ _ _ _ CT), (cv_height _ _ _ _ CT); exact HI').
  pose proof (pq_yuv_levels m src sps (fst p) (snd p) (lane_of (libm_of sp sl) cb) is ks VS LV FS HS CI WS) as Q.
  exact (lit_pq sp sl cb m src sps _ (fst p) (snd p) _ _ _ A TS Q (SB p CR HP ltac:(cbn; auto)) (SB p CG HP ltac:(cbn; auto)) (SB p CB HP ltac:(cbn; auto))).
Qed.
Print Assumptions C81_yuv_to_yuv_partial.

(** Dim pictures: 0.12 in PQ is less than 1 cd/m2 *)
Definition dim_yuv_mem : mem := fun b i => if i <? 4 then 40%Z else 128%Z.
Definition linear_out : image := ex_image I420 2 2 (CYUV (YuvCI TLinear PrBT709 SpBT709 true)) (ex_yuv_planes 1).

Lemma pq_dim : forall v, v <= 127 / 1000 -> 0 <= pq_decode v <= 1.
Proof.
  intros v H. rewrite pq_decode_max. assert (M : 0 <= Rmax v 0 <= 127 / 1000) by (split; [apply Rmax_r|apply Rmax_lub; lra]).
  assert (X : approx (fdiv (f32_of_Z 33) (f32_of_Z 255)) (33 / 255) (1 / 10000000)) by const_approx. destruct X as (N & E). apply Rabs_le_inv in E.
  set (d := fdiv (f32_of_Z 33) (f32_of_Z 255)) in *.
  destruct (pq_dec_rel _ _ avx_lane_ok N ltac:(lra)) as ((_ & E1) & B1).
  assert (A1 : approx (eotf avx_lane TBT2100PQ d) (65 / 100) (2 / 10)) by const_approx. destruct A1 as (_ & A1).
  apply Rabs_le_inv in E1. apply Rabs_le_inv in A1.
  pose proof (pq_decode_mono (Rmax v 0) (fval d) ltac:(lra) ltac:(lra)) as MO.
  split; [rewrite pq_decode_eq; pose proof (power_ge0 (pq_inner (power (Rmax v 0) (1 / m2))) (1 / m1)); lra|lra].
Qed.

Lemma dim_light : forall r g b, r <= 127 / 1000 -> g <= 127 / 1000 -> b <= 127 / 1000 ->
  peak r g b <= 1 /\ forall c, In c comps -> darkest Scalar TLinear + (3 + 5 * 1) / 1000 <= channel c (light_of TBT2100PQ PrBT2020 PrBT709 r g b) <= 5 / 2 - (3 + 5 * 1) / 1000.
Proof.
  intros r g b R G B. pose proof (pq_dim r R) as DR. pose proof (pq_dim g G) as DG. pose proof (pq_dim b B) as DB.
  split; [unfold peak; repeat apply Rmax_lub; lra|]. intros c HC. cbn [darkest]. unfold light_of. cbn [decoded].
  assert (W : between3 0 1 (pq_decode r, pq_decode g, pq_decode b)) by (split; [|split]; lra).
  pose proof (linear_wide PrBT2020 PrBT709 0 1 _ ltac:(lra) ltac:(lra) W) as L. destruct (from_xyz _ _) as ((p1, p2), p3).
  destruct L as (L1 & L2 & L3). unfold channel, fst3, snd3, thd3. cbn [fst snd]. cbn [In comps] in HC. destruct HC as [<- |[<- |[<- |[]]]]; lra.
Qed.

Example C81_yuv_example : forall b, let lm := libm_of avx_pow avx_log in
  converts lm b dim_mem pq_in (ex_rgba_planes 0) linear_out (ex_yuv_planes 1) /\ bytes_ok dim_mem /\
  converts lm b dim_yuv_mem pq_yuv_in (ex_yuv_planes 0) linear_out (ex_yuv_planes 1) /\ levels_ok dim_yuv_mem pq_yuv_in (ex_yuv_planes 0) /\
  (forall x y, in_image pq_in x y -> let s c := level dim_mem RGBA (ex_rgba_planes 0) c x y / 255 in
     peak (s CR) (s CG) (s CB) <= 1 /\ forall c, In c comps ->
       darkest Scalar TLinear + (3 + 5 * 1) / 1000 <= channel c (light_of TBT2100PQ PrBT2020 PrBT709 (s CR) (s CG) (s CB)) <= 5 / 2 - (3 + 5 * 1) / 1000) /\
  (forall x y, in_image pq_yuv_in x y -> let s c := read_at bt2020 dim_yuv_mem pq_yuv_in (ex_yuv_planes 0) pq_info c x y in
     (forall c, In c comps -> s c <= 1) /\ peak (s CR) (s CG) (s CB) <= 1 /\ forall c, In c comps ->
       darkest Scalar TLinear + (3 + 5 * 1) / 1000 <= channel c (light_of TBT2100PQ PrBT2020 PrBT709 (s CR) (s CG) (s CB)) <= 5 / 2 - (3 + 5 * 1) / 1000) /\
  map (fun c => stored lm b dim_mem pq_in linear_out (ex_yuv_planes 1) c 1 1) [CY; CU; CV] = [Some 137; Some 136; Some 115]%Z /\
  map (fun c => stored lm b dim_yuv_mem pq_yuv_in linear_out (ex_yuv_planes 1) c 1 1) [CY; CU; CV] = [Some 105; Some 127; Some 127]%Z.
Proof.
  intros b lm. split; [unfold lm; ex_converts b|].
  split; [intros bf j; unfold dim_mem; pose proof (Nat.mod_upper_bound j 4 ltac:(lia)); destruct (j mod 4 =? 3)%nat; lia|].
  split; [unfold lm; ex_converts b|]. split; [apply bytes_levels; [|reflexivity]; intros bf j; unfold dim_yuv_mem; destruct (j <? 4)%nat; lia|].
  split; [|split].
  { intros x y (HX & HY) s. cbn in HX, HY.
    assert (X : (x = 0 \/ x = 1)%nat) by lia. assert (Y : (y = 0 \/ y = 1)%nat) by lia.
    apply dim_light; unfold s, level; destruct X as [-> | ->], Y as [-> | ->];
      (match goal with |- context [component ?m ?f ?p ?c ?x ?y] => let v := eval vm_compute in (component m f p c x y) in change (component m f p c x y) with v end); lra. }
  { intros x y (HX & HY) s. cbn in HX, HY.
    assert (X : (x = 0 \/ x = 1)%nat) by lia. assert (Y : (y = 0 \/ y = 1)%nat) by lia.
    assert (S1 : forall c, In c comps -> s c <= 127 / 1000).
    { intros c HC. unfold s, read_at, y_at, u_at, v_at, level. cbn [In comps] in HC.
      destruct HC as [<- |[<- |[<- |[]]]], X as [-> | ->], Y as [-> | ->];
      (repeat match goal with |- context [component ?m ?f ?p ?c ?x ?y] => let v := eval vm_compute in (component m f p c x y) in change (component m f p c x y) with v end);
      cbn [im_format pq_yuv_in ex_image yc_full_range yc_space pq_info read_green];
      unfold read_green, green, red, blue, level_y, level_c, w_g; unfold_k; change (IZR (max_level I420)) with 255; lra. }
    split; [intros c HC; specialize (S1 c HC); lra|]. apply dim_light; apply S1; cbn; auto. }
  unfold lm. split; [narrow b (ex_rgba_planes 0)|narrow b (ex_yuv_planes 0)].
Qed.
