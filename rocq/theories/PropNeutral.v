(** C67, C68: what convert does to the extremes of YUV: samples beyond the bit
    depth, and pixels with neutral chroma. *)

From Coq Require Import List ZArith Bool Arith Reals Lia Lra Psatz.
From Coq Require Import Floats.SpecFloat.
From Flocq Require Import Core.
From Verif Require Import Base Types Planes ImageM F32 Vector Simd SpecVector SimdProofs QuantProofs SpecGeom GeomProofs
  SpecColor SpecConvert SpecRun Formats Visit Convert VisitProofs ColorProofs ConvertProofs ExactProofs PropConvert PropFidelity
  SpecReal FloatProofs AccProofs TargetProofs PropColor PropNominal.
Import ListNotations.
Local Open Scope R_scope.

Lemma level_given : forall m im ps c x y z, given m im ps c x y = Some z -> level m (im_format im) ps c x y = IZR z.
Proof. intros m im ps c x y z G. unfold level. unfold given in G. rewrite G. reflexivity. Qed.

(** * C67: samples and bit depth *)

(** The colors of a YUV pixel are in 0 .. 1 *)
Definition in_cube (k : weights) (m : mem) (im : image) (ps : list (slice * nat)) (i : yuv_color_info) (p : nat * nat) : Prop :=
  let (x, y) := p in
  0 <= red_at k m im ps i x y <= 1 /\ 0 <= green_at k m im ps i x y <= 1 /\ 0 <= blue_at k m im ps i x y <= 1.

(** From RGB every sample fits the bit depth of the destination *)
Theorem C67_from_rgb : forall lm b m src sps dst dps i k,
  converts lm b m src sps dst dps -> bytes_ok m ->
  sampling_of (im_format src) = SRGB -> sampling_of (im_format dst) <> SRGB ->
  im_color dst = CYUV i -> weights_of (yc_space i) = Some k -> same_light (im_color src) (im_color dst) = true ->
  forall c x y, has_comp (im_format dst) c = true -> in_image dst x y ->
  exists z, stored lm b m src dst dps c x y = Some z /\ (0 <= z <= max_level (im_format dst))%Z.
Proof.
  intros lm b m src sps dst dps i k CVT B SS SD CI W SL c x y HC HI.
  assert (IC : is_ictcp (yc_space i) = false) by (destruct (yc_space i); try reflexivity; discriminate W).
  destruct (C28_nominal_range _ _ _ _ _ _ _ _ CVT B SS SD CI IC SL c x y HC HI) as (z & ST & R). exists z. split; [exact ST|].
  destruct (im_format dst), (yc_full_range i), c; cbn in R |- *; lia.
Qed.
Print Assumptions C67_from_rgb.

(** So it does from YUV where the colors are in the cube of RGB *)
Theorem C67_from_yuv_partial : forall lm b m src sps dst dps is ks id kd,
  converts lm b m src sps dst dps -> same_image_kind src dst = false -> levels_ok m src sps ->
  sampling_of (im_format src) <> SRGB -> sampling_of (im_format dst) <> SRGB ->
  im_color src = CYUV is -> weights_of (yc_space is) = Some ks -> yc_space is <> SpBT2020 ->
  im_color dst = CYUV id -> weights_of (yc_space id) = Some kd -> yc_space id <> SpBT2020 ->
  same_light (im_color src) (im_color dst) = true ->
  forall c x y, has_comp (im_format dst) c = true -> in_image dst x y ->
  (forall p, In p ((x, y) :: chroma_block (sampling_of (im_format dst)) x y) -> in_cube ks m src sps is p) ->
  exists z, stored lm b m src dst dps c x y = Some z /\ (0 <= z <= max_level (im_format dst))%Z.
Proof.
  intros lm b m src sps dst dps is ks id kd CVT SK LV SS SD CIS WS NS CID WD ND SL c x y HC HI CU.
  pose proof (matrix_known _ _ WD ND) as K. assert (KK : kd = bt601 \/ kd = bt709) by (destruct K as [(_ & ->)|(_ & ->)]; auto).
  pose proof (ideal_range kd (yc_full_range id) (im_format dst) (red_at ks m src sps is) (green_at ks m src sps is) (blue_at ks m src sps is) c x y KK) as IR.
  specialize (IR ltac:(intros (px, py) P; apply (CU (px, py) P))). cbv zeta in IR.
  pose proof (max_level_R (im_format dst)) as MR.
  set (t := ideal_level _ _ _ _ _ _ _ _ _) in *.
  assert (T : 0 <= t <= IZR (max_level (im_format dst))).
  { destruct c, (yc_full_range id); unfold luma_range, chroma_range in IR; cbn [fst snd] in IR; lra. }
  assert (TOP : IZR (max_level (im_format dst)) <= IZR (if (sample_bytes (im_format dst) =? 2)%nat then 65535 else 255)) by (destruct (im_format dst); cbn; lra).
  assert (VS : valid_image src sps) by apply CVT. pose proof (converts_convertible _ _ _ _ _ _ _ CVT) as CT.
  assert (II : forall x y, in_image dst x y -> in_image src x y).
  { intros x' y' (A & B). unfold in_image. rewrite (cv_width _ _ _ _ CT), (cv_height _ _ _ _ CT). auto. }
  destruct (to_yuv_acc lm b m src sps dst dps id kd (red_at ks m src sps is) (green_at ks m src sps is) (blue_at ks m src sps is) (190 * u7)
    CVT (conj SK SL) SD CID K ltac:(unfold u7; lra) (fun L x y H => yuv_source_acc L m src sps is ks x y VS LV SS CIS (matrix_known _ _ WS NS) (II x y H)) c x y HC HI)
    as (z & ST & SF & Z0); [fold t; unfold top; lra|].
  exists z. split; [exact ST|]. split; [exact Z0|]. fold t in SF. rewrite clamp_id in SF by (unfold top; lra).
  assert (ML : IZR (max_level (im_format dst)) * (11 / 10 * (190 * u7) + 113 * u7) <= 2 / 10) by (unfold u7; destruct (im_format dst); cbn; lra).
  set (M := max_level (im_format dst)) in *. clearbody M t.
  assert (Z1 : IZR z < IZR (M + 1)) by (rewrite plus_IZR; destruct (column_backend b (im_width dst) x); cbn [stored_for] in SF; unfold truncated, rounded in SF; try apply Rabs_le_inv in SF; lra).
  apply lt_IZR in Z1. lia.
Qed.
Print Assumptions C67_from_yuv_partial.

(** Otherwise samples of 10 and 12 bit images may exceed 1023 and 4095: above the
    nominal white of limited range they always do when the range becomes full *)
Theorem C67_refuted : forall lm b m src sps dst dps is ks id kd,
  converts lm b m src sps dst dps -> bytes_ok m ->
  sampling_of (im_format src) <> SRGB -> sample_bytes (im_format src) = 1%nat -> sample_bytes (im_format dst) = 2%nat ->
  im_color src = CYUV is -> weights_of (yc_space is) = Some ks -> yc_space is <> SpBT2020 -> yc_full_range is = false ->
  im_color dst = CYUV id -> weights_of (yc_space id) = Some kd -> yc_space id <> SpBT2020 -> yc_full_range id = true ->
  same_light (im_color src) (im_color dst) = true ->
  forall x y l, in_image dst x y -> given m src sps CY x y = Some l -> (237 <= l)%Z ->
  given m src sps CU x y = Some 128%Z -> given m src sps CV x y = Some 128%Z ->
  exists z, stored lm b m src dst dps CY x y = Some z /\ (max_level (im_format dst) < z)%Z.
Proof.
  intros lm b m src sps dst dps is ks id kd CVT B SS S1 S2 CIS WS NS FS CID WD ND FD SL x y l HI GY L GU GV.
  assert (SD : sampling_of (im_format dst) <> SRGB) by (destruct (im_format dst); cbn in *; discriminate).
  assert (HC : has_comp (im_format dst) CY = true) by (unfold has_comp; destruct (sampling_of (im_format dst)); congruence).
  assert (SK : same_image_kind src dst = false).
  { unfold same_image_kind. apply andb_false_iff; left. destruct (im_format src), (im_format dst); try reflexivity; cbn in S1, S2; congruence. }
  pose proof (given_range _ _ _ _ _ _ _ B GY) as LR. rewrite S1 in LR. cbn in LR.
  assert (MS : max_level (im_format src) = 255%Z) by (destruct (im_format src); try reflexivity; discriminate S1).
  assert (K : ks = bt601 \/ ks = bt709) by (destruct (matrix_known _ _ WS NS) as [(_ & ->)|(_ & ->)]; auto).
  assert (KD : kd = bt601 \/ kd = bt709) by (destruct (matrix_known _ _ WD ND) as [(_ & ->)|(_ & ->)]; auto).
  assert (MD : IZR (max_level (im_format dst)) = 1023 \/ IZR (max_level (im_format dst)) = 4095) by (destruct (im_format dst); cbn in S2 |- *; auto; discriminate S2).
  assert (T : ideal_level kd (yc_full_range id) (im_format dst) (red_at ks m src sps is) (green_at ks m src sps is) (blue_at ks m src sps is) CY x y
    = IZR (max_level (im_format dst)) * ((IZR l - 16) / 219)).
  { unfold ideal_level, red_at, green_at, blue_at, y_at, u_at, v_at. rewrite FS, FD, MS, (level_given _ _ _ _ _ _ _ GY), (level_given _ _ _ _ _ _ _ GU), (level_given _ _ _ _ _ _ _ GV).
    unfold y_level, level_y, level_c, luma. f_equal.
    destruct K as [-> | ->], KD as [-> | ->]; unfold green, red, blue, w_g, bt601, bt709; cbn [w_r w_b]; field. }
  assert (L1 : 237 <= IZR l <= 255) by (split; apply IZR_le; lia).
  destruct (C50_yuv_to_yuv_accuracy _ _ _ _ _ _ _ _ _ _ _ CVT SK (bytes_levels _ _ _ B S1) SS SD CIS WS NS CID WD ND SL CY x y HC HI) as (z & ST & SF).
  { rewrite T, S2. cbn. intros _. destruct MD as [-> | ->]; lra. }
  exists z. split; [exact ST|]. rewrite T, S2 in SF. cbn [Nat.eqb] in SF. rewrite clamp_id in SF by (destruct MD as [-> | ->]; lra).
  apply lt_IZR.
  destruct (column_backend b (im_width dst) x); cbn [stored_for] in SF; unfold truncated, rounded in SF; try apply Rabs_le_inv in SF; destruct MD as [E|E]; rewrite E in *; lra.
Qed.
Print Assumptions C67_refuted.

(** Level 240 of a limited-range picture, converted to full range *)
Definition yuv709 (full : bool) : color_info := CYUV (YuvCI TSRGB PrBT709 SpBT709 full).
Definition super_mem : mem := fun b i => if (i <? 4)%nat then 240%Z else 128%Z.
Definition wide_planes10 : list (slice * nat) := [(Slice 1 0 8, 4); (Slice 1 8 2, 2); (Slice 1 10 2, 2)]%nat.
Definition full10 : image := ex_image I010 2 2 (yuv709 true) wide_planes10.
Lemma wide_disjoint : planes_disjoint wide_planes10.
Proof.
  intros i j a c H Ha Hc k K. destruct i as [|[|[|i]]], j as [|[|[|j]]]; cbn in Ha, Hc; try discriminate Ha; try discriminate Hc;
      try (destruct (H eq_refl)); try (destruct i; discriminate Ha); try (destruct j; discriminate Hc);
      injection Ha as <-; injection Hc as <-; cbn in K; lia.
Qed.

Example C67_example : forall b,
  let src := ex_i420 0 (yuv709 false) in
  converts ex_lm b super_mem src (ex_yuv_planes 0) full10 wide_planes10 /\ bytes_ok super_mem /\
  given super_mem src (ex_yuv_planes 0) CY 1 1 = Some 240%Z /\ given super_mem src (ex_yuv_planes 0) CU 1 1 = Some 128%Z /\
  given super_mem src (ex_yuv_planes 0) CV 1 1 = Some 128%Z /\
  (exists z, stored ex_lm b super_mem src full10 wide_planes10 CY 1 1 = Some z /\ (1046 <= z <= 1047)%Z).
Proof.
  intros b src. unfold src. split.
  { apply runs; [| |apply wide_disjoint|discriminate|vm_compute; reflexivity];
      (split; [reflexivity|split; [repeat constructor; cbn; unfold usize; cbn; lia|reflexivity]]). }
  split; [intros a i; unfold super_mem; destruct (_ <? _)%nat; lia|]. split; [reflexivity|]. split; [reflexivity|]. split; [reflexivity|].
  destruct b; eexists; (split; [vm_compute; reflexivity|lia]).
Qed.

(** * C68: neutral chroma *)

(** The middle of the chroma levels: 128, 512, 2048 *)
Definition neutral (f : pixel_format) : Z := ((max_level f + 1) / 2)%Z.

(** A pixel with luma level [l] and neutral chroma *)
Definition neutral_pixel (m : mem) (im : image) (ps : list (slice * nat)) (x y : nat) (l : Z) : Prop :=
  given m im ps CY x y = Some l /\ given m im ps CU x y = Some (neutral (im_format im)) /\ given m im ps CV x y = Some (neutral (im_format im)).

(** How far neutral chroma is from 0, in 1/255 *)
Definition offset (full : bool) (f : pixel_format) : R := 255 * level_c full (IZR (max_level f)) (IZR (neutral f)).

Lemma neutral_stored : forall lm b m src sps dst dps i k,
  converts lm b m src sps dst dps -> levels_ok m src sps ->
  sampling_of (im_format src) <> SRGB -> sampling_of (im_format dst) = SRGB ->
  im_color src = CYUV i -> weights_of (yc_space i) = Some k -> yc_space i <> SpBT2020 ->
  same_light (im_color src) (im_color dst) = true ->
  forall x y l, in_image dst x y -> neutral_pixel m src sps x y l ->
  let Y := 255 * level_y (yc_full_range i) (IZR (max_level (im_format src))) (IZR l) in
  let o := offset (yc_full_range i) (im_format src) in
  let at_level c t z := stored lm b m src dst dps c x y = Some z /\ stored_for (column_backend b (im_width dst) x) (255 / 50000) (clamp 255 t) z /\ (0 <= z <= 255)%Z in
  exists r g bl, at_level CR (Y + 2 * (1 - w_r k) * o) r /\
    at_level CG (Y - (2 * w_r k * (1 - w_r k) + 2 * w_b k * (1 - w_b k)) / w_g k * o) g /\ at_level CB (Y + 2 * (1 - w_b k) * o) bl.
Proof.
  intros lm b m src sps dst dps i k CVT LV SS SD CI WK N20 SL x y l HI (GY & GU & GV) Y o at_level.
  assert (KK : k = bt601 \/ k = bt709) by (destruct (matrix_known _ _ WK N20) as [(_ & ->)|(_ & ->)]; auto).
  pose proof (C49_yuv_to_rgb_accuracy _ _ _ _ _ _ _ _ _ CVT LV SS SD CI WK N20 SL x y HI) as A. cbv zeta in A.
  rewrite (level_given _ _ _ _ _ _ _ GY), (level_given _ _ _ _ _ _ _ GU), (level_given _ _ _ _ _ _ _ GV) in A.
  set (y0 := level_y _ _ _) in *. set (c0 := level_c _ _ _) in *.
  assert (O : o = 255 * c0) by reflexivity. assert (YE : Y = 255 * y0) by reflexivity. clearbody o Y y0 c0. subst o Y.
  destruct (A CR _ (or_introl (conj eq_refl eq_refl))) as (r & R1 & R2 & R3).
  destruct (A CG _ (or_intror (or_introl (conj eq_refl eq_refl)))) as (g & G1 & G2 & G3).
  destruct (A CB _ (or_intror (or_intror (conj eq_refl eq_refl)))) as (bl & B1 & B2 & B3).
  assert (ER : 255 * red k y0 c0 c0 = 255 * y0 + 2 * (1 - w_r k) * (255 * c0)) by (unfold red; ring).
  assert (EB : 255 * blue k y0 c0 c0 = 255 * y0 + 2 * (1 - w_b k) * (255 * c0)) by (unfold blue; ring).
  assert (EG : 255 * green k y0 c0 c0 = 255 * y0 - (2 * w_r k * (1 - w_r k) + 2 * w_b k * (1 - w_b k)) / w_g k * (255 * c0))
    by (destruct KK as [-> | ->]; unfold green, red, blue, w_g, bt601, bt709; cbn [w_r w_b]; field).
  rewrite ER in R2. rewrite EG in G2. rewrite EB in B2. exists r, g, bl. repeat split; assumption || lia.
Qed.

Lemma offset_ok : forall full f, sampling_of f <> SRGB ->
  offset full f = match full, max_level f with
    | true, 255%Z => 1 / 2 | true, 1023%Z => 255 / 2046 | true, _ => 255 / 8190
    | false, 255%Z => 0 | false, 1023%Z => 255 / 224 * (255 * 512 / 1023 - 128) | false, _ => 255 / 224 * (255 * 2048 / 4095 - 128) end.
Proof. intros full f S. unfold offset, neutral, level_c. destruct full, f; cbn in S |- *; try congruence; field. Qed.

(** Levels of the same real number, or of two that are close *)
Lemma stored_apart : forall cb e d s t p q, 0 <= e -> stored_for cb e (clamp 255 s) p -> stored_for cb e (clamp 255 t) q -> Rabs (s - t) <= d ->
  Rabs (IZR p - IZR q) < d + 1 + 3 * e + (if (match cb with AVX2 | AVX512 => true | _ => false end) then 1 / 1000 else 0).
Proof.
  intros cb e d s t p q E P Q D. apply Rabs_le_inv in D.
  destruct (clamp_cases 255 s ltac:(lra)) as [(? & C1)|[(? & C1)|(? & C1)]], (clamp_cases 255 t ltac:(lra)) as [(? & C2)|[(? & C2)|(? & C2)]];
    rewrite C1 in P; rewrite C2 in Q; destruct cb; cbn [stored_for] in P, Q; unfold truncated, rounded in P, Q;
    try apply Rabs_le_inv in P; try apply Rabs_le_inv in Q; apply Rabs_lt; lra.
Qed.

Lemma within : forall p q n D, Rabs (IZR p - IZR q) < D -> D <= IZR n + 1 -> (- n <= p - q <= n)%Z.
Proof.
  intros p q n D H L. apply Rabs_def2 in H. destruct H as (H1 & H2). rewrite <- minus_IZR in H1, H2.
  assert (A : IZR (p - q) < IZR (n + 1)) by (rewrite plus_IZR; lra). assert (B : IZR (- (n + 1)) < IZR (p - q)) by (rewrite opp_IZR, plus_IZR; lra).
  apply lt_IZR in A. apply lt_IZR in B. lia.
Qed.

(** Neutral pixels become gray: the channels differ by one level, or by two in
    8-bit full range and in 10 and 12 bit limited range *)
Definition spread (full : bool) (f : pixel_format) : Z := match full, max_level f with true, 255%Z => 2 | true, _ => 1 | false, 255%Z => 1 | false, _ => 2 end.

Theorem C68_neutral_is_gray : forall lm b m src sps dst dps i k,
  converts lm b m src sps dst dps -> levels_ok m src sps ->
  sampling_of (im_format src) <> SRGB -> sampling_of (im_format dst) = SRGB ->
  im_color src = CYUV i -> weights_of (yc_space i) = Some k -> yc_space i <> SpBT2020 ->
  same_light (im_color src) (im_color dst) = true ->
  forall x y l, in_image dst x y -> neutral_pixel m src sps x y l ->
  exists r g bl,
    stored lm b m src dst dps CR x y = Some r /\ stored lm b m src dst dps CG x y = Some g /\ stored lm b m src dst dps CB x y = Some bl /\
    let n := spread (yc_full_range i) (im_format src) in
    (- n <= r - g <= n /\ - n <= g - bl <= n /\ - n <= r - bl <= n)%Z.
Proof.
  intros lm b m src sps dst dps i k CVT LV SS SD CI WK N20 SL x y l HI NP.
  assert (KK : k = bt601 \/ k = bt709) by (destruct (matrix_known _ _ WK N20) as [(_ & ->)|(_ & ->)]; auto).
  pose proof (neutral_stored _ _ _ _ _ _ _ _ _ CVT LV SS SD CI WK N20 SL x y l HI NP) as NS. cbv zeta in NS.
  destruct NS as (r & g & bl & (R1 & R2 & _) & (G1 & G2 & _) & (B1 & B2 & _)).
  exists r, g, bl. split; [exact R1|]. split; [exact G1|]. split; [exact B1|]. cbv zeta.
  set (Y := 255 * level_y _ _ _) in *. clearbody Y. rewrite offset_ok in R2, G2, B2 by exact SS.
  assert (F : max_level (im_format src) = 255%Z \/ max_level (im_format src) = 1023%Z \/ max_level (im_format src) = 4095%Z)
    by (destruct (im_format src); cbn; auto).
  assert (A : forall s t p q, stored_for (column_backend b (im_width dst) x) (255 / 50000) (clamp 255 s) p ->
    stored_for (column_backend b (im_width dst) x) (255 / 50000) (clamp 255 t) q ->
    Rabs (s - t) <= IZR (spread (yc_full_range i) (im_format src)) - 1 / 50 ->
    (- spread (yc_full_range i) (im_format src) <= p - q <= spread (yc_full_range i) (im_format src))%Z).
  { intros s t p q P Q D. eapply within; [eapply stored_apart; [|exact P|exact Q|exact D]; lra|]. destruct (column_backend _ _ _); lra. }
  split; [|split]; (eapply A; [eassumption|eassumption|]); unfold spread; destruct F as [F|[F|F]]; rewrite F; destruct KK as [-> | ->], (yc_full_range i);
    unfold w_g, bt601, bt709; cbn [w_r w_b]; apply Rabs_le; lra.
Qed.
Print Assumptions C68_neutral_is_gray.

Lemma clamp_le : forall hi t, 0 <= hi -> (hi <= t -> clamp hi t = hi) /\ (t <= 0 -> clamp hi t = 0).
Proof. intros hi t H. destruct (clamp_cases hi t H) as [(? & ->)|[(? & ->)|(? & ->)]]; lra. Qed.

(** 8-bit limited range: neutral pixels get the level of their luma, nominal
    white becomes 254 or 255 and nominal black 0 *)
Theorem C68_limited_8bit : forall lm b m src sps dst dps i k,
  converts lm b m src sps dst dps -> bytes_ok m ->
  sampling_of (im_format src) <> SRGB -> sample_bytes (im_format src) = 1%nat -> sampling_of (im_format dst) = SRGB ->
  im_color src = CYUV i -> weights_of (yc_space i) = Some k -> yc_space i <> SpBT2020 -> yc_full_range i = false ->
  same_light (im_color src) (im_color dst) = true ->
  forall c x y l, In c [CR; CG; CB] -> in_image dst x y -> neutral_pixel m src sps x y l ->
  exists z, stored lm b m src dst dps c x y = Some z /\
    stored_for (column_backend b (im_width dst) x) (255 / 50000) (clamp 255 (255 * ((IZR l - 16) / 219))) z /\
    ((l <= 16)%Z -> z = 0%Z) /\ ((235 <= l)%Z -> (254 <= z <= 255)%Z).
Proof.
  intros lm b m src sps dst dps i k CVT B SS S1 SD CI WK N20 FR SL c x y l HC HI NP.
  pose proof (neutral_stored _ _ _ _ _ _ _ _ _ CVT (bytes_levels _ _ _ B S1) SS SD CI WK N20 SL x y l HI NP) as NS. cbv zeta in NS.
  rewrite offset_ok in NS by exact SS. rewrite FR in NS.
  assert (MS : max_level (im_format src) = 255%Z) by (destruct (im_format src); try reflexivity; discriminate S1).
  rewrite MS in NS. rewrite !Rmult_0_r, Rplus_0_r, Rminus_0_r in NS.
  replace (255 * level_y false 255 (IZR l)) with (255 * ((IZR l - 16) / 219)) in NS by (unfold level_y; field).
  assert (E : exists z, stored lm b m src dst dps c x y = Some z /\
    stored_for (column_backend b (im_width dst) x) (255 / 50000) (clamp 255 (255 * ((IZR l - 16) / 219))) z /\ (0 <= z <= 255)%Z).
  { destruct NS as (r & g & bl & R & G & BB). cbn [In] in HC. destruct HC as [<- |[<- |[<- |[]]]]; eexists; eassumption. }
  destruct E as (z & ST & SF & Z0). exists z. split; [exact ST|]. split; [exact SF|].
  assert (I : forall v, stored_for (column_backend b (im_width dst) x) (255 / 50000) (IZR v) z -> (v - 1 <= z <= v)%Z \/ z = v).
  { intros v V. assert (IZR (v - 2) < IZR z < IZR (v + 1) \/ IZR (v - 1) < IZR z < IZR (v + 1)) as H.
    { rewrite !minus_IZR, plus_IZR. destruct (column_backend b (im_width dst) x); cbn [stored_for] in V; unfold truncated, rounded in V; try apply Rabs_le_inv in V; lra. }
    destruct H as [(H1 & H2)|(H1 & H2)]; apply lt_IZR in H1; apply lt_IZR in H2; lia. }
  split; intros L; apply IZR_le in L.
  - rewrite (proj2 (clamp_le 255 (255 * ((IZR l - 16) / 219)) ltac:(lra)) ltac:(lra)) in SF. specialize (I 0%Z SF). lia.
  - rewrite (proj1 (clamp_le 255 (255 * ((IZR l - 16) / 219)) ltac:(lra)) ltac:(lra)) in SF. specialize (I 255%Z SF). lia.
Qed.
Print Assumptions C68_limited_8bit.

Definition rounding (cb : backend) : bool := match cb with AVX2 | AVX512 => true | _ => false end.

(** The integer stored for a level that is not close to an integer (truncated) or
    to the middle between two (rounded) *)
Lemma stored_is : forall cb t v z, stored_for cb (255 / 50000) t z ->
  (rounding cb = false -> IZR v + 255 / 50000 <= t < IZR v + 1 - 255 / 50000) ->
  (rounding cb = true -> IZR v - 1 / 2 + 255 / 50000 < t < IZR v + 1 / 2 - 255 / 50000) -> z = v.
Proof.
  intros cb t v z S T R. assert (H : IZR (v - 1) < IZR z < IZR (v + 1)).
  { rewrite minus_IZR, plus_IZR. destruct cb; cbn [stored_for rounding] in *; unfold truncated, rounded in S; try apply Rabs_le_inv in S;
      [specialize (T eq_refl)|specialize (R eq_refl)|specialize (R eq_refl)|specialize (T eq_refl)]; lra. }
  destruct H as (H1 & H2). apply lt_IZR in H1. apply lt_IZR in H2. lia.
Qed.

(** 8-bit full range: neutral pixels are never gray.  Every gray but black and
    white gets less green than red and blue, by one level, or two *)
Theorem C68_full_range_refuted : forall lm b m src sps dst dps i k,
  converts lm b m src sps dst dps -> bytes_ok m ->
  sampling_of (im_format src) <> SRGB -> sample_bytes (im_format src) = 1%nat -> sampling_of (im_format dst) = SRGB ->
  im_color src = CYUV i -> weights_of (yc_space i) = Some k -> yc_space i <> SpBT2020 -> yc_full_range i = true ->
  same_light (im_color src) (im_color dst) = true ->
  forall x y l, in_image dst x y -> neutral_pixel m src sps x y l -> (1 <= l <= 254)%Z ->
  let up := if rounding (column_backend b (im_width dst) x) then 1%Z else 0%Z in
  let down := if rounding (column_backend b (im_width dst) x) then match yc_space i with SpBT601 => 1%Z | _ => 0%Z end else 1%Z in
  stored lm b m src dst dps CR x y = Some (l + up)%Z /\ stored lm b m src dst dps CG x y = Some (l - down)%Z /\
  stored lm b m src dst dps CB x y = Some (l + up)%Z.
Proof.
  intros lm b m src sps dst dps i k CVT B SS S1 SD CI WK N20 FR SL x y l HI NP L up down.
  pose proof (neutral_stored _ _ _ _ _ _ _ _ _ CVT (bytes_levels _ _ _ B S1) SS SD CI WK N20 SL x y l HI NP) as NS. cbv zeta in NS.
  rewrite offset_ok in NS by exact SS. rewrite FR in NS.
  assert (MS : max_level (im_format src) = 255%Z) by (destruct (im_format src); try reflexivity; discriminate S1).
  rewrite MS in NS. replace (255 * level_y true 255 (IZR l)) with (IZR l) in NS by (unfold level_y; field).
  destruct NS as (r & g & bl & (R1 & R2 & _) & (G1 & G2 & _) & (B1 & B2 & _)). rewrite R1, G1, B1.
  assert (L1 : 1 <= IZR l <= 254) by (split; apply IZR_le; lia).
  unfold up, down. set (cb := column_backend b (im_width dst) x) in *.
  destruct (matrix_known _ _ WK N20) as [(SP & ->)|(SP & ->)]; rewrite SP; unfold w_g, bt601, bt709 in *; cbn [w_r w_b] in *;
    rewrite clamp_id in R2, G2, B2 by lra; (split; [|split]); f_equal;
    (eapply stored_is; [eassumption| |]); intros E; rewrite E; rewrite ?plus_IZR, ?minus_IZR; lra.
Qed.
Print Assumptions C68_full_range_refuted.

(** 10 and 12 bit limited range: nominal white, (940, 512, 512) or (3760, 2048,
    2048), is not white: blue is stored as 253, green as 254 or 255 *)
Definition nominal_white (f : pixel_format) : Z := (235 * ((max_level f + 1) / 256))%Z.
Theorem C68_deep_white_refuted : forall lm b m src sps dst dps i k,
  converts lm b m src sps dst dps -> levels_ok m src sps ->
  sampling_of (im_format src) <> SRGB -> sample_bytes (im_format src) = 2%nat -> sampling_of (im_format dst) = SRGB ->
  im_color src = CYUV i -> weights_of (yc_space i) = Some k -> yc_space i <> SpBT2020 -> yc_full_range i = false ->
  same_light (im_color src) (im_color dst) = true ->
  forall x y, in_image dst x y -> neutral_pixel m src sps x y (nominal_white (im_format src)) ->
  stored lm b m src dst dps CB x y = Some 253%Z /\ exists g, stored lm b m src dst dps CG x y = Some g /\ (254 <= g)%Z.
Proof.
  intros lm b m src sps dst dps i k CVT LV SS S2 SD CI WK N20 FR SL x y HI NP.
  pose proof (neutral_stored _ _ _ _ _ _ _ _ _ CVT LV SS SD CI WK N20 SL x y _ HI NP) as NS. cbv zeta in NS.
  rewrite offset_ok in NS by exact SS. rewrite FR in NS.
  assert (MS : (max_level (im_format src) = 1023%Z /\ nominal_white (im_format src) = 940%Z) \/ (max_level (im_format src) = 4095%Z /\ nominal_white (im_format src) = 3760%Z))
    by (destruct (im_format src); try discriminate S2; auto).
  destruct NS as (r & g & bl & _ & (G1 & G2 & _) & (B1 & B2 & _)). rewrite B1.
  set (cb := column_backend b (im_width dst) x) in *.
  destruct (matrix_known _ _ WK N20) as [(SP & ->)|(SP & ->)]; unfold w_g, bt601, bt709 in *; cbn [w_r w_b] in *;
    destruct MS as [(E & W)|(E & W)]; rewrite E, W in *; unfold level_y in *;
    rewrite clamp_id in B2, G2 by lra;
    (split; [f_equal; eapply stored_is; [exact B2| |]; intros; lra|exists g; split; [exact G1|]]);
    assert (G3 : 253 < IZR g) by (destruct cb; cbn [stored_for] in G2; unfold truncated, rounded in G2; try apply Rabs_le_inv in G2; lra);
    apply lt_IZR in G3; lia.
Qed.
Print Assumptions C68_deep_white_refuted.

(** 2x2 pictures of one gray: level 100 in 8-bit full and limited range, and
    nominal white in 10-bit limited range *)
Definition gray_mem : mem := fun b i => if (i <? 4)%nat then 100%Z else 128%Z.
Definition white10_mem : mem := fun b i =>
  if (i <? 8)%nat then (if Nat.even i then 172%Z else 3%Z) else (if Nat.even i then 0%Z else 2%Z).
Definition lim10 : image := ex_image I010 2 2 (yuv709 false) wide_planes10.
Definition rgba_for : image := ex_rgba22 2 TSRGB.

Lemma white10_levels : levels_ok white10_mem lim10 wide_planes10.
Proof.
  intros c x y z (HX & HY) G. cbn in HX, HY.
  destruct x as [|[|x]]; [| |lia]; (destruct y as [|[|y]]; [| |lia]); destruct c; vm_compute in G; try discriminate G; injection G as <-; cbn; lia.
Qed.

Example C68_example : forall b,
  let full := ex_i420 0 (yuv709 true) in let lim := ex_i420 0 (yuv709 false) in
  let rgb m im := map (fun c => stored ex_lm b m im rgba_for (ex_rgba_planes 2) c 1 0) [CR; CG; CB] in
  converts ex_lm b gray_mem full (ex_yuv_planes 0) rgba_for (ex_rgba_planes 2) /\
  converts ex_lm b gray_mem lim (ex_yuv_planes 0) rgba_for (ex_rgba_planes 2) /\
  converts ex_lm b white10_mem lim10 wide_planes10 rgba_for (ex_rgba_planes 2) /\
  bytes_ok gray_mem /\
  neutral_pixel gray_mem full (ex_yuv_planes 0) 1 0 100 /\ neutral_pixel gray_mem lim (ex_yuv_planes 0) 1 0 100 /\
  neutral_pixel white10_mem lim10 wide_planes10 1 0 (nominal_white I010) /\
  rgb gray_mem full = [Some 100; Some 99; Some 100]%Z /\ rgb gray_mem lim = [Some 97; Some 97; Some 97]%Z /\
  rgb white10_mem lim10 = [Some 253; Some 254; Some 253]%Z.
Proof.
  intros b. cbv zeta. split; [ex_converts b|]. split; [ex_converts b|]. split; [ex_converts b|].
  split; [intros a i; unfold gray_mem; destruct (_ <? _)%nat; lia|].
  split; [repeat split; reflexivity|]. split; [repeat split; reflexivity|]. split; [repeat split; reflexivity|].
  destruct b; vm_compute; auto.
Qed.
