(** C84: changing the bit depth of YUV images. *)

From Coq Require Import List ZArith Bool Arith Reals Lia Lra Psatz.
From Flocq Require Import Core.
From Verif Require Import Base Types Planes ImageM F32 Vector Simd SpecGeom SpecVector GeomProofs SimdProofs
  SpecColor SpecConvert SpecRun Convert ReadProofs WriteProofs VisitProofs ConvertProofs PropConvert PropFidelity SpecReal AccProofs TargetProofs PropColor PropRound PropDrift
  PropNeutral.
Import ListNotations.
Local Open Scope R_scope.

(** The color information stays, the sub-sampling does not get coarser *)
Definition only_depth (src dst : image) : Prop :=
  im_color src = im_color dst /\ (exists i, im_color src = CYUV i /\ (yc_space i = SpBT601 \/ yc_space i = SpBT709)) /\
  sampling_of (im_format src) <> SRGB /\ sampling_of (im_format dst) <> SRGB /\
  not_coarser (sampling_of (im_format src)) (sampling_of (im_format dst)) = true.

(** Largest level of an image: 255, 1023 or 4095 *)
Definition levels (im : image) : R := IZR (max_level (im_format im)).

Lemma rescale_y : forall full M N l, 1 <= M -> 1 <= N -> y_level full N (level_y full M l) = l * N / M.
Proof. intros [] M N l H H'; unfold y_level, level_y; field; lra. Qed.
Lemma rescale_c : forall full M N l, 1 <= M -> 1 <= N -> c_level full N (level_c full M l) = l * N / M.
Proof. intros [] M N l H H'; unfold c_level, level_c; field; lra. Qed.

(** * One conversion *)

(** A sample is rescaled to the levels of the destination and then rounded, or
    truncated where scalar code or NEON stores it. *)
Theorem C84_rescaled : forall lm b m src sps dst dps,
  converts lm b m src sps dst dps -> levels_ok m src sps -> only_depth src dst ->
  max_level (im_format src) <> max_level (im_format dst) ->
  forall c x y z, has_comp (im_format dst) c = true -> in_image dst x y -> given m src sps c x y = Some z ->
  exists z', stored lm b m src dst dps c x y = Some z' /\ (0 <= z' <= max_level (im_format dst))%Z /\
    stored_for (column_backend b (im_width dst) x) (levels dst / 30000) (IZR z * levels dst / levels src) z'.
Proof.
  intros lm b m src sps dst dps CVT LV (CE & (i & CS & SP) & SS & SD & NC) NE c x y z HC HI G.
  assert (SK : same_image_kind src dst = false).
  { unfold same_image_kind. apply andb_false_iff. left. destruct (im_format src), (im_format dst); try reflexivity; cbn in NE; congruence. }
  assert (CD : im_color dst = CYUV i) by congruence.
  assert (W : exists k, weights_of (yc_space i) = Some k /\ yc_space i <> SpBT2020).
  { destruct SP as [-> | ->]; cbn; eexists; (split; [reflexivity|discriminate]). }
  destruct W as (k & WK & N20). pose proof (matrix_known _ _ WK N20) as K.
  pose proof (max_level_R (im_format dst)) as MR. pose proof (max_level_R (im_format src)) as MS. fold (levels dst) in MR. fold (levels src) in MS.
  assert (T : ideal_level k (yc_full_range i) (im_format dst) (red_at k m src sps i) (green_at k m src sps i) (blue_at k m src sps i) c x y = IZR z * levels dst / levels src).
  { rewrite (same_space_ideal (yc_space i)) by assumption. fold (levels dst).
    assert (LZ : level m (im_format src) sps c x y = IZR z) by (unfold level; unfold given in G; rewrite G; reflexivity).
    assert (CC : c = CY \/ c = CU \/ c = CV).
    { unfold has_comp in HC. destruct (sampling_of (im_format dst)), c; auto; congruence. }
    assert (SH : forall p, c = CU \/ c = CV -> In p (chroma_block (sampling_of (im_format dst)) x y) ->
      level m (im_format src) sps c (fst p) (snd p) = IZR z).
    { intros p HCC HP. rewrite <- LZ. unfold level. erewrite shared_chroma by eassumption. reflexivity. }
    destruct CC as [-> |[-> | ->]].
    - unfold y_at. rewrite LZ. fold (levels src). apply rescale_y; lra.
    - rewrite (chroma_mean_const _ _ (level_c (yc_full_range i) (levels src) (IZR z))).
      + apply rescale_c; lra.
      + intros p HP. unfold u_at. rewrite SH; auto.
    - rewrite (chroma_mean_const _ _ (level_c (yc_full_range i) (levels src) (IZR z))).
      + apply rescale_c; lra.
      + intros p HP. unfold v_at. rewrite SH; auto. }
  assert (ZR : (0 <= z <= max_level (im_format src))%Z).
  { pose proof (converts_convertible _ _ _ _ _ _ _ CVT) as CT. eapply LV; [|exact G]. destruct HI. unfold in_image.
    rewrite (cv_width _ _ _ _ CT), (cv_height _ _ _ _ CT). auto. }
  pose proof (top_max (im_format dst)) as TM. unfold top in TM.
  assert (HZ : 0 <= IZR z * levels dst / levels src <= levels dst).
  { destruct ZR as (Z0 & Z1). apply IZR_le in Z0, Z1. fold (levels src) in Z1. unfold Rdiv. split.
    - apply Rmult_le_pos; [apply Rmult_le_pos; lra|]. left. apply Rinv_0_lt_compat. lra.
    - rewrite (Rmult_comm (IZR z)), Rmult_assoc. rewrite <- (Rmult_1_r (levels dst)) at 2. apply Rmult_le_compat_l; [lra|].
      apply Rmult_le_reg_r with (levels src); [lra|]. rewrite Rmult_assoc, Rinv_l by lra. lra. }
  assert (HI' : levels dst <= IZR (if (sample_bytes (im_format dst) =? 2)%nat then 65535 else 255)) by (apply IZR_le; lia).
  destruct (C50_yuv_to_yuv_accuracy lm b m src sps dst dps i k i k CVT SK LV SS SD CS WK N20 CD WK N20) with (c := c) (x := x) (y := y)
    as (z' & ST & SF); try assumption.
  { rewrite CS, CD. unfold same_light. destruct (ci_transfer (CYUV i)), (ci_primaries (CYUV i)); reflexivity. }
  { rewrite T. intros _. lra. }
  rewrite T, clamp_id in SF by lra. fold (levels dst) in SF. exists z'. split; [exact ST|]. split; [|exact SF].
  split; [exact (stored_nonneg _ _ _ _ _ _ _ _ _ _ _ CVT HI ST)|].
  assert (H : IZR z' < IZR (max_level (im_format dst) + 1)).
  { rewrite plus_IZR. fold (levels dst).
    destruct (column_backend b (im_width dst) x); cbn [stored_for] in SF; unfold truncated, rounded in SF; try (apply Rabs_le_inv in SF); lra. }
  apply lt_IZR in H. lia.
Qed.
Print Assumptions C84_rescaled.

(** * There and back *)

(** The levels after the first conversion *)
Lemma rescaled_levels : forall lm b m src sps dst dps,
  converts lm b m src sps dst dps -> levels_ok m src sps -> only_depth src dst ->
  max_level (im_format src) <> max_level (im_format dst) -> levels_ok (after lm b m src dst) dst dps.
Proof.
  intros lm b m src sps dst dps CVT LV OD NE c x y z HI G. pose proof (given_comp _ _ _ _ _ _ _ G) as HC'.
  assert (VS : valid_image src sps) by apply CVT.
  assert (HC : has_comp (im_format src) c = true).
  { destruct OD as (_ & _ & SS & SD & _). unfold has_comp in *. destruct (sampling_of (im_format src)) eqn:E1; try congruence; destruct (sampling_of (im_format dst)) eqn:E2; try congruence; exact HC'. }
  destruct (given_some m src sps c x y VS HC) as (z0 & G0).
  destruct (C84_rescaled lm b m src sps dst dps CVT LV OD NE c x y z0 HC' HI G0) as (z1 & S1 & B1 & _).
  unfold given, after in G. unfold stored in S1. rewrite S1 in G. injection G as <-. exact B1.
Qed.

Lemma depths : forall f, IZR (max_level f) = 255 \/ IZR (max_level f) = 1023 \/ IZR (max_level f) = 4095.
Proof. intros []; cbn; auto. Qed.

(** What is left of a sample after two conversions *)
Lemma there_and_back : forall lm b m src sps mid mps lm' b' dst dps,
  converts lm b m src sps mid mps -> converts lm' b' (after lm b m src mid) mid mps dst dps -> levels_ok m src sps ->
  only_depth src mid -> only_depth mid dst -> max_level (im_format src) <> max_level (im_format mid) -> max_level (im_format dst) = max_level (im_format src) ->
  forall c x y z, has_comp (im_format dst) c = true -> in_image dst x y -> given m src sps c x y = Some z ->
  exists q z', stored lm' b' (after lm b m src mid) mid dst dps c x y = Some z' /\
    stored_for (column_backend b (im_width dst) x) (levels mid / 30000) (IZR z * levels mid / levels src) q /\
    stored_for (column_backend b' (im_width dst) x) (levels src / 30000) (IZR q * levels src / levels mid) z'.
Proof.
  intros lm b m src sps mid mps lm' b' dst dps C1 C2 LV O1 O2 NE ME c x y z HC HI G.
  pose proof (converts_convertible _ _ _ _ _ _ _ C2) as CT.
  assert (HM : in_image mid x y) by (unfold in_image in *; rewrite (cv_width _ _ _ _ CT), (cv_height _ _ _ _ CT); exact HI).
  assert (HCM : has_comp (im_format mid) c = true).
  { destruct O2 as (_ & _ & SS & SD & _). unfold has_comp in *. destruct (sampling_of (im_format mid)) eqn:E1; try congruence; destruct (sampling_of (im_format dst)) eqn:E2; try congruence; exact HC. }
  destruct (C84_rescaled lm b m src sps mid mps C1 LV O1 NE c x y z HCM HM G) as (q & S1 & _ & F1).
  destruct (C84_rescaled lm' b' (after lm b m src mid) mid mps dst dps C2 (rescaled_levels _ _ _ _ _ _ _ C1 LV O1 NE) O2 ltac:(congruence) c x y q HC HI S1) as (z' & S2 & _ & F2).
  assert (LE : levels dst = levels src) by (unfold levels; rewrite ME; reflexivity). rewrite LE in F2.
  rewrite (cv_width _ _ _ _ CT) in F1. exists q, z'. auto.
Qed.

(** Going to a deeper format and back: every sample returns where AVX2 or
    AVX-512 vectors do the second conversion, else it returns or is one less. *)
Theorem C84_deeper_and_back : forall lm b m src sps mid mps lm' b' dst dps,
  converts lm b m src sps mid mps -> converts lm' b' (after lm b m src mid) mid mps dst dps -> levels_ok m src sps ->
  only_depth src mid -> only_depth mid dst ->
  (max_level (im_format src) < max_level (im_format mid))%Z -> max_level (im_format dst) = max_level (im_format src) ->
  forall c x y z, has_comp (im_format dst) c = true -> in_image dst x y -> given m src sps c x y = Some z ->
  exists z', stored lm' b' (after lm b m src mid) mid dst dps c x y = Some z' /\ (z - 1 <= z' <= z)%Z /\
    (rounds (column_backend b' (im_width dst) x) = true -> z' = z).
Proof.
  intros lm b m src sps mid mps lm' b' dst dps C1 C2 LV O1 O2 LT ME c x y z HC HI G.
  destruct (there_and_back lm b m src sps mid mps lm' b' dst dps C1 C2 LV O1 O2 ltac:(lia) ME c x y z HC HI G) as (q & z' & ST & F1 & F2).
  apply IZR_lt in LT. fold (levels src) in LT. fold (levels mid) in LT.
  assert (D : -2 < IZR z' - IZR z < 1 /\ (rounds (column_backend b' (im_width dst) x) = true -> -1 < IZR z' - IZR z < 1)).
  { clear - F1 F2 LT. pose proof (depths (im_format src)) as DS. pose proof (depths (im_format mid)) as DM. fold (levels src) in DS. fold (levels mid) in DM.
    destruct DS as [DS|[DS|DS]], DM as [DM|[DM|DM]]; rewrite ?DS, ?DM in *; try lra;
      destruct (column_backend b (im_width dst) x), (column_backend b' (im_width dst) x); cbn [stored_for] in F1, F2; unfold truncated, rounded in F1, F2;
      try (apply Rabs_le_inv in F1); try (apply Rabs_le_inv in F2); (split; [lra|intros RD; try discriminate RD; lra]). }
  exists z'. split; [exact ST|]. rewrite <- minus_IZR in D. destruct D as (D & E). split.
  - destruct D as (D1 & D2). apply lt_IZR in D1, D2. lia.
  - intros H. destruct (E H) as (E1 & E2). apply lt_IZR in E1, E2. lia.
Qed.
Print Assumptions C84_deeper_and_back.

(** Going to a shallower format and back: a sample is off by at most one step of
    the shallower format and one level, downwards, and about half of this upwards *)
Theorem C84_shallower_and_back : forall lm b m src sps mid mps lm' b' dst dps,
  converts lm b m src sps mid mps -> converts lm' b' (after lm b m src mid) mid mps dst dps -> levels_ok m src sps ->
  only_depth src mid -> only_depth mid dst ->
  (max_level (im_format mid) < max_level (im_format src))%Z -> max_level (im_format dst) = max_level (im_format src) ->
  forall c x y z, has_comp (im_format dst) c = true -> in_image dst x y -> given m src sps c x y = Some z ->
  let step := levels src / levels mid in
  exists z', stored lm' b' (after lm b m src mid) mid dst dps c x y = Some z' /\
    - (step + 1 + 1 / 3) < IZR z' - IZR z < (step + 1) / 2 + 1 / 3.
Proof.
  intros lm b m src sps mid mps lm' b' dst dps C1 C2 LV O1 O2 LT ME c x y z HC HI G step.
  destruct (there_and_back lm b m src sps mid mps lm' b' dst dps C1 C2 LV O1 O2 ltac:(lia) ME c x y z HC HI G) as (q & z' & ST & F1 & F2).
  apply IZR_lt in LT. fold (levels src) in LT. fold (levels mid) in LT. exists z'. split; [exact ST|]. unfold step.
  clear - F1 F2 LT. pose proof (depths (im_format src)) as DS. pose proof (depths (im_format mid)) as DM. fold (levels src) in DS. fold (levels mid) in DM.
  destruct DS as [DS|[DS|DS]], DM as [DM|[DM|DM]]; rewrite ?DS, ?DM in *; try lra;
    destruct (column_backend b (im_width dst) x), (column_backend b' (im_width dst) x); cbn [stored_for] in F1, F2; unfold truncated, rounded in F1, F2;
    try (apply Rabs_le_inv in F1); try (apply Rabs_le_inv in F2); lra.
Qed.
Print Assumptions C84_shallower_and_back.

(** Nothing lost would be better, but is false: a gray of level 200 comes back
    from I010 as 199, and chroma 128 as 127. *)
Definition deep_i420 (k : nat) : image := ex_i420 k drift_yuv.
Definition deep_i010 : image := ex_image I010 2 2 drift_yuv wide_planes10.

Theorem C84_lossless_refuted : forall b,
  let m := flat_mem 200 128 128 4 1 in
  let m' := after ex_lm b m (deep_i420 0) deep_i010 in
  converts ex_lm b m (deep_i420 0) (ex_yuv_planes 0) deep_i010 wide_planes10 /\
  converts ex_lm b m' deep_i010 wide_planes10 (deep_i420 2) (ex_yuv_planes 2) /\
  levels_ok m (deep_i420 0) (ex_yuv_planes 0) /\ only_depth (deep_i420 0) deep_i010 /\ only_depth deep_i010 (deep_i420 2) /\
  map (fun c => given m (deep_i420 0) (ex_yuv_planes 0) c 0 0) [CY; CU; SpecGeom.CV] = [Some 200; Some 128; Some 128]%Z /\
  map (fun c => given m' deep_i010 wide_planes10 c 0 0) [CY; CU; SpecGeom.CV] = [Some 802; Some 513; Some 513]%Z /\
  map (fun c => stored ex_lm b m' deep_i010 (deep_i420 2) (ex_yuv_planes 2) c 0 0) [CY; CU; SpecGeom.CV] = [Some 199; Some 127; Some 127]%Z.
Proof.
  intros b m m'.
  split.
  { apply runs; [| |apply wide_disjoint|discriminate|destruct b; vm_compute; reflexivity];
      (split; [reflexivity|split; [repeat constructor; cbn; unfold usize; cbn; lia|reflexivity]]). }
  split.
  { apply runs; [| | |discriminate|destruct b; vm_compute; reflexivity];
      try (split; [reflexivity|split; [repeat constructor; cbn; unfold usize; cbn; lia|reflexivity]]).
    intros i j a c H Ha Hc k K. destruct i as [|[|[|i]]], j as [|[|[|j]]]; cbn in Ha, Hc; try discriminate Ha; try discriminate Hc;
      try (destruct (H eq_refl)); try (destruct i; discriminate Ha); try (destruct j; discriminate Hc);
      injection Ha as <-; injection Hc as <-; cbn in K; lia. }
  split.
  { apply (bytes_levels m (deep_i420 0) (ex_yuv_planes 0)); auto. intros k j. unfold m, flat_mem. repeat destruct (_ =? _)%nat; repeat destruct (_ <? _)%nat; lia. }
  split; [repeat split; try discriminate; eexists; (split; [reflexivity|left; reflexivity])|].
  split; [repeat split; try discriminate; eexists; (split; [reflexivity|left; reflexivity])|].
  split; [reflexivity|]. split; destruct b; vm_compute; reflexivity.
Qed.
Print Assumptions C84_lossless_refuted.

(** A 10-bit image to 8 bit and back: 515 becomes 513, or less *)
Definition mid_mem : mem := fun b i => if Nat.even i then 3%Z else 2%Z.
Definition deep_planes2 : list (slice * nat) := [(Slice 2 0 8, 4); (Slice 2 8 2, 2); (Slice 2 10 2, 2)]%nat.
Definition deep_again : image := ex_image I010 2 2 drift_yuv deep_planes2.

Example C84_example_shallow : forall b,
  let m' := after ex_lm b mid_mem deep_i010 (deep_i420 0) in
  converts ex_lm b mid_mem deep_i010 wide_planes10 (deep_i420 0) (ex_yuv_planes 0) /\
  converts ex_lm b m' (deep_i420 0) (ex_yuv_planes 0) deep_again deep_planes2 /\
  levels_ok mid_mem deep_i010 wide_planes10 /\ only_depth deep_i010 (deep_i420 0) /\ only_depth (deep_i420 0) deep_again /\
  map (fun c => given mid_mem deep_i010 wide_planes10 c 0 0) [CY; CU; SpecGeom.CV] = [Some 515; Some 515; Some 515]%Z /\
  map (fun c => stored ex_lm b m' (deep_i420 0) deep_again deep_planes2 c 0 0) [CY; CU; SpecGeom.CV] = [Some 513; Some 513; Some 513]%Z.
Proof.
  intros b m'.
  assert (DJ : planes_disjoint deep_planes2).
  { intros i j a c H Ha Hc k K. destruct i as [|[|[|i]]], j as [|[|[|j]]]; cbn in Ha, Hc; try discriminate Ha; try discriminate Hc;
      try (destruct (H eq_refl)); try (destruct i; discriminate Ha); try (destruct j; discriminate Hc);
      injection Ha as <-; injection Hc as <-; cbn in K; lia. }
  split.
  { apply runs; [| |apply ex_yuv_disjoint|discriminate|destruct b; vm_compute; reflexivity];
      (split; [reflexivity|split; [repeat constructor; cbn; unfold usize; cbn; lia|reflexivity]]). }
  split.
  { apply runs; [| |exact DJ|discriminate|destruct b; vm_compute; reflexivity];
      (split; [reflexivity|split; [repeat constructor; cbn; unfold usize; cbn; lia|reflexivity]]). }
  split.
  { intros c x y z (HX & HY) G. cbn in HX, HY. assert (E : z = 515%Z).
    { destruct x as [|[|x]], y as [|[|y]]; try lia; destruct c; vm_compute in G; try discriminate G; injection G as <-; reflexivity. }
    subst z. cbn. lia. }
  split; [repeat split; try discriminate; eexists; (split; [reflexivity|left; reflexivity])|].
  split; [repeat split; try discriminate; eexists; (split; [reflexivity|left; reflexivity])|].
  split; [reflexivity|]. destruct b; vm_compute; reflexivity.
Qed.
