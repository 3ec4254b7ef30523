(** C73 for more than 8 bits: what is lost when a YUV image of any bit depth is
    converted to RGB, which has 8 bits, and then to YUV of any bit depth. *)

From Coq Require Import List ZArith Bool Arith Reals Lia Lra Psatz.
From Flocq Require Import Core.
From Verif Require Import Base Types Planes ImageM F32 Vector Simd SpecGeom SpecVector GeomProofs SimdProofs
  SpecColor SpecConvert SpecRun Convert ReadProofs WriteProofs VisitProofs ConvertProofs PropConvert PropFidelity SpecReal AccProofs TargetProofs PropColor PropRound PropDrift
  PropNeutral PropReturn PropDeep.
Import ListNotations.
Local Open Scope R_scope.

(** Levels of a color that is off by [er], [eg], [eb] levels of RGB *)
Lemma encode_off_by : forall k (full : bool) N r g b er eg eb lo hi, (k = bt601 \/ k = bt709) -> 1 <= N ->
  lo <= er <= hi -> lo <= eg <= hi -> lo <= eb <= hi ->
  let s := if full then 1 else 219 / 255 in
  let t := if full then 1 else 224 / 255 in
  N / 255 * (s * lo) <= y_level full N (luma k (r + er / 255) (g + eg / 255) (b + eb / 255)) - y_level full N (luma k r g b) <= N / 255 * (s * hi) /\
  - (N / 255 * (t * ((hi - lo) / 2))) <= c_level full N (cb k (r + er / 255) (g + eg / 255) (b + eb / 255)) - c_level full N (cb k r g b) <= N / 255 * (t * ((hi - lo) / 2)) /\
  - (N / 255 * (t * ((hi - lo) / 2))) <= c_level full N (cr k (r + er / 255) (g + eg / 255) (b + eb / 255)) - c_level full N (cr k r g b) <= N / 255 * (t * ((hi - lo) / 2)).
Proof.
  intros k full N r g b er eg eb lo hi K HN HR HG HB s t.
  assert (Y : forall p q, y_level full N p - y_level full N q = N / 255 * (y_level full 255 p - y_level full 255 q)).
  { intros p q. unfold y_level. destruct full; field. }
  assert (C : forall p q, c_level full N p - c_level full N q = N / 255 * (c_level full 255 p - c_level full 255 q)).
  { intros p q. unfold c_level. destruct full; field. }
  rewrite Y, !C. destruct (encode_off k full r g b er eg eb lo hi K HR HG HB) as ((A1 & A2) & (B1 & B2) & (D1 & D2)).
  fold s in A1, A2. fold t in B1, B2, D1, D2. assert (P : 0 <= N / 255) by lra.
  rewrite !Ropp_mult_distr_r. replace (- (t * ((hi - lo) / 2))) with (- t * ((hi - lo) / 2)) by ring.
  repeat split; apply Rmult_le_compat_l; try assumption; subst s t; lra.
Qed.

(** How far RGB moves a sample, in levels of RGB: luma by the rounding of RGB,
    which is one-sided where RGB was truncated; chroma by half a level, because it
    is the difference of two colors; limited range has fewer levels. *)
Definition moved_down (full r1 : bool) (c : comp) : R :=
  match c with
  | CY => (if full then 1 else 219 / 255) * (if r1 then 1 / 2 else 1)
  | _ => (if full then 1 else 224 / 255) * (1 / 2)
  end.
Definition moved_up (full r1 : bool) (c : comp) : R :=
  match c with
  | CY => (if full then 1 else 219 / 255) * (if r1 then 1 / 2 else 0)
  | _ => (if full then 1 else 224 / 255) * (1 / 2)
  end.

(** YUV to RGB to YUV that is not sub-sampled more, any bit depths (BT.601,
    BT.709): the sample is rescaled to the levels of the destination, moved by
    what RGB loses, and rounded or truncated. *)
Theorem C73_deep_round_trip : forall lm1 b1 lm2 b2 m src sps mid mps dst dps i k,
  converts lm1 b1 m src sps mid mps -> converts lm2 b2 (after lm1 b1 m src mid) mid mps dst dps ->
  levels_ok m src sps -> bytes_ok m ->
  sampling_of (im_format src) <> SRGB -> sampling_of (im_format mid) = SRGB -> sampling_of (im_format dst) <> SRGB ->
  not_coarser (sampling_of (im_format src)) (sampling_of (im_format dst)) = true ->
  im_color src = CYUV i -> im_color dst = CYUV i -> weights_of (yc_space i) = Some k -> yc_space i <> SpBT2020 ->
  same_light (im_color src) (im_color mid) = true ->
  forall c x y z, in_image src x y -> given m src sps c x y = Some z ->
  in_gamut k m src sps i (sampling_of (im_format dst)) x y ->
  exists z', stored lm2 b2 (after lm1 b1 m src mid) mid dst dps c x y = Some z' /\ (0 <= z' <= max_level (im_format dst))%Z /\
    let r1 := rounds (column_backend b1 (im_width src) x) in
    let r2 := rounds (column_backend b2 (im_width src) x) in
    let step := levels dst / 255 in
    - step * moved_down (yc_full_range i) r1 c - (if r2 then 1 / 2 else 1) - levels dst / 30000
    <= IZR z' - IZR z * levels dst / levels src
    <= step * moved_up (yc_full_range i) r1 c + (if r2 then 1 / 2 else 0) + levels dst / 30000.
Proof.
  intros lm1 b1 lm2 b2 m src sps mid mps dst dps i k C1 C2 LV BM SS SM SD NC CS CD WK N20 SL c x y z HI G GM.
  pose proof (converts_convertible _ _ _ _ _ _ _ C1) as T1. pose proof (converts_convertible _ _ _ _ _ _ _ C2) as T2.
  assert (KK : k = bt601 \/ k = bt709) by (destruct (matrix_known _ _ WK N20) as [(_ & ->)|(_ & ->)]; auto).
  set (m' := after lm1 b1 m src mid) in *.
  pose proof (max_level_R (im_format dst)) as MR. pose proof (max_level_R (im_format src)) as MS. fold (levels dst) in MR. fold (levels src) in MS.
  assert (BM' : bytes_ok m') by (eapply after_bytes; eauto).
  assert (SL' : same_light (im_color mid) (im_color dst) = true).
  { rewrite CD, <- CS. revert SL. unfold same_light.
    destruct (ci_transfer (im_color src)), (ci_transfer (im_color mid)), (ci_primaries (im_color src)), (ci_primaries (im_color mid)); cbn; congruence. }
  assert (HIM : forall x y, in_image src x y -> in_image mid x y).
  { intros x' y'. unfold in_image. rewrite (cv_width _ _ _ _ T1), (cv_height _ _ _ _ T1). tauto. }
  assert (HID : forall x y, in_image src x y -> in_image dst x y).
  { intros x' y'. unfold in_image. rewrite (cv_width _ _ _ _ T1), (cv_height _ _ _ _ T1), (cv_width _ _ _ _ T2), (cv_height _ _ _ _ T2). tauto. }
  assert (EW : (im_width mid mod 2 = 0)%nat) by apply T1.
  assert (EH : (im_height mid mod 2 = 0)%nat) by apply T1.
  set (r1 := rounds (column_backend b1 (im_width mid) x)).
  set (smp := fun c x y => level m' (im_format mid) mps c x y / 255).
  assert (ER : forall p, In p ((x, y) :: chroma_block (sampling_of (im_format dst)) x y) -> forall c q,
    (c = CR /\ q = red_at k m src sps i (fst p) (snd p)) \/ (c = CG /\ q = green_at k m src sps i (fst p) (snd p)) \/ (c = CB /\ q = blue_at k m src sps i (fst p) (snd p)) ->
    e_lo r1 / 255 <= smp c (fst p) (snd p) - q <= e_hi r1 / 255).
  { intros p HP c' q HQ.
    assert (PI : in_image mid (fst p) (snd p)) by (eapply block_in_image; [exact EW|exact EH|apply HIM, HI|exact HP]).
    destruct (C49_yuv_to_rgb_accuracy lm1 b1 m src sps mid mps i k C1 LV SS SM CS WK N20 SL (fst p) (snd p) PI c' q HQ) as (z1 & S1 & F1 & R1).
    assert (Q01 : 0 <= 255 * q <= 255) by (destruct (GM p HP) as (? & ? & ?); destruct HQ as [(-> & ->)|[(-> & ->)|(-> & ->)]]; lra).
    rewrite clamp_id in F1 by exact Q01. apply stored_slack in F1.
    rewrite (pair_backend b1 _ _ x EW (block_pair _ _ _ _ HP)) in F1. fold r1 in F1. unfold smp, level, m', after.
    unfold stored in S1. rewrite S1. unfold slack in F1. fold r1 in F1. unfold e_lo, e_hi. destruct r1; lra. }
  assert (HC : has_comp (im_format dst) c = true).
  { apply given_comp in G. unfold has_comp in *. destruct (sampling_of (im_format src)) eqn:E1; try congruence; destruct (sampling_of (im_format dst)) eqn:E2; try congruence; exact G. }
  destruct (C48_rgb_to_yuv_accuracy lm2 b2 m' mid mps dst dps i k C2 BM' SM SD CD WK N20 SL' c x y HC (HID _ _ HI)) as (z' & S2 & F2 & R2).
  exists z'. split; [exact S2|]. split; [exact R2|]. cbv zeta.
  set (ideal := ideal_level k (yc_full_range i) (im_format dst)) in *.
  assert (CC : c = CY \/ c = CU \/ c = SpecGeom.CV).
  { unfold has_comp in HC. destruct (sampling_of (im_format dst)), c; auto; congruence. }
  assert (T : ideal (red_at k m src sps i) (green_at k m src sps i) (blue_at k m src sps i) c x y = IZR z * levels dst / levels src).
  { unfold ideal. rewrite (same_space_ideal (yc_space i)) by (assumption || apply (matrix_known _ _ WK N20)). fold (levels dst).
    assert (LZ : level m (im_format src) sps c x y = IZR z) by (unfold level; unfold given in G; rewrite G; reflexivity).
    assert (SH : forall p, c = CU \/ c = SpecGeom.CV -> In p (chroma_block (sampling_of (im_format dst)) x y) ->
      level m (im_format src) sps c (fst p) (snd p) = IZR z).
    { intros p HCC HP. rewrite <- LZ. unfold level. erewrite shared_chroma by eassumption. reflexivity. }
    destruct CC as [-> |[-> | ->]].
    - unfold y_at. rewrite LZ. fold (levels src). apply rescale_y; lra.
    - rewrite (chroma_mean_const _ _ (level_c (yc_full_range i) (levels src) (IZR z))).
      + apply rescale_c; lra.
      + intros p HP. unfold u_at. rewrite SH; auto.
    - rewrite (chroma_mean_const _ _ (level_c (yc_full_range i) (levels src) (IZR z))).
      + apply rescale_c; lra.
      + intros p HP. unfold v_at. rewrite SH; auto. }
  rewrite <- T.
  assert (D : - (levels dst / 255) * moved_down (yc_full_range i) r1 c - levels dst / 50000
    <= ideal (smp CR) (smp CG) (smp CB) c x y - ideal (red_at k m src sps i) (green_at k m src sps i) (blue_at k m src sps i) c x y
    <= levels dst / 255 * moved_up (yc_full_range i) r1 c + levels dst / 50000).
  { assert (OFF : forall a b, a = b + 255 * (a - b) / 255) by (intros; field).
    pose proof (ER (x, y) (or_introl eq_refl)) as E0. cbn [fst snd] in E0.
    pose proof (E0 CR _ (or_introl (conj eq_refl eq_refl))) as ER0. pose proof (E0 CG _ (or_intror (or_introl (conj eq_refl eq_refl)))) as EG0.
    pose proof (E0 CB _ (or_intror (or_intror (conj eq_refl eq_refl)))) as EB0.
    assert (EM : forall c q, (c = CR /\ q = red_at k m src sps i) \/ (c = CG /\ q = green_at k m src sps i) \/ (c = CB /\ q = blue_at k m src sps i) ->
      e_lo r1 / 255 <= chroma_mean (sampling_of (im_format dst)) (smp c) x y - chroma_mean (sampling_of (im_format dst)) q x y <= e_hi r1 / 255).
    { intros c' q HQ. apply chroma_mean_between. intros p HP. apply (ER p (or_intror HP)).
      destruct HQ as [(-> & ->)|[(-> & ->)|(-> & ->)]]; auto. }
    pose proof (EM CR _ (or_introl (conj eq_refl eq_refl))) as ER1. pose proof (EM CG _ (or_intror (or_introl (conj eq_refl eq_refl)))) as EG1.
    pose proof (EM CB _ (or_intror (or_intror (conj eq_refl eq_refl)))) as EB1. clear EM E0 ER.
    unfold ideal, ideal_level. fold (levels dst).
    rewrite (OFF (smp CR x y) (red_at k m src sps i x y)), (OFF (smp CG x y) (green_at k m src sps i x y)), (OFF (smp CB x y) (blue_at k m src sps i x y)).
    rewrite (OFF (chroma_mean _ (smp CR) x y) (chroma_mean (sampling_of (im_format dst)) (red_at k m src sps i) x y)),
      (OFF (chroma_mean _ (smp CG) x y) (chroma_mean (sampling_of (im_format dst)) (green_at k m src sps i) x y)),
      (OFF (chroma_mean _ (smp CB) x y) (chroma_mean (sampling_of (im_format dst)) (blue_at k m src sps i) x y)).
    assert (N1 : 1 <= levels dst) by lra.
    pose proof (encode_off_by k (yc_full_range i) (levels dst) (red_at k m src sps i x y) (green_at k m src sps i x y) (blue_at k m src sps i x y) (255 * (smp CR x y - red_at k m src sps i x y))
      (255 * (smp CG x y - green_at k m src sps i x y)) (255 * (smp CB x y - blue_at k m src sps i x y)) (e_lo r1) (e_hi r1) KK N1 ltac:(lra) ltac:(lra) ltac:(lra)) as (Y1 & _ & _).
    set (s := sampling_of (im_format dst)) in *.
    pose proof (encode_off_by k (yc_full_range i) (levels dst) (chroma_mean s (red_at k m src sps i) x y) (chroma_mean s (green_at k m src sps i) x y) (chroma_mean s (blue_at k m src sps i) x y)
      (255 * (chroma_mean s (smp CR) x y - chroma_mean s (red_at k m src sps i) x y)) (255 * (chroma_mean s (smp CG) x y - chroma_mean s (green_at k m src sps i) x y))
      (255 * (chroma_mean s (smp CB) x y - chroma_mean s (blue_at k m src sps i) x y)) (e_lo r1) (e_hi r1) KK N1 ltac:(lra) ltac:(lra) ltac:(lra)) as (_ & U1 & V1).
    destruct CC as [-> |[-> | ->]]; unfold moved_down, moved_up.
    - clear U1 V1. set (d := y_level _ _ _ - _) in *. clearbody d. unfold e_lo, e_hi in Y1. destruct (yc_full_range i), r1; lra.
    - clear Y1 V1. set (d := c_level _ _ _ - _) in *. clearbody d. unfold e_lo, e_hi in U1. destruct (yc_full_range i), r1; lra.
    - clear Y1 U1. set (d := c_level _ _ _ - _) in *. clearbody d. unfold e_lo, e_hi in V1. destruct (yc_full_range i), r1; lra. }
  apply stored_slack in F2. fold (levels dst) in F2.
  rewrite (cv_width _ _ _ _ T1). rewrite <- (cv_width _ _ _ _ T2) in F2. fold r1.
  change (fun x y => level m' (im_format mid) mps CR x y / 255) with (smp CR) in F2.
  change (fun x y => level m' (im_format mid) mps CG x y / 255) with (smp CG) in F2.
  change (fun x y => level m' (im_format mid) mps CB x y / 255) with (smp CB) in F2.
  fold ideal in F2. unfold slack in F2. destruct (rounds (column_backend b2 (im_width mid) x)); lra.
Qed.
Print Assumptions C73_deep_round_trip.

(** Largest change of a sample, down and up, when source and destination have
    the same bit depth of 10 or 12 *)
Definition deep_change (f : pixel_format) (full r1 r2 : bool) : Z * Z :=
  (if (max_level f =? 1023)%Z
  then match r1, r2 with
       | true, true => (2, 2)
       | true, false => if full then (3, 2) else (2, 1)
       | false, true => if full then (4, 2) else (3, 2)
       | false, false => if full then (5, 2) else (4, 1)
       end
  else match r1, r2 with
       | true, true => if full then (8, 8) else (7, 7)
       | true, false => if full then (9, 8) else (8, 7)
       | false, true => if full then (16, 8) else (14, 7)
       | false, false => if full then (17, 8) else (14, 7)
       end)%Z.

Theorem C73_deep_same_depth : forall lm1 b1 lm2 b2 m src sps mid mps dst dps i k,
  converts lm1 b1 m src sps mid mps -> converts lm2 b2 (after lm1 b1 m src mid) mid mps dst dps ->
  levels_ok m src sps -> bytes_ok m ->
  sampling_of (im_format src) <> SRGB -> sampling_of (im_format mid) = SRGB -> sampling_of (im_format dst) <> SRGB ->
  max_level (im_format src) = max_level (im_format dst) -> max_level (im_format dst) <> 255%Z ->
  not_coarser (sampling_of (im_format src)) (sampling_of (im_format dst)) = true ->
  im_color src = CYUV i -> im_color dst = CYUV i -> weights_of (yc_space i) = Some k -> yc_space i <> SpBT2020 ->
  same_light (im_color src) (im_color mid) = true ->
  forall c x y z, in_image src x y -> given m src sps c x y = Some z ->
  in_gamut k m src sps i (sampling_of (im_format dst)) x y ->
  exists z', stored lm2 b2 (after lm1 b1 m src mid) mid dst dps c x y = Some z' /\
    let ch := deep_change (im_format dst) (yc_full_range i) (rounds (column_backend b1 (im_width src) x)) (rounds (column_backend b2 (im_width src) x)) in
    (z - fst ch <= z' <= z + snd ch)%Z.
Proof.
  intros lm1 b1 lm2 b2 m src sps mid mps dst dps i k C1 C2 LV BM SS SM SD ME M8 NC CS CD WK N20 SL c x y z HI G GM.
  destruct (C73_deep_round_trip lm1 b1 lm2 b2 m src sps mid mps dst dps i k C1 C2 LV BM SS SM SD NC CS CD WK N20 SL c x y z HI G GM) as (z' & S & _ & B).
  exists z'. split; [exact S|]. cbv zeta in *.
  assert (LE : levels src = levels dst) by (unfold levels; rewrite ME; reflexivity).
  pose proof (max_level_R (im_format dst)) as MR. fold (levels dst) in MR. rewrite LE in B.
  replace (IZR z * levels dst / levels dst) with (IZR z) in B by (field; lra).
  set (r1 := rounds (column_backend b1 (im_width src) x)) in *. set (r2 := rounds (column_backend b2 (im_width src) x)) in *.
  assert (Z : forall lo hi : Z, - IZR lo - 1 < IZR z' - IZR z < IZR hi + 1 -> (z - lo <= z' <= z + hi)%Z).
  { intros lo hi (A & B'). assert (- lo - 1 < z' - z)%Z by (apply lt_IZR; rewrite !minus_IZR, opp_IZR; exact A).
    assert (z' - z < hi + 1)%Z by (apply lt_IZR; rewrite minus_IZR, plus_IZR; exact B'). lia. }
  apply Z. clear Z.
  assert (E : (max_level (im_format dst) = 1023%Z \/ max_level (im_format dst) = 4095%Z)).
  { destruct (im_format dst); cbn in *; auto; congruence. }
  unfold deep_change, levels in *. destruct E as [E|E]; rewrite E in *; cbn [Z.eqb Pos.eqb];
    unfold moved_down, moved_up in B; destruct c, (yc_full_range i), r1, r2; cbn [fst snd]; lra.
Qed.
Print Assumptions C73_deep_same_depth.

(** A 10-bit image of level 515 to RGBA and back: RGB does not have all
    levels, (515, 515, 515) returns as (513, 514, 514). *)
Example C73_deep_example : forall b,
  let m' := after ex_lm b mid_mem deep_i010 (ex_rgba22 0 TLinear) in
  converts ex_lm b mid_mem deep_i010 wide_planes10 (ex_rgba22 0 TLinear) (ex_rgba_planes 0) /\
  converts ex_lm b m' (ex_rgba22 0 TLinear) (ex_rgba_planes 0) deep_again deep_planes2 /\
  levels_ok mid_mem deep_i010 wide_planes10 /\ bytes_ok mid_mem /\
  in_gamut bt601 mid_mem deep_i010 wide_planes10 (YuvCI TLinear PrBT709 SpBT601 false) S420 0 0 /\
  same_light (im_color deep_i010) (im_color (ex_rgba22 0 TLinear)) = true /\
  map (fun c => given mid_mem deep_i010 wide_planes10 c 0 0) [CY; CU; SpecGeom.CV] = [Some 515; Some 515; Some 515]%Z /\
  map (fun c => stored ex_lm b m' (ex_rgba22 0 TLinear) deep_again deep_planes2 c 0 0) [CY; CU; SpecGeom.CV] = [Some 513; Some 514; Some 514]%Z.
Proof.
  intros b m'.
  assert (DJ : planes_disjoint deep_planes2).
  { intros i j a c H Ha Hc k K. destruct i as [|[|[|i]]], j as [|[|[|j]]]; cbn in Ha, Hc; try discriminate Ha; try discriminate Hc;
      try (destruct (H eq_refl)); try (destruct i; discriminate Ha); try (destruct j; discriminate Hc);
      injection Ha as <-; injection Hc as <-; cbn in K; lia. }
  split.
  { apply runs; [| |apply single_disjoint|discriminate|destruct b; vm_compute; reflexivity];
      (split; [reflexivity|split; [repeat constructor; cbn; unfold usize; cbn; lia|reflexivity]]). }
  split.
  { apply runs; [| |exact DJ|discriminate|destruct b; vm_compute; reflexivity];
      (split; [reflexivity|split; [repeat constructor; cbn; unfold usize; cbn; lia|reflexivity]]). }
  assert (LV : forall c x y z, in_image deep_i010 x y -> given mid_mem deep_i010 wide_planes10 c x y = Some z -> z = 515%Z).
  { intros c x y z (HX & HY) G. cbn in HX, HY.
    destruct x as [|[|x]], y as [|[|y]]; try lia; destruct c; vm_compute in G; try discriminate G; injection G as <-; reflexivity. }
  split.
  { intros c x y z HI G. rewrite (LV c x y z HI G). cbn. lia. }
  split.
  { intros k j. unfold mid_mem. destruct (Nat.even j); lia. }
  split.
  { assert (E : forall p, In p ((0%nat, 0%nat) :: chroma_block S420 0 0) -> forall c, c = CY \/ c = CU \/ c = SpecGeom.CV ->
      level mid_mem (im_format deep_i010) wide_planes10 c (fst p) (snd p) = 515).
    { intros p HP c HC. unfold level. cbn in HP. repeat destruct HP as [<- |HP]; try contradiction; destruct HC as [-> |[-> | ->]]; reflexivity. }
    intros p HP. unfold red_at, green_at, blue_at, y_at, u_at, v_at. rewrite !(E p HP) by auto.
    cbn [yc_full_range]. change (IZR (max_level (im_format deep_i010))) with 1023. unfold level_y, level_c. unfold_k. lra. }
  split; [reflexivity|]. split; [reflexivity|]. destruct b; vm_compute; reflexivity.
Qed.
