(** C73: what is lost when a YUV image is converted to RGB and back. *)

From Coq Require Import List ZArith Bool Arith Reals Lia Lra Psatz.
From Flocq Require Import Core.
From Verif Require Import Base Types Planes ImageM F32 Vector Simd SpecGeom SpecVector GeomProofs SimdProofs
  SpecColor SpecConvert SpecRun Convert ReadProofs WriteProofs VisitProofs ConvertProofs PropConvert PropFidelity SpecReal AccProofs TargetProofs PropColor PropRound PropDrift.
Import ListNotations.
Local Open Scope R_scope.

(** Both columns of a pair are processed by the same code. *)
Lemma pair_backend : forall b w x x', (w mod 2 = 0)%nat -> (x / 2 = x' / 2)%nat -> column_backend b w x = column_backend b w x'.
Proof.
  intros b w x x' E H. unfold column_backend.
  assert (V : exists n, vector_columns (lanes b) w = (2 * n)%nat).
  { exists (lanes b * (w / (lanes b * 2)))%nat. unfold vector_columns.
    assert (0 < lanes b)%nat by (destruct b; cbn; lia). pose proof (Nat.div_mod w (lanes b * 2) ltac:(lia)). nia. }
  destruct V as (n & ->). pose proof (Nat.div_mod x 2 ltac:(lia)). pose proof (Nat.div_mod x' 2 ltac:(lia)).
  pose proof (Nat.mod_upper_bound x 2 ltac:(lia)). pose proof (Nat.mod_upper_bound x' 2 ltac:(lia)).
  replace (x <? 2 * n)%nat with (x' <? 2 * n)%nat; [reflexivity|]. apply eq_true_iff_eq. rewrite !Nat.ltb_lt. lia.
Qed.

Lemma block_pair : forall s x y p, In p ((x, y) :: chroma_block s x y) -> (fst p / 2 = x / 2)%nat.
Proof.
  intros s x y p H. unfold chroma_block in H. destruct s; cbn [In] in H;
    repeat (destruct H as [<- |H]; [cbn [fst]; rewrite ?div2_even, ?div2_odd; reflexivity|]); contradiction.
Qed.

Lemma chroma_mean_between : forall s q q' lo hi x y,
  (forall p, In p (chroma_block s x y) -> lo <= q (fst p) (snd p) - q' (fst p) (snd p) <= hi) ->
  lo <= chroma_mean s q x y - chroma_mean s q' x y <= hi.
Proof.
  intros s q q' lo hi x y H. unfold chroma_mean, mean. destruct s; unfold chroma_block in *; cbn [map fold_right length fst snd] in *.
  - pose proof (H _ (or_introl eq_refl)). pose proof (H _ (or_intror (or_introl eq_refl))).
    pose proof (H _ (or_intror (or_intror (or_introl eq_refl)))). pose proof (H _ (or_intror (or_intror (or_intror (or_introl eq_refl))))).
    cbn [fst snd] in *. simpl INR. lra.
  - pose proof (H _ (or_introl eq_refl)). pose proof (H _ (or_intror (or_introl eq_refl))). cbn [fst snd] in *. simpl INR. lra.
  - pose proof (H _ (or_introl eq_refl)). cbn [fst snd] in *. simpl INR. lra.
  - pose proof (H _ (or_introl eq_refl)). cbn [fst snd] in *. simpl INR. lra.
Qed.

(** Error of a component in RGB, lowest and highest *)
Definition e_lo (r : bool) : R := if r then - (1 / 2) - 255 / 50000 else -1 - 255 / 50000.
Definition e_hi (r : bool) : R := if r then 1 / 2 + 255 / 50000 else 255 / 50000.

(** Levels of a color that is off by [er], [eg], [eb] levels *)
Lemma encode_off : forall k (full : bool) r g b er eg eb lo hi, (k = bt601 \/ k = bt709) ->
  lo <= er <= hi -> lo <= eg <= hi -> lo <= eb <= hi ->
  let s := if full then 1 else 219 / 255 in
  let t := if full then 1 else 224 / 255 in
  s * lo <= y_level full 255 (luma k (r + er / 255) (g + eg / 255) (b + eb / 255)) - y_level full 255 (luma k r g b) <= s * hi /\
  - t * ((hi - lo) / 2) <= c_level full 255 (cb k (r + er / 255) (g + eg / 255) (b + eb / 255)) - c_level full 255 (cb k r g b) <= t * ((hi - lo) / 2) /\
  - t * ((hi - lo) / 2) <= c_level full 255 (cr k (r + er / 255) (g + eg / 255) (b + eb / 255)) - c_level full 255 (cr k r g b) <= t * ((hi - lo) / 2).
Proof.
  intros k full r g b er eg eb lo hi K HR HG HB s t. subst s t. unfold y_level, c_level.
  destruct K as [-> | ->]; destruct full; unfold_k; (split; [lra|split; lra]).
Qed.

(** All colors that sample ([x], [y]) covers are colors of RGB. *)
Definition in_gamut (k : weights) (m : mem) (im : image) (ps : list (slice * nat)) (i : yuv_color_info) (s : sampling) (x y : nat) : Prop :=
  forall p, In p ((x, y) :: chroma_block s x y) ->
  0 <= red_at k m im ps i (fst p) (snd p) <= 1 /\ 0 <= green_at k m im ps i (fst p) (snd p) <= 1 /\ 0 <= blue_at k m im ps i (fst p) (snd p) <= 1.

(** 8-bit YUV to RGB and back to YUV that is not sub-sampled more (BT.601,
    BT.709).  Limited range: a sample is kept exactly if both conversions round
    and is kept or one less otherwise.  Full range: it is at most one more and
    at most one less, two less if both conversions truncate. *)
Theorem C73_yuv_round_trip : forall lm1 b1 lm2 b2 m src sps mid mps dst dps i k,
  converts lm1 b1 m src sps mid mps -> converts lm2 b2 (after lm1 b1 m src mid) mid mps dst dps -> bytes_ok m ->
  sampling_of (im_format src) <> SRGB -> sampling_of (im_format mid) = SRGB -> sampling_of (im_format dst) <> SRGB ->
  max_level (im_format src) = 255%Z -> max_level (im_format dst) = 255%Z ->
  not_coarser (sampling_of (im_format src)) (sampling_of (im_format dst)) = true ->
  im_color src = CYUV i -> im_color dst = CYUV i -> weights_of (yc_space i) = Some k -> yc_space i <> SpBT2020 ->
  same_light (im_color src) (im_color mid) = true ->
  forall c x y z, in_image src x y -> given m src sps c x y = Some z ->
  in_gamut k m src sps i (sampling_of (im_format dst)) x y ->
  exists z', stored lm2 b2 (after lm1 b1 m src mid) mid dst dps c x y = Some z' /\
    let r1 := rounds (column_backend b1 (im_width src) x) in
    let r2 := rounds (column_backend b2 (im_width src) x) in
    if yc_full_range i
    then (z - (if r1 || r2 then 1 else 2) <= z' <= z + (if r2 then 1 else 0))%Z
    else (z - (if r1 && r2 then 0 else 1) <= z' <= z)%Z.
Proof.
  intros lm1 b1 lm2 b2 m src sps mid mps dst dps i k C1 C2 BM SS SM SD MS MD NC CS CD WK N20 SL c x y z HI G GM.
  pose proof (converts_convertible _ _ _ _ _ _ _ C1) as T1. pose proof (converts_convertible _ _ _ _ _ _ _ C2) as T2.
  assert (KK : k = bt601 \/ k = bt709) by (destruct (matrix_known _ _ WK N20) as [(_ & ->)|(_ & ->)]; auto).
  set (m' := after lm1 b1 m src mid) in *.
  assert (BM' : bytes_ok m') by (eapply after_bytes; eauto).
  assert (SL' : same_light (im_color mid) (im_color dst) = true).
  { rewrite CD, <- CS. revert SL. unfold same_light.
    destruct (ci_transfer (im_color src)), (ci_transfer (im_color mid)), (ci_primaries (im_color src)), (ci_primaries (im_color mid)); cbn; congruence. }
  assert (LV : levels_ok m src sps).
  { apply bytes_levels; [exact BM|]. destruct (im_format src); try discriminate MS; reflexivity. }
  assert (HIM : forall x y, in_image src x y -> in_image mid x y).
  { intros x' y'. unfold in_image. rewrite (cv_width _ _ _ _ T1), (cv_height _ _ _ _ T1). tauto. }
  assert (HID : forall x y, in_image src x y -> in_image dst x y).
  { intros x' y'. unfold in_image. rewrite (cv_width _ _ _ _ T1), (cv_height _ _ _ _ T1), (cv_width _ _ _ _ T2), (cv_height _ _ _ _ T2). tauto. }
  assert (EW : (im_width mid mod 2 = 0)%nat) by apply T1.
  assert (EH : (im_height mid mod 2 = 0)%nat) by apply T1.
  set (r1 := rounds (column_backend b1 (im_width mid) x)).
  (* the RGB image *)
  set (smp := fun c x y => level m' (im_format mid) mps c x y / 255).
  assert (ER : forall p, In p ((x, y) :: chroma_block (sampling_of (im_format dst)) x y) -> forall c q,
    (c = CR /\ q = red_at k m src sps i (fst p) (snd p)) \/ (c = CG /\ q = green_at k m src sps i (fst p) (snd p)) \/ (c = CB /\ q = blue_at k m src sps i (fst p) (snd p)) ->
    e_lo r1 / 255 <= smp c (fst p) (snd p) - q <= e_hi r1 / 255).
  { intros p HP c' q HQ.
    assert (PI : in_image mid (fst p) (snd p)) by (eapply block_in_image; [exact EW|exact EH|apply HIM, HI|exact HP]).
    destruct (C49_yuv_to_rgb_accuracy lm1 b1 m src sps mid mps i k C1 LV SS SM CS WK N20 SL (fst p) (snd p) PI c' q HQ) as (z1 & S1 & F1 & R1).
    assert (Q01 : 0 <= 255 * q <= 255) by (destruct (GM p HP) as (? & ? & ?); destruct HQ as [(-> & ->)|[(-> & ->)|(-> & ->)]]; lra).
    rewrite clamp_id in F1 by exact Q01. apply stored_slack in F1.
    rewrite (pair_backend b1 _ _ x EW (block_pair _ _ _ _ HP)) in F1. fold r1 in F1. unfold smp, level, m', after.
    unfold stored in S1. rewrite S1. unfold slack in F1. fold r1 in F1. unfold e_lo, e_hi. destruct r1; lra. }
  assert (HC : has_comp (im_format dst) c = true).
  { apply given_comp in G. unfold has_comp in *. destruct (sampling_of (im_format src)) eqn:E1; try congruence; destruct (sampling_of (im_format dst)) eqn:E2; try congruence; exact G. }
  destruct (C48_rgb_to_yuv_accuracy lm2 b2 m' mid mps dst dps i k C2 BM' SM SD CD WK N20 SL' c x y HC (HID _ _ HI)) as (z' & S2 & F2 & R2).
  exists z'. split; [exact S2|].
  set (ideal := ideal_level k (yc_full_range i) (im_format dst)) in *.
  assert (T : ideal (red_at k m src sps i) (green_at k m src sps i) (blue_at k m src sps i) c x y = IZR z).
  { unfold ideal. rewrite (same_space_ideal (yc_space i)) by (assumption || apply (matrix_known _ _ WK N20)).
    assert (LZ : level m (im_format src) sps c x y = IZR z) by (unfold level; unfold given in G; rewrite G; reflexivity).
    assert (CC : c = CY \/ c = CU \/ c = SpecGeom.CV).
    { unfold has_comp in HC. destruct (sampling_of (im_format dst)), c; auto; congruence. }
    assert (SH : forall p, c = CU \/ c = SpecGeom.CV -> In p (chroma_block (sampling_of (im_format dst)) x y) ->
      level m (im_format src) sps c (fst p) (snd p) = IZR z).
    { intros p HCC HP. rewrite <- LZ. unfold level. erewrite shared_chroma by eassumption. reflexivity. }
    rewrite MD. destruct CC as [-> |[-> | ->]].
    - unfold y_at. rewrite LZ, MS. apply level_y_inv; lra.
    - rewrite (chroma_mean_const _ _ (level_c (yc_full_range i) (IZR (max_level (im_format src))) (IZR z))).
      + rewrite MS. apply level_c_inv; lra.
      + intros p HP. unfold u_at. rewrite SH; auto.
    - rewrite (chroma_mean_const _ _ (level_c (yc_full_range i) (IZR (max_level (im_format src))) (IZR z))).
      + rewrite MS. apply level_c_inv; lra.
      + intros p HP. unfold v_at. rewrite SH; auto. }
  assert (D : let s := if yc_full_range i then 1 else 219 / 255 in
    let t := if yc_full_range i then 1 else 224 / 255 in
    Rmin (s * e_lo r1) (- t * ((e_hi r1 - e_lo r1) / 2)) <= ideal (smp CR) (smp CG) (smp CB) c x y - IZR z <= Rmax (s * e_hi r1) (t * ((e_hi r1 - e_lo r1) / 2)) /\
    (c = CY -> s * e_lo r1 <= ideal (smp CR) (smp CG) (smp CB) c x y - IZR z <= s * e_hi r1) /\
    (c <> CY -> - t * ((e_hi r1 - e_lo r1) / 2) <= ideal (smp CR) (smp CG) (smp CB) c x y - IZR z <= t * ((e_hi r1 - e_lo r1) / 2))).
  { cbv zeta. rewrite <- T.
    assert (CC : c = CY \/ c = CU \/ c = SpecGeom.CV).
    { unfold has_comp in HC. destruct (sampling_of (im_format dst)), c; auto; congruence. }
    assert (OFF : forall a b, a = b + 255 * (a - b) / 255) by (intros; field).
    pose proof (ER (x, y) (or_introl eq_refl)) as E0. cbn [fst snd] in E0.
    pose proof (E0 CR _ (or_introl (conj eq_refl eq_refl))) as ER0. pose proof (E0 CG _ (or_intror (or_introl (conj eq_refl eq_refl)))) as EG0.
    pose proof (E0 CB _ (or_intror (or_intror (conj eq_refl eq_refl)))) as EB0.
    assert (EM : forall c q, (c = CR /\ q = red_at k m src sps i) \/ (c = CG /\ q = green_at k m src sps i) \/ (c = CB /\ q = blue_at k m src sps i) ->
      e_lo r1 / 255 <= chroma_mean (sampling_of (im_format dst)) (smp c) x y - chroma_mean (sampling_of (im_format dst)) q x y <= e_hi r1 / 255).
    { intros c' q HQ. apply chroma_mean_between. intros p HP. apply (ER p (or_intror HP)).
      destruct HQ as [(-> & ->)|[(-> & ->)|(-> & ->)]]; auto. }
    pose proof (EM CR _ (or_introl (conj eq_refl eq_refl))) as ER1. pose proof (EM CG _ (or_intror (or_introl (conj eq_refl eq_refl)))) as EG1.
    pose proof (EM CB _ (or_intror (or_intror (conj eq_refl eq_refl)))) as EB1. clear EM E0 ER.
    unfold ideal, ideal_level. rewrite MD.
    rewrite (OFF (smp CR x y) (red_at k m src sps i x y)), (OFF (smp CG x y) (green_at k m src sps i x y)), (OFF (smp CB x y) (blue_at k m src sps i x y)).
    rewrite (OFF (chroma_mean _ (smp CR) x y) (chroma_mean (sampling_of (im_format dst)) (red_at k m src sps i) x y)),
      (OFF (chroma_mean _ (smp CG) x y) (chroma_mean (sampling_of (im_format dst)) (green_at k m src sps i) x y)),
      (OFF (chroma_mean _ (smp CB) x y) (chroma_mean (sampling_of (im_format dst)) (blue_at k m src sps i) x y)).
    pose proof (encode_off k (yc_full_range i) (red_at k m src sps i x y) (green_at k m src sps i x y) (blue_at k m src sps i x y) (255 * (smp CR x y - red_at k m src sps i x y))
      (255 * (smp CG x y - green_at k m src sps i x y)) (255 * (smp CB x y - blue_at k m src sps i x y)) (e_lo r1) (e_hi r1) KK ltac:(lra) ltac:(lra) ltac:(lra)) as (Y1 & _ & _).
    set (s := sampling_of (im_format dst)) in *.
    pose proof (encode_off k (yc_full_range i) (chroma_mean s (red_at k m src sps i) x y) (chroma_mean s (green_at k m src sps i) x y) (chroma_mean s (blue_at k m src sps i) x y)
      (255 * (chroma_mean s (smp CR) x y - chroma_mean s (red_at k m src sps i) x y)) (255 * (chroma_mean s (smp CG) x y - chroma_mean s (green_at k m src sps i) x y))
      (255 * (chroma_mean s (smp CB) x y - chroma_mean s (blue_at k m src sps i) x y)) (e_lo r1) (e_hi r1) KK ltac:(lra) ltac:(lra) ltac:(lra)) as (_ & U1 & V1).
    destruct CC as [-> |[-> | ->]]; (split; [|split; intros H; try discriminate H; try contradiction; try (destruct (H eq_refl)); assumption]).
    - split; [eapply Rle_trans; [apply Rmin_l|apply Y1]|eapply Rle_trans; [apply Y1|apply Rmax_l]].
    - split; [eapply Rle_trans; [apply Rmin_r|apply U1]|eapply Rle_trans; [apply U1|apply Rmax_r]].
    - split; [eapply Rle_trans; [apply Rmin_r|apply V1]|eapply Rle_trans; [apply V1|apply Rmax_r]]. }
  destruct D as (_ & DY & DC). apply stored_slack in F2. rewrite MD in F2. cbv zeta.
  rewrite (cv_width _ _ _ _ T1). rewrite <- (cv_width _ _ _ _ T2) in F2. fold r1.
  change (fun x y => level m' (im_format mid) mps CR x y / 255) with (smp CR) in F2.
  change (fun x y => level m' (im_format mid) mps CG x y / 255) with (smp CG) in F2.
  change (fun x y => level m' (im_format mid) mps CB x y / 255) with (smp CB) in F2.
  fold ideal in F2. set (t := ideal (smp CR) (smp CG) (smp CB) c x y) in *.
  unfold slack in F2. set (r2 := rounds (column_backend b2 (im_width mid) x)) in *.
  assert (Z : forall lo hi : Z, IZR lo - 1 < IZR z' - IZR z < IZR hi + 1 -> (z + lo <= z' <= z + hi)%Z).
  { intros lo hi (A & B). assert (lo - 1 < z' - z)%Z by (apply lt_IZR; rewrite !minus_IZR; exact A).
    assert (z' - z < hi + 1)%Z by (apply lt_IZR; rewrite minus_IZR, plus_IZR; exact B). lia. }
  assert (DD : (c = CY \/ c <> CY)) by (destruct c; auto; right; discriminate).
  destruct DD as [EY|NY]; [specialize (DY EY); clear DC; rename DY into DD|specialize (DC NY); clear DY; rename DC into DD];
    unfold e_lo, e_hi in DD; destruct (yc_full_range i), r1, r2; cbn [orb andb];
    match goal with
    | |- (z - ?a <= z' <= z + ?b)%Z => let a' := eval compute in (- a)%Z in assert (z + a' <= z' <= z + b)%Z by (apply Z; lra); lia
    | |- (z - ?a <= z' <= z)%Z => let a' := eval compute in (- a)%Z in assert (z + a' <= z' <= z + 0)%Z by (apply Z; lra); lia
    end.
Qed.
Print Assumptions C73_yuv_round_trip.

(** * Again and again *)

(** [returns bs m src sps m' last lps]: the 8-bit limited range YUV image [src]
    is converted to RGB and this to a YUV image of the same color that is not
    sub-sampled more, and so on. *)
Inductive returns (i : yuv_color_info) : list (backend * backend) -> mem -> image -> list (slice * nat) -> mem -> image -> list (slice * nat) -> Prop :=
| returns_none : forall m im ps, returns i [] m im ps m im ps
| returns_step : forall lm1 b1 lm2 b2 bs m src sps mid mps dst dps m' last lps,
    converts lm1 b1 m src sps mid mps -> converts lm2 b2 (after lm1 b1 m src mid) mid mps dst dps ->
    sampling_of (im_format src) <> SRGB -> sampling_of (im_format mid) = SRGB -> sampling_of (im_format dst) <> SRGB ->
    max_level (im_format src) = 255%Z -> max_level (im_format dst) = 255%Z ->
    not_coarser (sampling_of (im_format src)) (sampling_of (im_format dst)) = true ->
    im_color src = CYUV i -> im_color dst = CYUV i -> same_light (im_color src) (im_color mid) = true ->
    returns i bs (after lm2 b2 (after lm1 b1 m src mid) mid dst) dst dps m' last lps ->
    returns i ((b1, b2) :: bs) m src sps m' last lps.

(** All colors of the image are colors of RGB. *)
Definition all_in_gamut (k : weights) (m : mem) (im : image) (ps : list (slice * nat)) (i : yuv_color_info) : Prop :=
  forall x y, in_image im x y ->
  0 <= red_at k m im ps i x y <= 1 /\ 0 <= green_at k m im ps i x y <= 1 /\ 0 <= blue_at k m im ps i x y <= 1.

Definition all_round (b : backend) (w : nat) : Prop := forall x, (x < w)%nat -> rounds (column_backend b w x) = true.

(** If all columns are processed with the vectors of AVX2 or AVX-512 the image
    is never changed, however often it goes to RGB and back. *)
Theorem C73_lossless : forall i k bs m src sps m' last lps,
  returns i bs m src sps m' last lps -> bytes_ok m ->
  yc_full_range i = false -> weights_of (yc_space i) = Some k -> yc_space i <> SpBT2020 ->
  all_in_gamut k m src sps i ->
  (forall b, In b bs -> all_round (fst b) (im_width src) /\ all_round (snd b) (im_width src)) ->
  forall c x y z, in_image src x y -> given m src sps c x y = Some z -> given m' last lps c x y = Some z.
Proof.
  intros i k bs m src sps m' last lps R.
  induction R as [m im ps|lm1 b1 lm2 b2 bs m src sps mid mps dst dps m' last lps C1 C2 SS SM SD MS MD NC CS CD SL R IH]; intros BM LIM WK N20 GM RD c x y z HI G.
  { exact G. }
  pose proof (converts_convertible _ _ _ _ _ _ _ C1) as T1. pose proof (converts_convertible _ _ _ _ _ _ _ C2) as T2.
  assert (WD : im_width dst = im_width src) by (rewrite (cv_width _ _ _ _ T1), (cv_width _ _ _ _ T2); reflexivity).
  assert (HD : im_height dst = im_height src) by (rewrite (cv_height _ _ _ _ T1), (cv_height _ _ _ _ T2); reflexivity).
  assert (ONE : forall c x y z, in_image src x y -> given m src sps c x y = Some z ->
    given (after lm2 b2 (after lm1 b1 m src mid) mid dst) dst dps c x y = Some z).
  { intros c0 x0 y0 z0 HI0 G0.
    destruct (C73_yuv_round_trip lm1 b1 lm2 b2 m src sps mid mps dst dps i k C1 C2 BM SS SM SD MS MD NC CS CD WK N20 SL c0 x0 y0 z0 HI0 G0) as (z' & S & B).
    { intros p HP. apply GM. eapply block_in_image; [| |exact HI0|exact HP].
      - rewrite (cv_width _ _ _ _ T1). apply T1.
      - rewrite (cv_height _ _ _ _ T1). apply T1. }
    cbv zeta in B. destruct (RD _ (or_introl eq_refl)) as (R1 & R2). cbn [fst snd] in R1, R2.
    rewrite LIM, (R1 x0 (proj1 HI0)), (R2 x0 (proj1 HI0)) in B. cbn [andb] in B. replace z0 with z' by lia. exact S. }
  assert (BM' : bytes_ok (after lm2 b2 (after lm1 b1 m src mid) mid dst)) by (eapply after_bytes; [exact T2|]; eapply after_bytes; [exact T1|exact BM]).
  apply IH; try assumption.
  - intros x' y' HI'. assert (HS : in_image src x' y') by (unfold in_image in *; rewrite WD, HD in HI'; exact HI').
    assert (LE : forall c, c = CY \/ c = CU \/ c = SpecGeom.CV ->
      level (after lm2 b2 (after lm1 b1 m src mid) mid dst) (im_format dst) dps c x' y' = level m (im_format src) sps c x' y').
    { intros c' HC'. destruct (given_some m src sps c' x' y') as (z' & G'); [apply C1| |].
      - unfold has_comp. destruct (sampling_of (im_format src)); try congruence; destruct HC' as [-> |[-> | ->]]; reflexivity.
      - pose proof (ONE c' x' y' z' HS G') as O. unfold level. unfold given in O, G'. rewrite O, G'. reflexivity. }
    specialize (GM x' y' HS). unfold red_at, green_at, blue_at, y_at, u_at, v_at in *. rewrite MD. rewrite MS in GM. rewrite !LE by auto. exact GM.
  - intros b HB. rewrite WD. apply RD. right. exact HB.
  - unfold in_image in *. rewrite WD, HD. exact HI.
  - apply ONE; assumption.
Qed.
Print Assumptions C73_lossless.

(** A 16 x 2 image of one color, I420 to RGB to NV12, limited range BT.709 *)
Definition ret_i420 : image := ex_image I420 16 2 drift_709 wide_i420_planes.
Definition ret_rgb_planes : list (slice * nat) := [(Slice 2 0 96, 48)]%nat.
Definition ret_rgb : image := ex_image RGB 16 2 ex_rgb ret_rgb_planes.
Definition ret_nv12 : image := ex_image NV12 16 2 drift_709 wide_nv12_planes.
Definition ret_mem : mem := flat_mem 120 110 140 32 8.

Lemma wide_nv12_disjoint : planes_disjoint wide_nv12_planes.
Proof.
  intros i j a c H Ha Hc k K. destruct i as [|[|i]], j as [|[|j]]; cbn in Ha, Hc; try discriminate Ha; try discriminate Hc;
    try (destruct (H eq_refl)); try (destruct i; discriminate Ha); try (destruct j; discriminate Hc);
    injection Ha as <-; injection Hc as <-; cbn in K; lia.
Qed.

Lemma ret_level : forall x y, in_image ret_i420 x y ->
  level ret_mem I420 wide_i420_planes CY x y = 120 /\ level ret_mem I420 wide_i420_planes CU x y = 110 /\ level ret_mem I420 wide_i420_planes SpecGeom.CV x y = 140.
Proof.
  intros x y (X & Y). cbn in X, Y. do 16 (destruct x as [|x]; [destruct y as [|[|y]]; [repeat split; reflexivity|repeat split; reflexivity|lia]|]). lia.
Qed.

Example C73_example : forall m, bytes_ok ret_mem /\
  converts ex_lm AVX2 ret_mem ret_i420 wide_i420_planes ret_rgb ret_rgb_planes /\
  converts ex_lm AVX2 m ret_rgb ret_rgb_planes ret_nv12 wide_nv12_planes /\
  all_in_gamut bt709 ret_mem ret_i420 wide_i420_planes (YuvCI TLinear PrBT709 SpBT709 false) /\ all_round AVX2 16 /\
  same_light (im_color ret_i420) (im_color ret_rgb) = true.
Proof.
  intros m. split.
  { intros b i. unfold ret_mem, flat_mem. repeat destruct (_ =? _)%nat; repeat destruct (_ <? _)%nat; lia. }
  split; [apply runs; [| |apply single_disjoint|discriminate|vm_compute; reflexivity];
    (split; [reflexivity|split; [repeat constructor; cbn; unfold usize; cbn; lia|reflexivity]])|].
  split; [apply runs; [| |apply wide_nv12_disjoint|discriminate|vm_compute; reflexivity];
    (split; [reflexivity|split; [repeat constructor; cbn; unfold usize; cbn; lia|reflexivity]])|].
  split; [|split; [|reflexivity]].
  - intros x y HI. destruct (ret_level x y HI) as (LY & LU & LV). unfold red_at, green_at, blue_at, y_at, u_at, v_at.
    change (im_format ret_i420) with I420. rewrite LY, LU, LV. cbn [yc_full_range max_level]. unfold level_y, level_c. unfold_k. lra.
  - intros x X. do 16 (destruct x as [|x]; [reflexivity|]). lia.
Qed.

(** Colors that RGB does not have are not kept: (100, 20, 230) comes back as (103, 79, 213). *)
Definition ret_small : image := ex_i420 0 drift_709.
Definition ret_small_rgb : image := ex_rgba22 1 TLinear.
Theorem C73_gamut_refuted : forall b,
  let m := flat_mem 100 20 230 4 1 in
  let m' := after ex_lm b m ret_small ret_small_rgb in
  converts ex_lm b m ret_small (ex_yuv_planes 0) ret_small_rgb (ex_rgba_planes 1) /\
  converts ex_lm b m' ret_small_rgb (ex_rgba_planes 1) (ex_i420 2 drift_709) (ex_yuv_planes 2) /\
  map (fun c => given m ret_small (ex_yuv_planes 0) c 0 0) [CY; CU; SpecGeom.CV] = [Some 100; Some 20; Some 230]%Z /\
  map (fun c => stored ex_lm b m' ret_small_rgb (ex_i420 2 drift_709) (ex_yuv_planes 2) c 0 0) [CY; CU; SpecGeom.CV] = [Some 103; Some 79; Some 213]%Z.
Proof.
  intros b m m'. split; [ex_converts b|]. split; [ex_converts b|]. split; [reflexivity|]. destruct b; vm_compute; reflexivity.
Qed.
Print Assumptions C73_gamut_refuted.

(** Without vectors not even gray is kept. *)
Theorem C73_truncation_refuted : forall b,
  let m := flat_mem 128 128 128 4 1 in
  let m' := after ex_lm b m ret_small ret_small_rgb in
  converts ex_lm b m ret_small (ex_yuv_planes 0) ret_small_rgb (ex_rgba_planes 1) /\
  converts ex_lm b m' ret_small_rgb (ex_rgba_planes 1) (ex_i420 2 drift_709) (ex_yuv_planes 2) /\
  given m ret_small (ex_yuv_planes 0) CY 0 0 = Some 128%Z /\
  stored ex_lm b m' ret_small_rgb (ex_i420 2 drift_709) (ex_yuv_planes 2) CY 0 0 = Some 127%Z.
Proof.
  intros b m m'. split; [ex_converts b|]. split; [ex_converts b|]. split; [reflexivity|]. destruct b; vm_compute; reflexivity.
Qed.
Print Assumptions C73_truncation_refuted.
