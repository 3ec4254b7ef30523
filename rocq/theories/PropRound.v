(** C34: how far a color moves when it is converted to YUV and back. *)

From Coq Require Import List ZArith Bool Arith Reals Lia Lra Psatz.
From Flocq Require Import Core.
From Verif Require Import Base Types Planes ImageM F32 Vector Simd SpecGeom GeomProofs
  SpecColor SpecConvert SpecRun Convert ConvertProofs PropConvert PropFidelity SpecReal AccProofs TargetProofs PropColor.
Import ListNotations.
Local Open Scope R_scope.

(** All pixels that share the chroma sample of ([x], [y]) have the color of
    ([x], [y]).  (No condition for 4:4:4.) *)
Definition flat_block (m : mem) (src : image) (sps : list (slice * nat)) (s : sampling) (x y : nat) : Prop :=
  forall c p, In p (chroma_block s x y) -> given m src sps c (fst p) (snd p) = given m src sps c x y.

(** Decoding levels that are off by [dy], [du], [dv] *)
Lemma decode_off : forall k full M r g b dy du dv, (k = bt601 \/ k = bt709) -> M <> 0 ->
  let Y := level_y full M (y_level full M (luma k r g b) + dy) in
  let U := level_c full M (c_level full M (cb k r g b) + du) in
  let V := level_c full M (c_level full M (cr k r g b) + dv) in
  let a := if full then 1 / M else 255 / 219 / M in
  let c := if full then 1 / M else 255 / 224 / M in
  red k Y U V = r + a * dy + 2 * (1 - w_r k) * (c * dv) /\
  blue k Y U V = b + a * dy + 2 * (1 - w_b k) * (c * du) /\
  green k Y U V = g + a * dy - w_r k / w_g k * (2 * (1 - w_r k)) * (c * dv) - w_b k / w_g k * (2 * (1 - w_b k)) * (c * du).
Proof.
  intros k full M r g b dy du dv K M0. cbv zeta. unfold level_y, level_c, y_level, c_level.
  destruct K as [-> | ->]; destruct full; unfold_k; (split; [|split]); field; exact M0.
Qed.

Definition rounds (b : backend) : bool := match b with AVX2 | AVX512 => true | _ => false end.

(** Error of a stored sample *)
Definition slack (b : backend) (e d : R) : Prop := if rounds b then - (1 / 2) - e <= d <= 1 / 2 + e else -1 - e <= d <= e.

Lemma stored_slack : forall b e t z, stored_for b e t z -> slack b e (IZR z - t).
Proof.
  intros b e t z H. unfold slack. destruct b; cbn [stored_for rounds] in *; unfold truncated, rounded in H; try lra;
    apply Rabs_le_inv in H; lra.
Qed.

(** Largest change of a component, down and up.  8 bits per sample: one level if
    both conversions round (two in limited range), otherwise up to three down
    (four in limited range) and one up.  10 or 12 bits: no change if both
    conversions round, otherwise at most one down. *)
Definition change (f : pixel_format) (full r1 r2 : bool) : Z * Z :=
  if (max_level f =? 255)%Z then
    if r1 && r2 then if full then (1, 1)%Z else (2, 2)%Z else if full then (3, 1)%Z else (4, 1)%Z
  else if r1 && r2 then (0, 0)%Z else (1, 0)%Z.

Lemma change_real : forall f full b1 b2 k r g b dy du dv, (k = bt601 \/ k = bt709) ->
  0 <= r <= 1 -> 0 <= g <= 1 -> 0 <= b <= 1 ->
  let M := IZR (max_level f) in
  slack b1 (M / 80000) dy -> slack b1 (M / 80000) du -> slack b1 (M / 80000) dv ->
  let Y := level_y full M (y_level full M (luma k r g b) + dy) in
  let U := level_c full M (c_level full M (cb k r g b) + du) in
  let V := level_c full M (c_level full M (cr k r g b) + dv) in
  forall v q, (v = r /\ q = red k Y U V) \/ (v = g /\ q = green k Y U V) \/ (v = b /\ q = blue k Y U V) ->
  forall d, slack b2 (255 / 50000) (d - clamp 255 (255 * q)) ->
  let (lo, hi) := change f full (rounds b1) (rounds b2) in
  - IZR lo - 1 < d - 255 * v < IZR hi + 1.
Proof.
  intros f full b1 b2 k r g b dy du dv K R G B M SY SU SV Y U V v q Q d D.
  assert (M0 : M <> 0) by (unfold M; pose proof (max_level_R f); lra).
  destruct (decode_off k full M r g b dy du dv K M0) as (ER & EB & EG). fold Y U V in ER, EB, EG.
  assert (V01 : 0 <= v <= 1) by (destruct Q as [(-> & _)|[(-> & _)|(-> & _)]]; assumption).
  (* the clamp does not move the value away from [v] *)
  assert (C : exists q', clamp 255 (255 * q) = 255 * q' /\ (q <= q' <= v \/ v <= q' <= q)).
  { destruct (clamp_cases 255 (255 * q)) as [(A & ->)|[(A & ->)|(A & ->)]]; [lra|exists 0|exists 1|exists q]; split; lra. }
  destruct C as (q' & EC & HQ). rewrite EC in D.
  unfold change, slack in *.
  assert (MV : max_level f = 255%Z \/ max_level f = 1023%Z \/ max_level f = 4095%Z) by (destruct f; cbn; auto).
  destruct Q as [(-> & ->)|[(-> & ->)|(-> & ->)]]; [rewrite ER in HQ|rewrite EG in HQ|rewrite EB in HQ];
    clear ER EB EG; subst Y U V M; destruct MV as [MV|[MV|MV]]; rewrite MV in *; cbn [Z.eqb Pos.eqb];
    destruct K as [-> | ->]; unfold bt601, bt709, w_g in HQ; cbn [w_r w_b] in HQ;
    destruct full; destruct (rounds b1); destruct (rounds b2); cbn [andb]; lra.
Qed.

(** RGB to YUV (BT.601 or BT.709) and back to RGB, without change of the
    transfer function or the primaries: no component changes by more than
    [change] allows, for every color.  Sub-sampled formats need a flat block. *)
Theorem C34_round_trip : forall lm1 b1 lm2 b2 m src sps mid mps dst dps i k,
  converts lm1 b1 m src sps mid mps ->
  let m' := apply_all m (fst (convert lm1 b1 m src mid)) in
  converts lm2 b2 m' mid mps dst dps -> bytes_ok m ->
  sampling_of (im_format src) = SRGB -> sampling_of (im_format mid) <> SRGB -> sampling_of (im_format dst) = SRGB ->
  im_color mid = CYUV i -> weights_of (yc_space i) = Some k -> yc_space i <> SpBT2020 ->
  same_light (im_color src) (im_color mid) = true -> same_light (im_color mid) (im_color dst) = true ->
  forall c x y z, c = CR \/ c = CG \/ c = CB -> in_image dst x y ->
  flat_block m src sps (sampling_of (im_format mid)) x y ->
  given m src sps c x y = Some z ->
  exists z', stored lm2 b2 m' mid dst dps c x y = Some z' /\
    let (lo, hi) := change (im_format mid) (yc_full_range i)
      (rounds (column_backend b1 (im_width mid) x)) (rounds (column_backend b2 (im_width dst) x)) in
    (z - lo <= z' <= z + hi)%Z.
Proof.
  intros lm1 b1 lm2 b2 m src sps mid mps dst dps i k C1 m' C2 BM SS SM SD CI WK N20 SL1 SL2 c x y z HC HI FL G.
  pose proof (converts_convertible _ _ _ _ _ _ _ C1) as T1. pose proof (converts_convertible _ _ _ _ _ _ _ C2) as T2.
  assert (HM : forall x y, in_image dst x y <-> in_image mid x y).
  { intros x' y'. unfold in_image. rewrite (cv_width _ _ _ _ T2), (cv_height _ _ _ _ T2). tauto. }
  assert (HS : forall x y, in_image mid x y <-> in_image src x y).
  { intros x' y'. unfold in_image. rewrite (cv_width _ _ _ _ T1), (cv_height _ _ _ _ T1). tauto. }
  pose proof (C48_rgb_to_yuv_accuracy lm1 b1 m src sps mid mps i k C1 BM SS SM CI WK N20 SL1) as A1. cbv zeta in A1.
  assert (HCM : forall c x y, given m' mid mps c x y <> None -> has_comp (im_format mid) c = true).
  { intros c' x' y'. unfold given, component. destruct (im_format mid), c'; cbn; congruence. }
  assert (LV : levels_ok m' mid mps).
  { intros c' x' y' z' HI' G'. destruct (A1 c' x' y') as (z'' & ST & _ & R); [eapply HCM; rewrite G'; discriminate|exact HI'|].
    unfold stored in ST. unfold given in G'. fold m' in ST. rewrite ST in G'. injection G' as <-. exact R. }
  assert (HC' : forall c, c = CY \/ c = CU \/ c = CV -> has_comp (im_format mid) c = true)
    by (intros c' [-> |[-> | ->]]; unfold has_comp; destruct (sampling_of (im_format mid)); congruence).
  assert (KK : k = bt601 \/ k = bt709) by (destruct (matrix_known _ _ WK N20) as [(_ & ->)|(_ & ->)]; auto).
  assert (SMP : forall c, c = CR \/ c = CG \/ c = CB -> 0 <= level m (im_format src) sps c x y / 255 <= 1).
  { intros c' HCC. assert (MS : max_level (im_format src) = 255%Z) by (destruct (im_format src); try discriminate SS; reflexivity).
    pose proof (norm_acc m src sps c' x y) as A. rewrite MS in A. apply A.
    - apply C1.
    - apply bytes_levels; [exact BM|]. destruct (im_format src); try discriminate SS; reflexivity.
    - apply HS, HM, HI.
    - unfold has_comp. rewrite SS. destruct HCC as [-> |[-> | ->]]; reflexivity. }
  assert (MEAN : forall c, chroma_mean (sampling_of (im_format mid)) (fun x y => level m (im_format src) sps c x y / 255) x y = level m (im_format src) sps c x y / 255).
  { intros c'. apply chroma_mean_const. intros p HP. f_equal. specialize (FL c' p HP). unfold given in FL. unfold level. rewrite FL. reflexivity. }
  apply HM in HI. 
  destruct (A1 CY x y (HC' _ ltac:(auto)) HI) as (zy & STY & SY & _).
  destruct (A1 CU x y (HC' _ ltac:(auto)) HI) as (zu & STU & SU & _).
  destruct (A1 CV x y (HC' _ ltac:(auto)) HI) as (zv & STV & SV & _).
  unfold ideal_level in SY, SU, SV. rewrite !MEAN in SU, SV.
  apply stored_slack in SY, SU, SV. apply HM in HI.
  assert (LVL : forall c z, stored lm1 b1 m src mid mps c x y = Some z -> level m' (im_format mid) mps c x y = IZR z).
  { intros c' z' E. unfold level. unfold stored in E. fold m' in E. rewrite E. reflexivity. }
  set (M := IZR (max_level (im_format mid))) in *. set (full := yc_full_range i) in *.
  set (r := level m (im_format src) sps CR x y / 255) in *. set (g := level m (im_format src) sps CG x y / 255) in *.
  set (b := level m (im_format src) sps CB x y / 255) in *.
  pose proof (C49_yuv_to_rgb_accuracy lm2 b2 m' mid mps dst dps i k C2 LV SM SD CI WK N20 SL2 x y HI) as A2. cbv zeta in A2.
  rewrite (LVL _ _ STY), (LVL _ _ STU), (LVL _ _ STV) in A2. fold M full in A2.
  set (dy := IZR zy - y_level full M (luma k r g b)) in *. set (du := IZR zu - c_level full M (cb k r g b)) in *.
  set (dv := IZR zv - c_level full M (cr k r g b)) in *.
  assert (EY : IZR zy = y_level full M (luma k r g b) + dy) by (unfold dy; ring).
  assert (EU : IZR zu = c_level full M (cb k r g b) + du) by (unfold du; ring).
  assert (EV : IZR zv = c_level full M (cr k r g b) + dv) by (unfold dv; ring).
  rewrite EY, EU, EV in A2.
  assert (LZ : level m (im_format src) sps c x y = IZR z) by (unfold level; unfold given in G; rewrite G; reflexivity).
  set (Y := level_y full M _) in *. set (U := level_c full M (_ + du)) in *. set (V := level_c full M (_ + dv)) in *.
  assert (SEL : exists q v, ((c = CR /\ q = red k Y U V) \/ (c = CG /\ q = green k Y U V) \/ (c = CB /\ q = blue k Y U V)) /\
    ((v = r /\ q = red k Y U V) \/ (v = g /\ q = green k Y U V) \/ (v = b /\ q = blue k Y U V)) /\ 255 * v = IZR z).
  { destruct HC as [-> |[-> | ->]]; [exists (red k Y U V), r|exists (green k Y U V), g|exists (blue k Y U V), b];
      (split; [tauto|split; [tauto|rewrite <- LZ; unfold r, g, b; field]]). }
  destruct SEL as (q & v & Q1 & Q2 & EZ). destruct (A2 c q Q1) as (z' & ST & SF & _).
  exists z'. split; [exact ST|]. apply stored_slack in SF.
  pose proof (change_real (im_format mid) full (column_backend b1 (im_width mid) x) (column_backend b2 (im_width dst) x) k r g b dy du dv KK
    (SMP CR ltac:(auto)) (SMP CG ltac:(auto)) (SMP CB ltac:(auto)) SY SU SV v q Q2 (IZR z') SF) as CH.
  destruct (change _ _ _ _) as (lo, hi). rewrite EZ in CH. destruct CH as (L & H).
  rewrite <- opp_IZR, <- !minus_IZR in L. rewrite <- minus_IZR, <- plus_IZR in H. apply lt_IZR in L, H. lia.
Qed.
Print Assumptions C34_round_trip.

(** A 16x2 RGB image to I444 and to I410, and back *)
Definition trip_src_planes : list (slice * nat) := [(Slice 0 0 96, 48)]%nat.
Definition trip_src : image := ex_image RGB 16 2 ex_rgb trip_src_planes.
Definition trip_dst_planes : list (slice * nat) := [(Slice 4 0 96, 48)]%nat.
Definition trip_dst : image := ex_image RGB 16 2 ex_rgb trip_dst_planes.
Definition trip_mid_planes (bytes : nat) : list (slice * nat) :=
  [(Slice 1 0 (32 * bytes), 16 * bytes); (Slice 2 0 (32 * bytes), 16 * bytes); (Slice 3 0 (32 * bytes), 16 * bytes)]%nat.
Definition trip_mid (f : pixel_format) : image := ex_image f 16 2 ex_yuv (trip_mid_planes (sample_bytes f)).
Definition trip (b : backend) (f : pixel_format) : mem := apply_all ex_mem (fst (convert ex_lm b ex_mem trip_src (trip_mid f))).
Definition trip_back (b : backend) (f : pixel_format) (x y : nat) : list (option Z) :=
  map (fun c => stored ex_lm b (trip b f) (trip_mid f) trip_dst trip_dst_planes c x y) [CR; CG; CB].

Lemma trip_converts : forall b f, f = I444 \/ f = I410 ->
  converts ex_lm b ex_mem trip_src trip_src_planes (trip_mid f) (trip_mid_planes (sample_bytes f)) /\
  converts ex_lm b (trip b f) (trip_mid f) (trip_mid_planes (sample_bytes f)) trip_dst trip_dst_planes.
Proof.
  intros b f HF. split; (split; [|split; [|split; [|split]]]);
    try (split; [reflexivity|split; [destruct HF as [-> | ->]; repeat constructor; cbn; unfold usize; cbn; lia|destruct HF as [-> | ->]; reflexivity]]).
  - intros i j a c H Ha Hc k K. destruct i as [|[|[|i]]], j as [|[|[|j]]]; cbn in Ha, Hc; try discriminate Ha; try discriminate Hc;
      try (destruct (H eq_refl)); try (destruct i; discriminate Ha); try (destruct j; discriminate Hc);
      injection Ha as <-; injection Hc as <-; cbn in K; lia.
  - discriminate.
  - destruct HF as [-> | ->]; destruct b; vm_compute; reflexivity.
  - apply single_disjoint.
  - intros _ p q a c Hp Hq Ha Hc. destruct p as [|[|[|p]]], q as [|[|[|q]]]; try lia; cbn in Ha, Hc;
      injection Ha as <-; injection Hc as <-; reflexivity.
  - destruct HF as [-> | ->]; destruct b; vm_compute; reflexivity.
Qed.

(** Pixel (12, 0) is (252, 3, 10).  The scalar code brings it back as
    (250, 2, 8), the vectors of AVX2 as (252, 2, 9) through 8 bits and
    unchanged through 10 bits. *)
Example C34_example :
  (forall x y, flat_block ex_mem trip_src trip_src_planes (sampling_of I444) x y) /\
  map (fun c => given ex_mem trip_src trip_src_planes c 12 0) [CR; CG; CB] = [Some 252; Some 3; Some 10]%Z /\
  trip_back Scalar I444 12 0 = [Some 250; Some 2; Some 8]%Z /\ change I444 true false false = (3, 1)%Z /\
  column_backend AVX2 16 12 = AVX2 /\
  trip_back AVX2 I444 12 0 = [Some 252; Some 2; Some 9]%Z /\ change I444 true true true = (1, 1)%Z /\
  trip_back AVX2 I410 12 0 = [Some 252; Some 3; Some 10]%Z /\ change I410 true true true = (0, 0)%Z.
Proof.
  split; [intros x y c p [<- |[]]; reflexivity|]. repeat (split; [vm_compute; reflexivity|]). vm_compute; reflexivity.
Qed.
