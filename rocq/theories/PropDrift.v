(** C71, C72: what is lost when an image is converted again and again. *)

From Coq Require Import List ZArith Bool Arith Reals Lia Lra Psatz.
From Flocq Require Import Core.
From Verif Require Import Base Types Planes ImageM F32 Vector Simd SpecGeom SpecVector GeomProofs SimdProofs
  SpecColor SpecConvert SpecRun Convert ReadProofs WriteProofs VisitProofs ConvertProofs PropConvert PropFidelity SpecReal AccProofs TargetProofs PropColor PropRound.
Import ListNotations.

(** Memory after a conversion *)
Definition after (lm : libm) (b : backend) (m : mem) (src dst : image) : mem := apply_all m (fst (convert lm b m src dst)).

(** What is stored are bytes. *)
Lemma apply_all_bytes : forall evs m, bytes_ok m -> Forall (fun e => Forall (fun z => (0 <= z < 256)%Z) (w_bytes e)) evs -> bytes_ok (apply_all m evs).
Proof.
  induction evs as [|e evs IH]; intros m B F; [exact B|]. inversion F; subst. cbn. apply IH; [|assumption].
  intros b i. unfold apply_wev. repeat match goal with |- context [if ?c then _ else _] => destruct c eqn:? end; try apply B.
  rewrite ?andb_true_iff, ?Nat.leb_le, ?Nat.ltb_lt in *. rewrite Forall_forall in H1. apply H1. apply nth_In. lia.
Qed.

Lemma after_bytes : forall lm b m src sps dst dps, convertible src sps dst dps -> bytes_ok m -> bytes_ok (after lm b m src dst).
Proof.
  intros lm b m src sps dst dps C B. destruct (convert_runs lm b m src sps dst dps C) as (evss & E & F). unfold after. rewrite E. cbn [fst].
  apply apply_all_bytes; [exact B|]. apply Forall_concat. apply Forall_forall. intros evs I.
  destruct (forall2_in_r _ _ _ _ _ _ F I) as ([[[vi q] X] Y] & _ & BE). cbn [block_evs] in BE. apply Forall_forall. intros e IE.
  destruct (forall2_in_r _ _ _ _ _ _ BE IE) as ([[[p r] c] n] & _ & (pl & _ & _ & _ & _ & (L & V))).
  apply Forall_forall. intros z IZ. destruct (In_nth _ _ 0%Z IZ) as (k & K & <-). rewrite L in K.
  pose proof (sample_bytes_pos (im_format dst)) as S. set (s := sample_bytes (im_format dst)) in *.
  pose proof (Nat.div_mod k s ltac:(lia)) as D. pose proof (Nat.mod_upper_bound k s ltac:(lia)) as M.
  rewrite D, (Nat.mul_comm s). rewrite V; [|apply Nat.div_lt_upper_bound; lia|exact M]. apply Z.mod_pos_bound. lia.
Qed.

Lemma quantise_nonneg : forall cb f v, (0 <= quantise (quant_of cb) f v)%Z.
Proof.
  intros cb f v. unfold quantise.
  assert (Q : forall w, (0 <= q_u8 (quant_of cb) w)%Z /\ (0 <= q_u8i (quant_of cb) w)%Z /\ (0 <= q_u16 (quant_of cb) w)%Z).
  { intros w. destruct cb; cbn [quant_of scalar_quant avx2_quant avx512_quant neon_quant q_u8 q_u8i q_u16]; unfold avx2_q8, avx2_q16;
      repeat split; first [apply as_u8_range|apply as_u16_range|apply sat_u8_range|apply sat_u16_range|apply low_u8_range|apply low_u16_range
                          |apply neon_u8_range|apply neon_u16_range]. }
  destruct f; apply Q.
Qed.
Lemma given_comp : forall m im ps c x y z, given m im ps c x y = Some z -> has_comp (im_format im) c = true.
Proof. intros m im ps c x y z. unfold given, component. destruct (im_format im), c; cbn; congruence. Qed.
Lemma stored_nonneg : forall lm b m src sps dst dps c x y z, converts lm b m src sps dst dps -> in_image dst x y ->
  stored lm b m src dst dps c x y = Some z -> (0 <= z)%Z.
Proof.
  intros lm b m src sps dst dps c x y z C HI E. pose proof E as E'. unfold stored in E'.
  pose proof (given_comp _ _ _ _ _ _ _ E') as HC. rewrite (stored_code _ _ _ _ _ _ _ C c x y HC HI) in E. injection E as <-. apply quantise_nonneg.
Qed.

(** * C71: changing the memory layout again and again *)

(** [relaid bs m src sps m' last lps]: the YUV image [src] is converted to an
    image of the same color information and sample depth that is not
    sub-sampled more, this one to a third one, and so on.  [bs] are the
    back ends that do it, [last] is the last image. *)
Inductive relaid : list backend -> mem -> image -> list (slice * nat) -> mem -> image -> list (slice * nat) -> Prop :=
| relaid_none : forall m im ps, relaid [] m im ps m im ps
| relaid_step : forall lm b bs m src sps dst dps m' last lps,
    converts lm b m src sps dst dps -> im_color src = im_color dst ->
    sampling_of (im_format src) <> SRGB -> sampling_of (im_format dst) <> SRGB ->
    not_coarser (sampling_of (im_format src)) (sampling_of (im_format dst)) = true ->
    max_level (im_format src) = max_level (im_format dst) ->
    relaid bs (after lm b m src dst) dst dps m' last lps ->
    relaid (b :: bs) m src sps m' last lps.

(** How many of the conversions process column [x] with code that truncates *)
Definition truncating (w x : nat) (bs : list backend) : nat := length (filter (fun b => negb (rounds (column_backend b w x))) bs).

(** No sample grows, and none falls by more than the number of the conversions
    that truncate.  In columns that are always processed with the vectors of
    AVX2 or AVX-512 nothing changes, ever. *)
Theorem C71_drift : forall bs m src sps m' last lps i,
  relaid bs m src sps m' last lps -> levels_ok m src sps ->
  im_color src = CYUV i -> yc_space i = SpBT601 \/ yc_space i = SpBT709 ->
  forall c x y z, in_image src x y -> given m src sps c x y = Some z ->
  exists z', given m' last lps c x y = Some z' /\ (z - Z.of_nat (truncating (im_width src) x bs) <= z' <= z)%Z.
Proof.
  intros bs m src sps m' last lps i R. induction R as [m im ps|lm b bs m src sps dst dps m' last lps C CE SS SD NC MM R IH];
    intros LV CI SP c x y z HI G.
  { exists z. split; [exact G|cbn; lia]. }
  pose proof (converts_convertible _ _ _ _ _ _ _ C) as CT.
  assert (HD : forall x y, in_image src x y <-> in_image dst x y) by (intros; unfold in_image; rewrite (cv_width _ _ _ _ CT), (cv_height _ _ _ _ CT); tauto).
  assert (ONE : forall c x y z, in_image src x y -> given m src sps c x y = Some z ->
    exists z', stored lm b m src dst dps c x y = Some z' /\ (z - 1 <= z' <= z)%Z /\
      (column_backend b (im_width dst) x = AVX2 \/ column_backend b (im_width dst) x = AVX512 -> z' = z)).
  { intros c' x' y' z' HI' G'. eapply C23_relayout_within_one; eauto; [congruence| |apply HD, HI'].
    apply given_comp in G'. unfold has_comp in *. destruct (sampling_of (im_format src)) eqn:E1; try congruence; destruct (sampling_of (im_format dst)) eqn:E2; try congruence; exact G'. }
  assert (LV' : levels_ok (after lm b m src dst) dst dps).
  { intros c' x' y' z' HI' G'. pose proof (given_comp _ _ _ _ _ _ _ G') as HC'.
    assert (HC : has_comp (im_format src) c' = true).
    { unfold has_comp in *. destruct (sampling_of (im_format src)) eqn:E1; try congruence; destruct (sampling_of (im_format dst)) eqn:E2; try congruence; exact HC'. }
    destruct (given_some m src sps c' x' y' ltac:(apply C) HC) as (z0 & G0). apply HD in HI'.
    destruct (ONE _ _ _ _ HI' G0) as (z1 & S1 & B1 & _). unfold given, after in G'. unfold stored in S1. rewrite S1 in G'. injection G' as <-.
    pose proof (LV _ _ _ _ HI' G0). rewrite <- MM. apply HD in HI'. split; [exact (stored_nonneg _ _ _ _ _ _ _ _ _ _ _ C HI' S1)|lia]. }
  destruct (ONE _ _ _ _ HI G) as (z1 & S1 & B1 & EX). rewrite CE in CI.
  destruct (IH LV' CI SP c x y z1 ltac:(apply HD, HI) S1) as (z' & G' & B'). exists z'. split; [exact G'|].
  rewrite (cv_width _ _ _ _ CT) in *. unfold truncating in *. cbn [filter].
  destruct (column_backend b (im_width dst) x) eqn:CB; cbn [rounds negb length]; try (rewrite (EX ltac:(auto)) in *); lia.
Qed.
Print Assumptions C71_drift.

(** A gray 2 x 2 image, converted from I420 to NV12 and back 10 times *)
Definition drift_yuv : color_info := CYUV (YuvCI TLinear PrBT709 SpBT601 false).
Definition drift_i420 : image := ex_i420 0 drift_yuv.
Definition drift_nv12 : image := ex_image NV12 2 2 drift_yuv nv12_planes.

Fixpoint ping (b : backend) (n : nat) (m : mem) : mem :=
  match n with
  | O => m
  | S n => ping b n (after ex_lm b (after ex_lm b m drift_i420 drift_nv12) drift_nv12 drift_i420)
  end.

Lemma ping_relaid : forall b n m, relaid (repeat b (2 * n)) m drift_i420 (ex_yuv_planes 0) (ping b n m) drift_i420 (ex_yuv_planes 0).
Proof.
  intros b n. induction n as [|n IH]; intros m; [constructor|]. replace (2 * S n) with (S (S (2 * n))) by lia. cbn [repeat ping].
  apply relaid_step with (lm := ex_lm) (dst := drift_nv12) (dps := nv12_planes); try reflexivity; try discriminate;
    [|apply relaid_step with (lm := ex_lm) (dst := drift_i420) (dps := ex_yuv_planes 0); try reflexivity; try discriminate; [|apply IH]].
  - apply runs; [| |apply nv12_disjoint|discriminate|vm_compute; reflexivity];
      (split; [reflexivity|split; [repeat constructor; cbn; unfold usize; cbn; lia|reflexivity]]).
  - apply runs; [| | |discriminate|vm_compute; reflexivity];
      try (split; [reflexivity|split; [repeat constructor; cbn; unfold usize; cbn; lia|reflexivity]]).
    intros i j a c H Ha Hc k K. destruct i as [|[|[|i]]], j as [|[|[|j]]]; cbn in Ha, Hc; try discriminate Ha; try discriminate Hc;
      try (destruct (H eq_refl)); try (destruct i; discriminate Ha); try (destruct j; discriminate Hc);
      injection Ha as <-; injection Hc as <-; cbn in K; lia.
Qed.

(** "However often, a sample moves by at most one level" is false, on all back
    ends (an image of two columns is processed without vectors): gray becomes
    green. *)
Theorem C71_refuted : forall b,
  let m := flat_mem 200 128 128 4 1 in
  relaid (repeat b 20) m drift_i420 (ex_yuv_planes 0) (ping b 10 m) drift_i420 (ex_yuv_planes 0) /\
  map (fun c => given m drift_i420 (ex_yuv_planes 0) c 0 0) [CY; CU; SpecGeom.CV] = [Some 200; Some 128; Some 128]%Z /\
  map (fun c => given (ping b 10 m) drift_i420 (ex_yuv_planes 0) c 0 0) [CY; CU; SpecGeom.CV] = [Some 196; Some 108; Some 118]%Z.
Proof.
  intros b m.
  split; [exact (ping_relaid b 10 m)|]. split; [reflexivity|]. destruct b; vm_compute; reflexivity.
Qed.
Print Assumptions C71_refuted.

(** The hypotheses of C71 hold for this image. *)
Example C71_example : forall b, let m := flat_mem 200 128 128 4 1 in
  levels_ok m drift_i420 (ex_yuv_planes 0) /\ truncating 2 0 (repeat b 20) = 20.
Proof.
  intros b m. split; [|destruct b; reflexivity]. intros c x y z HI G.
  apply (bytes_levels m drift_i420 (ex_yuv_planes 0)) with (c := c) (x := x) (y := y); auto.
  intros k j. unfold m, flat_mem. repeat destruct (_ =? _); repeat destruct (_ <? _); lia.
Qed.

(** * C72: to YUV and back again and again *)

(** One trip: format and range of the YUV image, back ends there and back *)
Definition trip : Type := pixel_format * bool * backend * backend.

(** [round_trips ts m src sps m' last lps]: the RGB image [src] is converted to
    4:4:4 YUV (BT.601 or BT.709) and this to RGB, without change of the transfer
    function or the primaries, and so on. *)
Inductive round_trips : list trip -> mem -> image -> list (slice * nat) -> mem -> image -> list (slice * nat) -> Prop :=
| trips_none : forall m im ps, round_trips [] m im ps m im ps
| trips_step : forall lm1 b1 lm2 b2 ts m src sps mid mps dst dps i m' last lps,
    converts lm1 b1 m src sps mid mps -> converts lm2 b2 (after lm1 b1 m src mid) mid mps dst dps ->
    sampling_of (im_format src) = SRGB -> sampling_of (im_format mid) = S444 -> sampling_of (im_format dst) = SRGB ->
    im_color mid = CYUV i -> yc_space i = SpBT601 \/ yc_space i = SpBT709 ->
    same_light (im_color src) (im_color mid) = true -> same_light (im_color mid) (im_color dst) = true ->
    round_trips ts (after lm2 b2 (after lm1 b1 m src mid) mid dst) dst dps m' last lps ->
    round_trips ((im_format mid, yc_full_range i, b1, b2) :: ts) m src sps m' last lps.

(** What all trips together may take away from and add to a sample in column [x] *)
Fixpoint changes (w x : nat) (ts : list trip) : Z * Z :=
  match ts with
  | [] => (0, 0)%Z
  | (f, full, b1, b2) :: ts =>
      let (lo, hi) := change f full (rounds (column_backend b1 w x)) (rounds (column_backend b2 w x)) in
      let (los, his) := changes w x ts in (lo + los, hi + his)%Z
  end.

Theorem C72_drift : forall ts m src sps m' last lps,
  round_trips ts m src sps m' last lps -> bytes_ok m ->
  forall c x y z, c = CR \/ c = CG \/ c = CB -> in_image src x y -> given m src sps c x y = Some z ->
  exists z', given m' last lps c x y = Some z' /\
    let (lo, hi) := changes (im_width src) x ts in (z - lo <= z' <= z + hi)%Z.
Proof.
  intros ts m src sps m' last lps R. induction R as [m im ps|lm1 b1 lm2 b2 ts m src sps mid mps dst dps i m' last lps C1 C2 SS SM SD CI SP L1 L2 R IH];
    intros BM c x y z HC HI G.
  { exists z. split; [exact G|cbn; lia]. }
  pose proof (converts_convertible _ _ _ _ _ _ _ C1) as T1. pose proof (converts_convertible _ _ _ _ _ _ _ C2) as T2.
  assert (HD : in_image dst x y).
  { unfold in_image in *. rewrite <- (cv_width _ _ _ _ T2), <- (cv_height _ _ _ _ T2), <- (cv_width _ _ _ _ T1), <- (cv_height _ _ _ _ T1). exact HI. }
  assert (W : exists k, weights_of (yc_space i) = Some k /\ yc_space i <> SpBT2020)
    by (destruct SP as [-> | ->]; eexists; (split; [reflexivity|discriminate])).
  destruct W as (k & WK & N20).
  destruct (C34_round_trip lm1 b1 lm2 b2 m src sps mid mps dst dps i k C1 C2 BM SS ltac:(rewrite SM; discriminate) SD CI WK N20 L1 L2 c x y z HC HD)
    as (z1 & S1 & B1); [|exact G|].
  { intros c' p HP. rewrite SM in HP. cbn in HP. destruct HP as [<- |[]]. reflexivity. }
  pose proof (after_bytes lm2 b2 _ _ _ _ _ T2 (after_bytes lm1 b1 _ _ _ _ _ T1 BM)) as BM'.
  destruct (IH BM' c x y z1 HC HD S1) as (z' & G' & B'). exists z'. split; [exact G'|].
  cbn [changes]. rewrite (cv_width _ _ _ _ T1), (cv_width _ _ _ _ T2) in *.
  destruct (change _ _ _ _) as (lo, hi). destruct (changes _ _ _) as (los, his). lia.
Qed.
Print Assumptions C72_drift.

(** 10 or 12 bits and rounding conversions: nothing changes, however many trips. *)
Corollary C72_deep_exact : forall ts m src sps m' last lps,
  round_trips ts m src sps m' last lps -> bytes_ok m ->
  forall c x y, c = CR \/ c = CG \/ c = CB -> in_image src x y ->
  (forall t, In t ts -> let '(f, _, b1, b2) := t in max_level f <> 255%Z /\
     rounds (column_backend b1 (im_width src) x) = true /\ rounds (column_backend b2 (im_width src) x) = true) ->
  forall z, given m src sps c x y = Some z -> given m' last lps c x y = Some z.
Proof.
  intros ts m src sps m' last lps R BM c x y HC HI H z G. destruct (C72_drift _ _ _ _ _ _ _ R BM c x y z HC HI G) as (z' & G' & B).
  assert (E : changes (im_width src) x ts = (0, 0)%Z).
  { clear - H. induction ts as [|[[[f full] b1] b2] ts IH]; [reflexivity|]. cbn [changes].
    destruct (H _ (or_introl eq_refl)) as (N & -> & ->). rewrite IH by (intros t I; apply H; right; exact I).
    unfold change. apply Z.eqb_neq in N. rewrite N. reflexivity. }
  rewrite E in B. rewrite G'. f_equal. lia.
Qed.
Print Assumptions C72_deep_exact.

(** An orange 2 x 2 image, to limited range BT.709 and back 10 times *)
Definition drift_709 : color_info := CYUV (YuvCI TLinear PrBT709 SpBT709 false).
Definition i444_planes : list (slice * nat) := [(Slice 1 0 4, 2); (Slice 1 4 4, 2); (Slice 1 8 4, 2)].
Definition drift_i444 : image := ex_image I444 2 2 drift_709 i444_planes.
Definition orange : mem := fun b i => match b, i mod 7 mod 3 with 0, 0 => 200%Z | 0, 1 => 100%Z | 0, _ => 50%Z | _, _ => 0%Z end.

Fixpoint pong (b : backend) (n : nat) (m : mem) : mem :=
  match n with
  | O => m
  | S n => pong b n (after ex_lm b (after ex_lm b m ex_rgb22 drift_i444) drift_i444 ex_rgb22)
  end.

Lemma i444_disjoint : planes_disjoint i444_planes.
Proof.
  intros i j a c H Ha Hc k K. destruct i as [|[|[|i]]], j as [|[|[|j]]]; cbn in Ha, Hc; try discriminate Ha; try discriminate Hc;
    try (destruct (H eq_refl)); try (destruct i; discriminate Ha); try (destruct j; discriminate Hc);
    injection Ha as <-; injection Hc as <-; cbn in K; lia.
Qed.

Lemma i444_strides : strides_444 I444 i444_planes.
Proof.
  intros _ p q a b P Q A B. destruct p as [|[|[|p]]], q as [|[|[|q]]]; try lia; cbn in A, B; injection A as <-; injection B as <-; reflexivity.
Qed.

Lemma pong_trips : forall b n m, round_trips (repeat (I444, false, b, b) n) m ex_rgb22 ex_rgb_planes (pong b n m) ex_rgb22 ex_rgb_planes.
Proof.
  intros b n. induction n as [|n IH]; intros m; [constructor|]. cbn [repeat pong].
  apply (trips_step ex_lm b ex_lm b (repeat (I444, false, b, b) n) m ex_rgb22 ex_rgb_planes drift_i444 i444_planes ex_rgb22 ex_rgb_planes (YuvCI TLinear PrBT709 SpBT709 false));
    try reflexivity; [| |right; reflexivity|apply IH].
  - apply runs; [| |apply i444_disjoint|discriminate|vm_compute; reflexivity];
      (split; [reflexivity|split; [repeat constructor; cbn; unfold usize; cbn; lia|reflexivity]]).
  - apply runs; [| |apply single_disjoint|apply i444_strides|vm_compute; reflexivity];
      (split; [reflexivity|split; [repeat constructor; cbn; unfold usize; cbn; lia|reflexivity]]).
Qed.

(** "However often, a component moves by no more than one trip may move it" is
    false: orange becomes darker with each trip, by 23, 6 and 19 levels after ten. *)
Theorem C72_refuted : forall b,
  round_trips (repeat (I444, false, b, b) 10) orange ex_rgb22 ex_rgb_planes (pong b 10 orange) ex_rgb22 ex_rgb_planes /\
  bytes_ok orange /\
  map (fun c => given orange ex_rgb22 ex_rgb_planes c 0 0) [CR; CG; CB] = [Some 200; Some 100; Some 50]%Z /\
  map (fun c => given (pong b 10 orange) ex_rgb22 ex_rgb_planes c 0 0) [CR; CG; CB] = [Some 177; Some 94; Some 31]%Z.
Proof.
  intros b. split; [exact (pong_trips b 10 orange)|]. split.
  { intros k i. unfold orange. destruct k; [|lia]. destruct (_ mod 3) as [|[|?]]; lia. }
  split; [reflexivity|]. destruct b; vm_compute; reflexivity.
Qed.
Print Assumptions C72_refuted.
