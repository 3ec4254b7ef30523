(** C19 - C24, C38: what convert keeps and what it loses. *)

From Coq Require Import List ZArith Bool Arith Lia.
From Verif Require Import Base Types Planes ImageM F32 Vector Simd SpecVector SimdProofs QuantProofs SpecGeom GeomProofs
  SpecColor SpecConvert SpecRun Formats Visit Convert VisitProofs ColorProofs ConvertProofs ExactProofs PropConvert.
Import ListNotations.

(** A successful convert: valid images, exclusive destination, result Ok *)
Definition converts (lm : libm) (b : backend) (m : mem) (src : image) (sps : list (slice * nat)) (dst : image) (dps : list (slice * nat)) : Prop :=
  valid_image src sps /\ valid_image dst dps /\ planes_disjoint dps /\ strides_444 (im_format src) sps /\
  snd (convert lm b m src dst) = Ok tt.

(** Component of a destination pixel after convert *)
Definition stored (lm : libm) (b : backend) (m : mem) (src dst : image) (dps : list (slice * nat)) (c : comp) (x y : nat) : option Z :=
  component (apply_all m (fst (convert lm b m src dst))) (im_format dst) dps c x y.

(** Component of a source pixel *)
Definition given (m : mem) (src : image) (sps : list (slice * nat)) (c : comp) (x y : nat) : option Z :=
  component m (im_format src) sps c x y.

Definition in_image (im : image) (x y : nat) : Prop := x < im_width im /\ y < im_height im.

Lemma converts_convertible : forall lm b m src sps dst dps, converts lm b m src sps dst dps -> convertible src sps dst dps.
Proof.
  intros lm b m src sps dst dps (VS & VD & PD & ST & OK).
  assert (WS : forall ps, im_planes src = Ok ps -> wf_planes ps /\ strides_444 (im_format src) ps).
  { intros ps E. destruct VS as (E' & W & _). rewrite E in E'. injection E' as ->. auto. }
  assert (WD : forall ps, im_planes dst = Ok ps -> wf_planes ps).
  { intros ps E. destruct VD as (E' & W & _). rewrite E in E'. injection E' as ->. auto. }
  destruct (convert_result_ok lm b m src dst WS WD) as (R & F & C). rewrite R in OK.
  destruct (C OK) as (sps' & dps' & CV).
  assert (sps' = sps) as <-.
  { destruct (cv_src _ _ _ _ CV) as (E1 & _). destruct VS as (E2 & _). rewrite E2 in E1. injection E1 as ->. reflexivity. }
  assert (dps' = dps) as <-.
  { destruct (cv_dst _ _ _ _ CV) as (E1 & _). destruct VD as (E2 & _). rewrite E2 in E1. injection E1 as ->. reflexivity. }
  exact CV.
Qed.

Lemma stored_code : forall lm b m src sps dst dps, converts lm b m src sps dst dps ->
  forall c x y, has_comp (im_format dst) c = true -> in_image dst x y ->
  let cb := column_backend b (im_width dst) x in
  stored lm b m src dst dps c x y
    = Some (quantise (quant_of cb) (im_format dst)
        (code_value m src sps dst (impl_of lm cb) (x / 2 / lanes cb * lanes cb) c x y)).
Proof.
  intros lm b m src sps dst dps CV c x y HC [Hx Hy] cb. pose proof (converts_convertible _ _ _ _ _ _ _ CV) as C.
  destruct CV as (_ & _ & PD & _). destruct (convert_effect lm b m _ _ _ _ C PD) as (evs & E & _ & _ & V).
  unfold stored. rewrite E. cbn [fst]. apply V; assumption.
Qed.

Lemma stored_expected : forall lm b m src sps dst dps, converts lm b m src sps dst dps ->
  forall c x y, has_comp (im_format dst) c = true -> in_image dst x y ->
  ictcp_chroma420 (im_format dst) (im_color dst) c = false ->
  let cb := column_backend b (im_width dst) x in
  stored lm b m src dst dps c x y
    = Some (quantise (quant_of cb) (im_format dst) (expected_value (lane_of lm cb) m src sps dst c x y)).
Proof.
  intros. cbv zeta. erewrite stored_code by eassumption. rewrite code_value_expected by assumption. reflexivity.
Qed.

(** Every component of a valid image has a value; a byte for 8-bit formats, a
    word for the others *)
Lemma given_some : forall m im ps c x y, valid_image im ps -> has_comp (im_format im) c = true ->
  exists z, given m im ps c x y = Some z.
Proof.
  intros m im ps c x y V HC.
  assert (R : ready im ps) by (apply valid_ready, V). destruct R as (_ & _ & L & _).
  unfold given, component.
  assert (P : exists p r col, layout (im_format im) c x y = Some (p, r, col) /\ p < n_planes (im_format im)).
  { destruct (im_format im), c; cbn in HC; try discriminate HC; cbn; repeat eexists; lia. }
  destruct P as (p & r & col & -> & HP).
  destruct (nth_error ps p) as [pl|] eqn:N; [eauto|]. apply nth_error_None in N. unfold plane in *. lia.
Qed.

Lemma given_range : forall m im ps c x y z, bytes_ok m -> given m im ps c x y = Some z ->
  (0 <= z <= (if (sample_bytes (im_format im) =? 2)%nat then 65535 else 255))%Z.
Proof.
  intros m im ps c x y z B. unfold given, component. destruct (layout _ _ _ _) as [[[p r] col]|]; [|discriminate].
  destruct (nth_error ps p) as [pl|]; [|discriminate]. intros E. injection E as <-. unfold sample_at.
  destruct (sample_addr _ _ _ _) as (bu, i). pose proof (B bu i). pose proof (B bu (S i)).
  destruct (_ =? _); lia.
Qed.

(** * C20 *)

(** Same format and color information: every sample in the nominal range (all
    of 0 .. 255 for 8-bit formats) is reproduced, on every back end. *)
Theorem C20_same_format_exact : forall lm b m src sps dst dps,
  converts lm b m src sps dst dps -> same_image_kind src dst = true ->
  forall c x y z, has_comp (im_format dst) c = true -> in_image dst x y ->
  given m src sps c x y = Some z -> (0 <= z <= max_level (im_format src))%Z ->
  stored lm b m src dst dps c x y = Some z.
Proof.
  intros lm b m src sps dst dps CV SK c x y z HC HI G Z. pose proof SK as SK'.
  unfold same_image_kind in SK. apply andb_true_iff in SK as [SF _]. apply pixel_format_eqb_eq in SF.
  rewrite (stored_code _ _ _ _ _ _ _ CV c x y HC HI). unfold code_value. rewrite SK'.
  unfold norm. unfold given in G. rewrite SF in G, Z. rewrite G. f_equal. apply quantise_exact.
  pose proof (exact_max (column_backend b (im_width dst) x) (im_format dst)). lia.
Qed.
Print Assumptions C20_same_format_exact.

(** 8-bit formats: no condition on the values *)
Theorem C20_same_format_exact_8bit : forall lm b m src sps dst dps,
  converts lm b m src sps dst dps -> same_image_kind src dst = true -> bytes_ok m ->
  sample_bytes (im_format src) = 1 ->
  forall c x y, has_comp (im_format dst) c = true -> in_image dst x y ->
  stored lm b m src dst dps c x y = given m src sps c x y.
Proof.
  intros lm b m src sps dst dps CV SK B S1 c x y HC HI.
  assert (SF : im_format src = im_format dst).
  { unfold same_image_kind in SK. apply andb_true_iff in SK as [SF _]. apply pixel_format_eqb_eq, SF. }
  assert (VS : valid_image src sps) by apply CV.
  destruct (given_some m src sps c x y VS) as (z & G); [rewrite SF; exact HC|]. rewrite G.
  pose proof (given_range _ _ _ _ _ _ _ B G) as R. rewrite S1 in R. cbn in R.
  eapply C20_same_format_exact; eauto. destruct (im_format src); cbn in S1 |- *; try discriminate S1; lia.
Qed.
Print Assumptions C20_same_format_exact_8bit.

(** Columns processed by AVX2 or AVX-512 vectors: every 16-bit word, also
    outside of the nominal range *)
Theorem C20_same_format_exact_vector : forall lm b m src sps dst dps,
  converts lm b m src sps dst dps -> same_image_kind src dst = true -> bytes_ok m ->
  b = AVX2 \/ b = AVX512 ->
  forall c x y, has_comp (im_format dst) c = true -> in_image dst x y -> x < im_width dst - im_width dst mod (2 * lanes b) ->
  stored lm b m src dst dps c x y = given m src sps c x y.
Proof.
  intros lm b m src sps dst dps CV SK B HB c x y HC HI HV.
  assert (SF : im_format src = im_format dst).
  { unfold same_image_kind in SK. apply andb_true_iff in SK as [SF _]. apply pixel_format_eqb_eq, SF. }
  assert (VS : valid_image src sps) by apply CV.
  destruct (given_some m src sps c x y VS) as (z & G); [rewrite SF; exact HC|]. rewrite G.
  pose proof (given_range _ _ _ _ _ _ _ B G) as R.
  rewrite (stored_code _ _ _ _ _ _ _ CV c x y HC HI). unfold code_value. rewrite SK.
  assert (EC : column_backend b (im_width dst) x = b).
  { unfold column_backend, vector_columns. rewrite (Nat.mul_comm (lanes b)). apply Nat.ltb_lt in HV. rewrite HV. reflexivity. }
  rewrite EC. unfold norm. unfold given in G. rewrite SF in G, R. rewrite G. f_equal. apply quantise_exact.
  destruct HB as [-> | ->]; exact R.
Qed.
Print Assumptions C20_same_format_exact_vector.

(** A 2x2 I010 image whose first luma sample is the word 32741 (the two bytes
    229, 127) *)
Definition ex16_planes (b : nat) : list (slice * nat) := [(Slice b 0 8, 4); (Slice b 8 2, 2); (Slice b 10 2, 2)].
Definition ex16 (b : nat) : image := ex_image I010 2 2 ex_yuv (ex16_planes b).
Definition ex16_mem : mem := fun b i => nth i (nth b [[229; 127; 255; 3]%Z] []) 0%Z.

(** ... outside of the nominal range it is stored as 32740 *)
Theorem C20_refuted : forall b,
  converts ex_lm b ex16_mem (ex16 0) (ex16_planes 0) (ex16 1) (ex16_planes 1) /\
  same_image_kind (ex16 0) (ex16 1) = true /\
  given ex16_mem (ex16 0) (ex16_planes 0) CY 0 0 = Some 32741%Z /\
  stored ex_lm b ex16_mem (ex16 0) (ex16 1) (ex16_planes 1) CY 0 0 = Some 32740%Z /\
  stored ex_lm b ex16_mem (ex16 0) (ex16 1) (ex16_planes 1) CY 1 0 = Some 1023%Z.
Proof.
  intros b. split; [|destruct b; vm_compute; auto].
  assert (V : forall k, valid_image (ex16 k) (ex16_planes k))
    by (intros k; split; [reflexivity|split; [repeat constructor; cbn; unfold usize; cbn; lia|reflexivity]]).
  split; [apply V|]. split; [apply V|]. split; [|split; [discriminate|destruct b; vm_compute; reflexivity]].
  intros i j a c H Ha Hc k K. destruct i as [|[|[|i]]], j as [|[|[|j]]]; cbn in Ha, Hc; try discriminate Ha; try discriminate Hc;
      try (destruct (H eq_refl)); try (destruct i; discriminate Ha); try (destruct j; discriminate Hc);
      injection Ha as <-; injection Hc as <-; cbn in K; lia.
Qed.
Print Assumptions C20_refuted.

(** * C21 *)

(** Repacking RGB, BGR, RGBA and BGRA with the same color information *)
Theorem C21_rgb_repack_lossless : forall lm b m src sps dst dps,
  converts lm b m src sps dst dps -> bytes_ok m ->
  sampling_of (im_format src) = SRGB -> sampling_of (im_format dst) = SRGB -> im_color src = im_color dst ->
  forall x y, in_image dst x y ->
  (forall c, In c [CR; CG; CB] -> stored lm b m src dst dps c x y = given m src sps c x y /\ given m src sps c x y <> None) /\
  (has_comp (im_format dst) CA = true ->
     stored lm b m src dst dps CA x y = if has_comp (im_format src) CA then given m src sps CA x y else Some 255%Z).
Proof.
  intros lm b m src sps dst dps CV B SS SD EC x y HI. assert (VS : valid_image src sps) by apply CV.
  assert (ML : max_level (im_format dst) = 255%Z /\ max_level (im_format src) = 255%Z)
    by (destruct (im_format src), (im_format dst); try discriminate SS; try discriminate SD; split; reflexivity).
  destruct ML as [MLD MLS].
  assert (SB : sample_bytes (im_format src) = 1) by (destruct (im_format src); try discriminate SS; reflexivity).
  assert (SL : same_light (im_color src) (im_color dst) = true).
  { unfold same_light. rewrite EC. destruct (im_color dst) as [[] []|[[] [] ? ?]]; reflexivity. }
  assert (CORE : forall c, In c [CR; CG; CB; CA] -> has_comp (im_format dst) c = true ->
    exists b', stored lm b m src dst dps c x y = Some (quantise (quant_of b') (im_format dst) (norm m (im_format src) sps c x y))).
  { intros c IC HC. exists (column_backend b (im_width dst) x).
    rewrite (stored_expected _ _ _ _ _ _ _ CV c x y HC HI) by (unfold ictcp_chroma420; rewrite SD; reflexivity).
    unfold expected_value. destruct (same_image_kind src dst); [reflexivity|].
    unfold target, recolored, source_pixel. rewrite SS, SD, SL.
    cbn in IC. destruct IC as [<-|[<-|[<-|[<-|[]]]]]; reflexivity. }
  assert (EX : forall c z b', given m src sps c x y = Some z ->
     quantise (quant_of b') (im_format dst) (norm m (im_format src) sps c x y) = z).
  { intros c z b' G. pose proof (given_range _ _ _ _ _ _ _ B G) as R. rewrite SB in R. cbn in R.
    unfold norm. unfold given in G. rewrite G, MLS, <- MLD. apply quantise_exact.
    pose proof (exact_max b' (im_format dst)). lia. }
  split.
  - intros c IC.
    assert (HCS : has_comp (im_format src) c = true /\ has_comp (im_format dst) c = true).
    { unfold has_comp. rewrite SS, SD. cbn in IC. destruct IC as [<-|[<-|[<-|[]]]]; split; reflexivity. }
    destruct HCS as [HS HD]. destruct (given_some m src sps c x y VS HS) as (z & G). rewrite G.
    destruct (CORE c) as (b' & ->); [cbn in *; tauto|exact HD|]. rewrite (EX c z b' G). split; [reflexivity|discriminate].
  - intros HD. destruct (CORE CA) as (b' & ->); [cbn; tauto|exact HD|].
    destruct (has_comp (im_format src) CA) eqn:HS.
    + destruct (given_some m src sps CA x y VS HS) as (z & G). rewrite G, (EX CA z b' G). reflexivity.
    + assert (N : norm m (im_format src) sps CA x y = fone).
      { unfold norm, component. destruct (im_format src); try discriminate SS; try discriminate HS; reflexivity. }
      rewrite N, quantise_one, MLD. reflexivity.
Qed.
Print Assumptions C21_rgb_repack_lossless.

(** Two pixels wide, two rows: RGB (buffer 0) to BGRA (buffer 1) *)
Definition ex_rgb_planes : list (slice * nat) := [(Slice 0 0 14, 7)].
Definition ex_bgra_planes : list (slice * nat) := [(Slice 1 0 16, 8)].
Definition ex_rgb22 : image := ex_image RGB 2 2 ex_rgb ex_rgb_planes.
Definition ex_bgra22 : image := ex_image BGRA 2 2 ex_rgb ex_bgra_planes.

Lemma single_disjoint : forall pl, planes_disjoint [pl].
Proof. intros pl [|[|i]] [|[|j]] a c H Ha Hc; cbn in *; congruence. Qed.

Lemma ex_mem_bytes : bytes_ok ex_mem.
Proof. intros b i. unfold ex_mem. pose proof (Nat.mod_upper_bound (b * 40 + i * 7) 256 ltac:(lia)). lia. Qed.

Example C21_example : forall b, converts ex_lm b ex_mem ex_rgb22 ex_rgb_planes ex_bgra22 ex_bgra_planes /\ bytes_ok ex_mem /\
  map (fun c => stored ex_lm b ex_mem ex_rgb22 ex_bgra22 ex_bgra_planes c 1 1) [CR; CG; CB; CA]
    = [Some 70%Z; Some 77%Z; Some 84%Z; Some 255%Z].
Proof.
  intros b. split; [|split; [apply ex_mem_bytes|destruct b; vm_compute; reflexivity]].
  split; [|split; [|split; [apply single_disjoint|split; [discriminate|destruct b; vm_compute; reflexivity]]]];
    (split; [reflexivity|split; [repeat constructor; cbn; unfold usize; cbn; lia|reflexivity]]).
Qed.

(** * C22 *)

(** A YUV source gives opaque pixels, whatever the color information *)
Theorem C22_yuv_opaque : forall lm b m src sps dst dps,
  converts lm b m src sps dst dps -> sampling_of (im_format src) <> SRGB -> has_comp (im_format dst) CA = true ->
  forall x y, in_image dst x y -> stored lm b m src dst dps CA x y = Some 255%Z.
Proof.
  intros lm b m src sps dst dps CV SS HC x y HI.
  assert (SD : sampling_of (im_format dst) = SRGB) by (destruct (im_format dst); cbn in *; congruence).
  rewrite (stored_expected _ _ _ _ _ _ _ CV CA x y HC HI) by (unfold ictcp_chroma420; rewrite SD; reflexivity).
  assert (SK : same_image_kind src dst = false).
  { unfold same_image_kind. destruct (pixel_format_eqb _ _) eqn:E; [|reflexivity]. apply pixel_format_eqb_eq in E. congruence. }
  unfold expected_value. rewrite SK. unfold target. rewrite SD.
  set (L := lane_of _ _).
  assert (A : snd (recolored L (im_color src) (im_color dst) (source_pixel L m (im_format src) (im_color src) sps x y)) = fone).
  { unfold recolored. destruct (same_light _ _); cbn [snd]; unfold source_pixel;
      destruct (sampling_of (im_format src)), (im_color src); try reflexivity; congruence. }
  rewrite A, quantise_one. destruct (im_format dst); try discriminate HC; reflexivity.
Qed.
Print Assumptions C22_yuv_opaque.

(** Conversion of the color information never changes alpha *)
Theorem C22_alpha_kept : forall lm b m src sps dst dps,
  converts lm b m src sps dst dps -> bytes_ok m ->
  has_comp (im_format src) CA = true -> has_comp (im_format dst) CA = true ->
  forall x y, in_image dst x y -> stored lm b m src dst dps CA x y = given m src sps CA x y.
Proof.
  intros lm b m src sps dst dps CV B HS HC x y HI. assert (VS : valid_image src sps) by apply CV.
  assert (SD : sampling_of (im_format dst) = SRGB) by (destruct (im_format dst); cbn in *; congruence).
  assert (SS : sampling_of (im_format src) = SRGB) by (destruct (im_format src); cbn in *; congruence).
  rewrite (stored_expected _ _ _ _ _ _ _ CV CA x y HC HI) by (unfold ictcp_chroma420; rewrite SD; reflexivity).
  destruct (given_some m src sps CA x y VS HS) as (z & G). rewrite G.
  pose proof (given_range _ _ _ _ _ _ _ B G) as R.
  set (cb := column_backend _ _ _). set (L := lane_of _ _).
  assert (A : expected_value L m src sps dst CA x y = norm m (im_format src) sps CA x y).
  { unfold expected_value. destruct (same_image_kind src dst); [reflexivity|]. unfold target. rewrite SD.
    unfold recolored. destruct (same_light _ _); cbn [snd]; unfold source_pixel; rewrite SS; reflexivity. }
  rewrite A. unfold norm. unfold given in G. rewrite G. f_equal.
  replace (max_level (im_format src)) with (max_level (im_format dst))
    by (destruct (im_format src), (im_format dst); try discriminate HS; try discriminate HC; reflexivity).
  apply quantise_exact. pose proof (exact_max cb (im_format dst)).
  destruct (im_format src), (im_format dst); try discriminate HS; try discriminate HC; cbn in *; lia.
Qed.
Print Assumptions C22_alpha_kept.

Definition ex_yuv_planes (b : nat) : list (slice * nat) := [(Slice b 0 4, 2); (Slice b 4 1, 1); (Slice b 5 1, 1)].
Definition ex_i420 (b : nat) (c : color_info) : image := ex_image I420 2 2 c (ex_yuv_planes b).
Definition ex_rgba_planes (b : nat) : list (slice * nat) := [(Slice b 0 16, 8)].
Definition ex_rgba22 (b : nat) (t : color_transfer) : image := ex_image RGBA 2 2 (CRGB t PrBT709) (ex_rgba_planes b).

Lemma ex_yuv_disjoint : forall b, planes_disjoint (ex_yuv_planes b).
Proof.
  intros b i j a c H Ha Hc k K. destruct i as [|[|[|i]]], j as [|[|[|j]]]; cbn in Ha, Hc; try discriminate Ha; try discriminate Hc;
      try (destruct (H eq_refl)); try (destruct i; discriminate Ha); try (destruct j; discriminate Hc);
      injection Ha as <-; injection Hc as <-; cbn in K; lia.
Qed.

(** Whether it converts is seen from the images alone (C13) *)
Lemma runs : forall lm b m src sps dst dps, valid_image src sps -> valid_image dst dps -> planes_disjoint dps -> strides_444 (im_format src) sps ->
  convert_result src dst = Ok tt -> converts lm b m src sps dst dps.
Proof.
  intros lm b m src sps dst dps VS VD D S R. split; [exact VS|]. split; [exact VD|]. split; [exact D|]. split; [exact S|].
  rewrite C13_result; [exact R| |].
  - intros ps E. destruct VS as (ES & W & _). rewrite ES in E. injection E as <-. auto.
  - intros ps E. destruct VD as (ED & W & _). rewrite ED in E. injection E as <-. auto.
Qed.

Ltac ex_converts b :=
  apply runs; [| |first [apply single_disjoint | apply ex_yuv_disjoint]|discriminate|vm_compute; reflexivity];
    (split; [reflexivity|split; [repeat constructor; cbn; unfold usize; cbn; lia|reflexivity]]).

Example C22_example : forall b,
  converts ex_lm b ex_mem (ex_i420 0 ex_yuv) (ex_yuv_planes 0) (ex_rgba22 1 TSRGB) (ex_rgba_planes 1) /\
  converts ex_lm b ex_mem (ex_rgba22 0 TLinear) (ex_rgba_planes 0) (ex_rgba22 1 TSRGB) (ex_rgba_planes 1) /\
  stored ex_lm b ex_mem (ex_rgba22 0 TLinear) (ex_rgba22 1 TSRGB) (ex_rgba_planes 1) CA 1 1 = Some 105%Z /\
  stored ex_lm b ex_mem (ex_rgba22 0 TLinear) (ex_rgba22 1 TSRGB) (ex_rgba_planes 1) CR 1 1
    <> given ex_mem (ex_rgba22 0 TLinear) (ex_rgba_planes 0) CR 1 1.
Proof.
  intros b. split; [ex_converts b|]. split; [ex_converts b|].
  split; [destruct b; vm_compute; reflexivity|destruct b; vm_compute; discriminate].
Qed.

(** * C19 *)

(** What 4:2:0 ICtCp chroma really is: with [n] elements per vector, the chroma
    of block column [k] of a group of [2 n] columns is three parts of the pixel
    in column [k] and one part of the pixel in column [n + k] of that group,
    both from the upper row. *)
Definition ictcp_pixel_chroma (L : lane_ops f32) (m : mem) (src : image) (sps : list (slice * nat)) (color : color_info)
    (i : yuv_color_info) (sel : f32 * f32 * f32 -> f32) (x y : nat) : f32 :=
  sel (rgb_yuv L (yc_space i) (yc_transfer i) (yc_primaries i)
        (fst (recolored L (im_color src) color (source_pixel L m (im_format src) (im_color src) sps x y)))).

Theorem C19_ictcp_chroma_partial : forall lm b m src sps dst dps i,
  converts lm b m src sps dst dps -> same_image_kind src dst = false ->
  sampling_of (im_format dst) = S420 -> im_color dst = CYUV i -> is_ictcp (yc_space i) = true ->
  forall c sel x y, (c, sel) = (CU, snd3) \/ (c, sel) = (CV, thd3) -> in_image dst x y ->
  let cb := column_backend b (im_width dst) x in
  let n := lanes cb in
  let group := x / (2 * n) * (2 * n) in
  let k := x / 2 - group / 2 in
  let px x y := ictcp_pixel_chroma (lane_of lm cb) m src sps (CYUV i) i sel x y in
  let a := px (group + k) (2 * (y / 2)) in
  let b' := px (group + n + k) (2 * (y / 2)) in
  stored lm b m src dst dps c x y
    = Some (quantise (quant_of cb) (im_format dst) (encode_c i (fdiv (fadd (fadd (fadd a b') a) a) (flit 4 0)))).
Proof.
  intros lm b m src sps dst dps i CV SK SD EC IC c sel x y HS HI cb n group k px a b'.
  assert (HC : has_comp (im_format dst) c = true).
  { unfold has_comp. rewrite SD. destruct HS as [HS|HS]; injection HS as -> _; reflexivity. }
  rewrite (stored_code _ _ _ _ _ _ _ CV c x y HC HI). fold cb. do 2 f_equal.
  unfold code_value. rewrite SK. unfold code_target. rewrite SD, EC.
  assert (G : group = 2 * (x / 2 / n * n)).
  { unfold group. rewrite Nat.div_div by (unfold n; destruct cb; cbn; lia). lia. }
  assert (G2 : group / 2 = x / 2 / n * n) by (rewrite G, Nat.mul_comm, Nat.div_mul; lia).
  assert (LE : x / 2 / n * n <= x / 2) by (rewrite Nat.mul_comm; apply Nat.mul_div_le; unfold n; destruct cb; cbn; lia).
  assert (VL : vi_len (impl_of lm cb) = n) by (unfold n; destruct cb; reflexivity).
  assert (E1 : x / 2 / n * n + x / 2 = group + k) by (unfold k; rewrite G2; lia).
  assert (E2 : x / 2 / n * n + n + x / 2 = group + n + k) by (unfold k; rewrite G2; lia).
  assert (CH : chroma420 (vi_lane (impl_of lm cb)) (vi_len (impl_of lm cb)) i
     (fun x y => recolored (vi_lane (impl_of lm cb)) (im_color src) (CYUV i)
                   (source_pixel (vi_lane (impl_of lm cb)) m (im_format src) (im_color src) sps x y)) sel
     (x / 2 / lanes cb * lanes cb) (x / 2) (y / 2) = fdiv (fadd (fadd (fadd a b') a) a) (flit 4 0)).
  { unfold chroma420. rewrite IC. fold n. rewrite VL, E1, E2. reflexivity. }
  destruct HS as [HS|HS]; injection HS as -> ->; rewrite CH; reflexivity.
Qed.
Print Assumptions C19_ictcp_chroma_partial.

(** In particular the lower row of the source has no influence on the chroma. *)
Theorem C19_lower_row_ignored : forall lm b m1 m2 src sps dst dps i,
  converts lm b m1 src sps dst dps -> converts lm b m2 src sps dst dps -> same_image_kind src dst = false ->
  sampling_of (im_format dst) = S420 -> im_color dst = CYUV i -> is_ictcp (yc_space i) = true ->
  forall c x y, c = CU \/ c = CV -> in_image dst x y ->
  (forall c' x', given m1 src sps c' x' (2 * (y / 2)) = given m2 src sps c' x' (2 * (y / 2))) ->
  stored lm b m1 src dst dps c x y = stored lm b m2 src dst dps c x y.
Proof.
  intros lm b m1 m2 src sps dst dps i C1 C2 SK SD EC IC c x y HC HI U.
  assert (HS : exists sel, (c, sel) = (CU, snd3) \/ (c, sel) = (CV, @thd3 f32)) by (destruct HC as [-> | ->]; eauto).
  destruct HS as (sel & HS).
  rewrite (C19_ictcp_chroma_partial lm b m1 src sps dst dps i C1 SK SD EC IC c sel x y HS HI).
  rewrite (C19_ictcp_chroma_partial lm b m2 src sps dst dps i C2 SK SD EC IC c sel x y HS HI).
  assert (N : forall c' x', norm m1 (im_format src) sps c' x' (2 * (y / 2)) = norm m2 (im_format src) sps c' x' (2 * (y / 2))).
  { intros c' x'. unfold norm. unfold given in U. rewrite U. reflexivity. }
  assert (P : forall L x', source_pixel L m1 (im_format src) (im_color src) sps x' (2 * (y / 2))
                          = source_pixel L m2 (im_format src) (im_color src) sps x' (2 * (y / 2))).
  { intros L x'. unfold source_pixel. rewrite !N. reflexivity. }
  unfold ictcp_pixel_chroma. rewrite !P. reflexivity.
Qed.
Print Assumptions C19_lower_row_ignored.

(** Witness: upper row black, lower row dark red.  The mean chroma of the block
    is (123, 149), the code stores the chroma (127, 127) of black. *)
Definition ictcp_hlg : yuv_color_info := YuvCI TLinear PrBT709 SpICtCpHLG true.
Definition red_mem : mem := fun b i => nth i (nth b [[0; 0; 0; 0; 0; 0; 20; 0; 0; 20; 0; 0]%Z] []) 0%Z.
Definition red_planes : list (slice * nat) := [(Slice 0 0 12, 6)].
Definition red_src : image := ex_image RGB 2 2 ex_rgb red_planes.
Definition red_dst : image := ex_i420 1 (CYUV ictcp_hlg).

(** Mean chroma of the 2x2 block *)
Definition block_mean (L : lane_ops f32) (sel : f32 * f32 * f32 -> f32) : f32 :=
  let px x y := ictcp_pixel_chroma L red_mem red_src red_planes (CYUV ictcp_hlg) ictcp_hlg sel x y in
  fdiv (fadd (fadd (px 0 0) (px 1 0)) (fadd (px 0 1) (px 1 1))) (flit 4 0).

Theorem C19_refuted : forall b,
  converts ex_lm b red_mem red_src red_planes red_dst (ex_yuv_planes 1) /\
  map (fun sel => quantise (quant_of (column_backend b 2 0)) I420 (encode_c ictcp_hlg (block_mean (lane_of ex_lm (column_backend b 2 0)) sel)))
      [snd3; thd3] = [123; 149]%Z /\
  map (fun c => stored ex_lm b red_mem red_src red_dst (ex_yuv_planes 1) c 0 0) [CU; CV] = [Some 127; Some 127]%Z.
Proof. intros b. split; [ex_converts b|]. destruct b; vm_compute; split; reflexivity. Qed.
Print Assumptions C19_refuted.

(** * C23 *)

Definition flat_mem (y u v : Z) (n k : nat) : mem :=
  fun b i => if b =? 0 then if i <? n then y else if i <? n + k then u else v else 0%Z.
Definition nv12_planes : list (slice * nat) := [(Slice 1 0 4, 2); (Slice 1 4 2, 2)].
Definition i422_planes : list (slice * nat) := [(Slice 0 0 4, 2); (Slice 0 4 2, 1); (Slice 0 6 2, 1)].
Definition yuyv_planes : list (slice * nat) := [(Slice 1 0 8, 4)].

Lemma nv12_disjoint : planes_disjoint nv12_planes.
Proof.
  intros i j a c H Ha Hc k K. destruct i as [|[|i]], j as [|[|j]]; cbn in Ha, Hc; try discriminate Ha; try discriminate Hc;
      try (destruct (H eq_refl)); try (destruct i; discriminate Ha); try (destruct j; discriminate Hc);
      injection Ha as <-; injection Hc as <-; cbn in K; lia.
Qed.

(** Re-laying out loses information: a flat image with Y = 100, U = 90, V = 160
    is stored with Y = 99, both from I420 to NV12 and from I422 to YUYV. *)
Theorem C23_refuted : forall b,
  let m1 := flat_mem 100 90 160 4 1 in
  let m2 := flat_mem 100 90 160 4 2 in
  (converts ex_lm b m1 (ex_i420 0 ex_yuv) (ex_yuv_planes 0) (ex_image NV12 2 2 ex_yuv nv12_planes) nv12_planes /\
   given m1 (ex_i420 0 ex_yuv) (ex_yuv_planes 0) CY 0 0 = Some 100%Z /\
   stored ex_lm b m1 (ex_i420 0 ex_yuv) (ex_image NV12 2 2 ex_yuv nv12_planes) nv12_planes CY 0 0 = Some 99%Z) /\
  (converts ex_lm b m2 (ex_image I422 2 2 ex_yuv i422_planes) i422_planes (ex_image YUYV 2 2 ex_yuv yuyv_planes) yuyv_planes /\
   given m2 (ex_image I422 2 2 ex_yuv i422_planes) i422_planes CY 0 0 = Some 100%Z /\
   stored ex_lm b m2 (ex_image I422 2 2 ex_yuv i422_planes) (ex_image YUYV 2 2 ex_yuv yuyv_planes) yuyv_planes CY 0 0 = Some 99%Z).
Proof.
  intros b m1 m2. split.
  - split; [|destruct b; vm_compute; split; reflexivity].
    split; [|split; [|split; [apply nv12_disjoint|split; [discriminate|destruct b; vm_compute; reflexivity]]]];
    (split; [reflexivity|split; [repeat constructor; cbn; unfold usize; cbn; lia|reflexivity]]).
  - split; [ex_converts b|destruct b; vm_compute; split; reflexivity].
Qed.
Print Assumptions C23_refuted.

(** * C24 *)

(** Position [x] moved by an even distance: the 2x2 blocks around ([x], [y])
    and ([x'], [y']) hold the same samples. *)
Definition same_block (m : mem) (src : image) (sps : list (slice * nat)) (x y x' y' : nat) : Prop :=
  x mod 2 = x' mod 2 /\ y mod 2 = y' mod 2 /\
  forall c dx dy, dx < 2 -> dy < 2 ->
    given m src sps c (2 * (x / 2) + dx) (2 * (y / 2) + dy) = given m src sps c (2 * (x' / 2) + dx) (2 * (y' / 2) + dy).

Lemma expected_block : forall L m src sps dst c x y x' y', same_block m src sps x y x' y' ->
  expected_value L m src sps dst c x y = expected_value L m src sps dst c x' y'.
Proof.
  intros L m src sps dst c x y x' y' (EX & EY & SB).
  assert (N : forall c dx dy, dx < 2 -> dy < 2 ->
    norm m (im_format src) sps c (2 * (x / 2) + dx) (2 * (y / 2) + dy) = norm m (im_format src) sps c (2 * (x' / 2) + dx) (2 * (y' / 2) + dy)).
  { intros c' dx dy Hx Hy. unfold norm. pose proof (SB c' dx dy Hx Hy) as G. unfold given in G. rewrite G. reflexivity. }
  assert (P : forall dx dy, dx < 2 -> dy < 2 ->
    source_pixel L m (im_format src) (im_color src) sps (2 * (x / 2) + dx) (2 * (y / 2) + dy)
      = source_pixel L m (im_format src) (im_color src) sps (2 * (x' / 2) + dx) (2 * (y' / 2) + dy)).
  { intros dx dy Hx Hy. unfold source_pixel. rewrite !(N _ dx dy Hx Hy). reflexivity. }
  assert (DX : x = 2 * (x / 2) + x mod 2) by (apply Nat.div_mod; lia).
  assert (DX' : x' = 2 * (x' / 2) + x mod 2) by (rewrite EX; apply Nat.div_mod; lia).
  assert (DY : y = 2 * (y / 2) + y mod 2) by (apply Nat.div_mod; lia).
  assert (DY' : y' = 2 * (y' / 2) + y mod 2) by (rewrite EY; apply Nat.div_mod; lia).
  assert (MX : x mod 2 < 2) by (apply Nat.mod_upper_bound; lia).
  assert (MY : y mod 2 < 2) by (apply Nat.mod_upper_bound; lia).
  assert (NX : forall c, norm m (im_format src) sps c x y = norm m (im_format src) sps c x' y').
  { intros c'. pose proof (N c' _ _ MX MY) as G. rewrite <- DX, <- DY, <- DX', <- DY' in G. exact G. }
  assert (PX : source_pixel L m (im_format src) (im_color src) sps x y = source_pixel L m (im_format src) (im_color src) sps x' y').
  { unfold source_pixel. rewrite !NX. reflexivity. }
  assert (PR : forall dx, dx < 2 -> source_pixel L m (im_format src) (im_color src) sps (2 * (x / 2) + dx) y
                                  = source_pixel L m (im_format src) (im_color src) sps (2 * (x' / 2) + dx) y').
  { intros dx Hd. pose proof (P dx _ Hd MY) as G. rewrite <- DY, <- DY' in G. exact G. }
  pose proof (P 0 0 ltac:(lia) ltac:(lia)) as P00. pose proof (P 0 1 ltac:(lia) ltac:(lia)) as P01.
  pose proof (P 1 0 ltac:(lia) ltac:(lia)) as P10. pose proof (P 1 1 ltac:(lia) ltac:(lia)) as P11.
  pose proof (PR 0 ltac:(lia)) as R0. pose proof (PR 1 ltac:(lia)) as R1.
  rewrite (Nat.add_0_r (2 * (x / 2))), (Nat.add_0_r (2 * (x' / 2))) in P00, P01, R0.
  rewrite (Nat.add_0_r (2 * (y / 2))), (Nat.add_0_r (2 * (y' / 2))) in P00, P10.
  unfold expected_value. destruct (same_image_kind src dst); [apply NX|].
  unfold target. destruct (sampling_of (im_format dst)), (im_color dst) as [t p|i], c; cbv zeta;
    rewrite ?PX, ?R0, ?R1, ?P00, ?P01, ?P10, ?P11; reflexivity.
Qed.

(** Equal blocks get equal samples wherever they are, as long as the same code
    processes both columns *)
Theorem C24_position_independent_partial : forall lm b m src sps dst dps,
  converts lm b m src sps dst dps ->
  forall c x y x' y', has_comp (im_format dst) c = true -> in_image dst x y -> in_image dst x' y' ->
  same_block m src sps x y x' y' ->
  ictcp_chroma420 (im_format dst) (im_color dst) c = false ->                    (* missing: see C19 *)
  (x < im_width dst - im_width dst mod (lanes b * 2) <-> x' < im_width dst - im_width dst mod (lanes b * 2)) ->
                                                                                 (* missing: see C24_refuted *)
  stored lm b m src dst dps c x y = stored lm b m src dst dps c x' y'.
Proof.
  intros lm b m src sps dst dps CV c x y x' y' HC HI HI' SB NI CB.
  rewrite (stored_expected _ _ _ _ _ _ _ CV c x y HC HI NI), (stored_expected _ _ _ _ _ _ _ CV c x' y' HC HI' NI).
  assert (E : column_backend b (im_width dst) x = column_backend b (im_width dst) x').
  { unfold column_backend, vector_columns.
    destruct (Nat.ltb_spec x (im_width dst - im_width dst mod (lanes b * 2))),
      (Nat.ltb_spec x' (im_width dst - im_width dst mod (lanes b * 2))); try reflexivity; exfalso; lia. }
  rewrite E. f_equal. f_equal. apply expected_block, SB.
Qed.
Print Assumptions C24_position_independent_partial.

(** Without vectors the position never matters *)
Theorem C24_position_independent_scalar : forall lm m src sps dst dps,
  converts lm Scalar m src sps dst dps ->
  forall c x y x' y', has_comp (im_format dst) c = true -> in_image dst x y -> in_image dst x' y' ->
  same_block m src sps x y x' y' -> ictcp_chroma420 (im_format dst) (im_color dst) c = false ->
  stored lm Scalar m src dst dps c x y = stored lm Scalar m src dst dps c x' y'.
Proof.
  intros lm m src sps dst dps CV c x y x' y' HC HI HI' SB NI.
  rewrite (stored_expected _ _ _ _ _ _ _ CV c x y HC HI NI), (stored_expected _ _ _ _ _ _ _ CV c x' y' HC HI' NI).
  assert (E : forall w x, column_backend Scalar w x = Scalar) by (intros; unfold column_backend; destruct (_ <? _); reflexivity).
  rewrite !E. f_equal. f_equal. apply expected_block, SB.
Qed.
Print Assumptions C24_position_independent_scalar.

(** NEON: where no transfer function is involved (same transfer function and
    primaries, no ICtCp), vector and scalar columns agree *)
Definition no_transfer (src dst : image) : bool :=
  same_light (im_color src) (im_color dst) &&
  match im_color src with CYUV i => negb (is_ictcp (yc_space i)) | _ => true end &&
  match im_color dst with CYUV i => negb (is_ictcp (yc_space i)) | _ => true end.

Lemma expected_no_lane : forall L L' m src sps dst c x y, no_transfer src dst = true ->
  expected_value L m src sps dst c x y = expected_value L' m src sps dst c x y.
Proof.
  intros L L' m src sps dst c x y H. unfold no_transfer in H. apply andb_true_iff in H as [H HD]. apply andb_true_iff in H as [SL HS].
  unfold expected_value. destruct (same_image_kind src dst); [reflexivity|].
  assert (P : forall x y, recolored L (im_color src) (im_color dst) (source_pixel L m (im_format src) (im_color src) sps x y)
     = recolored L' (im_color src) (im_color dst) (source_pixel L' m (im_format src) (im_color src) sps x y)).
  { intros x0 y0. unfold recolored. rewrite SL. unfold source_pixel.
    destruct (sampling_of (im_format src)), (im_color src) as [|i]; try reflexivity;
      unfold decode_yuv, yuv_rgb; destruct (yc_space i); try discriminate HS; reflexivity. }
  unfold target. destruct (sampling_of (im_format dst)), (im_color dst) as [t p|i], c; cbv zeta; rewrite ?P; try reflexivity;
    unfold rgb_yuv; destruct (yc_space i); try discriminate HD; reflexivity.
Qed.

Lemma neon_quantise : forall f v, quantise (quant_of NEON) f v = quantise (quant_of Scalar) f v.
Proof.
  intros f v. unfold quantise. destruct f; cbn [quant_of neon_quant scalar_quant q_u8 q_u8i q_u16];
    rewrite ?neon_u8_as, ?neon_u16_as; reflexivity.
Qed.

Theorem C24_position_independent_neon : forall lm m src sps dst dps,
  converts lm NEON m src sps dst dps -> no_transfer src dst = true ->
  forall c x y x' y', has_comp (im_format dst) c = true -> in_image dst x y -> in_image dst x' y' ->
  same_block m src sps x y x' y' ->
  stored lm NEON m src dst dps c x y = stored lm NEON m src dst dps c x' y'.
Proof.
  intros lm m src sps dst dps CV NT c x y x' y' HC HI HI' SB.
  assert (NI : ictcp_chroma420 (im_format dst) (im_color dst) c = false).
  { unfold no_transfer in NT. apply andb_true_iff in NT as [_ HD]. unfold ictcp_chroma420.
    destruct (sampling_of (im_format dst)), (im_color dst), c; try reflexivity; apply negb_true_iff, HD. }
  rewrite (stored_expected _ _ _ _ _ _ _ CV c x y HC HI NI), (stored_expected _ _ _ _ _ _ _ CV c x' y' HC HI' NI).
  assert (Q : forall w x f v, quantise (quant_of (column_backend NEON w x)) f v = quantise (quant_of Scalar) f v).
  { intros. unfold column_backend. destruct (_ <? _); [apply neon_quantise|reflexivity]. }
  rewrite !Q. f_equal. f_equal. rewrite (expected_block _ m src sps dst c x y x' y' SB). apply expected_no_lane, NT.
Qed.
Print Assumptions C24_position_independent_neon.

(** AVX2 and AVX-512: a flat gray image whose width is not a multiple of the
    group size gets two different chroma values. *)
Definition gray_mem : mem := fun _ _ => 100%Z.
Definition gray_src (w : nat) : image := ex_image RGB w 2 ex_rgb [(Slice 0 0 (6 * w), 3 * w)].
Definition gray_planes (w : nat) : list (slice * nat) := [(Slice 1 0 (2 * w), w); (Slice 2 0 (2 * w), w); (Slice 3 0 (2 * w), w)].
Definition gray_dst (w : nat) : image := ex_image I444 w 2 ex_yuv (gray_planes w).

Lemma gray_disjoint : forall w, planes_disjoint (gray_planes w).
Proof.
  intros w i j a c H Ha Hc k K. destruct i as [|[|[|i]]], j as [|[|[|j]]]; cbn in Ha, Hc; try discriminate Ha; try discriminate Hc;
      try (destruct (H eq_refl)); try (destruct i; discriminate Ha); try (destruct j; discriminate Hc);
      injection Ha as <-; injection Hc as <-; cbn in K; lia.
Qed.

Theorem C24_refuted :
  (converts ex_lm AVX2 gray_mem (gray_src 18) [(Slice 0 0 108, 54)] (gray_dst 18) (gray_planes 18) /\
   same_block gray_mem (gray_src 18) [(Slice 0 0 108, 54)] 0 0 16 0 /\
   stored ex_lm AVX2 gray_mem (gray_src 18) (gray_dst 18) (gray_planes 18) CU 0 0 = Some 128%Z /\
   stored ex_lm AVX2 gray_mem (gray_src 18) (gray_dst 18) (gray_planes 18) CU 16 0 = Some 127%Z) /\
  (converts ex_lm AVX512 gray_mem (gray_src 34) [(Slice 0 0 204, 102)] (gray_dst 34) (gray_planes 34) /\
   same_block gray_mem (gray_src 34) [(Slice 0 0 204, 102)] 0 0 32 0 /\
   stored ex_lm AVX512 gray_mem (gray_src 34) (gray_dst 34) (gray_planes 34) CU 0 0 = Some 128%Z /\
   stored ex_lm AVX512 gray_mem (gray_src 34) (gray_dst 34) (gray_planes 34) CU 32 0 = Some 127%Z).
Proof.
  split; (split; [|split; [|vm_compute; split; reflexivity]]).
  1, 3: split; [|split; [|split; [apply gray_disjoint|split; [discriminate|vm_compute; reflexivity]]]];
    (split; [reflexivity|split; [repeat constructor; cbn; unfold usize; cbn; lia|reflexivity]]).
  all: split; [reflexivity|split; [reflexivity|]]; intros [] dx dy Hx Hy; reflexivity.
Qed.
Print Assumptions C24_refuted.

Example C24_example : forall b,
  converts ex_lm b gray_mem (gray_src 18) [(Slice 0 0 108, 54)] (gray_dst 18) (gray_planes 18) /\
  no_transfer (gray_src 18) (gray_dst 18) = true /\
  same_block gray_mem (gray_src 18) [(Slice 0 0 108, 54)] 2 0 8 0.
Proof.
  intros b. split; [|split; [reflexivity|]].
  - split; [|split; [|split; [apply gray_disjoint|split; [discriminate|destruct b; vm_compute; reflexivity]]]];
    (split; [reflexivity|split; [repeat constructor; cbn; unfold usize; cbn; lia|reflexivity]]).
  - split; [reflexivity|split; [reflexivity|]]; intros [] dx dy Hx Hy; reflexivity.
Qed.

(** * C38 *)

(** Same transfer function and primaries: the color of a pixel is not touched
    between decoding and encoding *)
Theorem C38_skipped : forall lm b m src sps dst dps,
  converts lm b m src sps dst dps -> same_image_kind src dst = false ->
  ci_transfer (im_color src) = ci_transfer (im_color dst) -> ci_primaries (im_color src) = ci_primaries (im_color dst) ->
  forall c x y, has_comp (im_format dst) c = true -> in_image dst x y ->
  ictcp_chroma420 (im_format dst) (im_color dst) c = false ->
  let cb := column_backend b (im_width dst) x in
  let L := lane_of lm cb in
  stored lm b m src dst dps c x y
    = Some (quantise (quant_of cb) (im_format dst)
        (target L (im_format dst) (im_color dst) (source_pixel L m (im_format src) (im_color src) sps) c x y)).
Proof.
  intros lm b m src sps dst dps CV SK ET EP c x y HC HI NI cb L.
  rewrite (stored_expected _ _ _ _ _ _ _ CV c x y HC HI NI). fold cb. fold L. unfold expected_value. rewrite SK.
  assert (SL : same_light (im_color src) (im_color dst) = true).
  { unfold same_light. rewrite ET, EP. destruct (ci_transfer (im_color dst)), (ci_primaries (im_color dst)); reflexivity. }
  unfold recolored. rewrite SL. reflexivity.
Qed.
Print Assumptions C38_skipped.

(** Otherwise every color is linearised with the source's transfer function,
    moved to the destination's primaries and encoded with the destination's
    transfer function *)
Theorem C38_applied : forall lm b m src sps dst dps,
  converts lm b m src sps dst dps ->
  ci_transfer (im_color src) <> ci_transfer (im_color dst) \/ ci_primaries (im_color src) <> ci_primaries (im_color dst) ->
  forall c x y, has_comp (im_format dst) c = true -> in_image dst x y ->
  ictcp_chroma420 (im_format dst) (im_color dst) c = false ->
  let cb := column_backend b (im_width dst) x in
  let L := lane_of lm cb in
  let cs := im_color src in let cd := im_color dst in
  stored lm b m src dst dps c x y
    = Some (quantise (quant_of cb) (im_format dst)
        (target L (im_format dst) cd
          (fun x y => let p := source_pixel L m (im_format src) cs sps x y in
             (map3 (oetf L (ci_transfer cd)) (from_xyz (ci_primaries cd) (to_xyz (ci_primaries cs) (map3 (eotf L (ci_transfer cs)) (fst p)))),
              snd p)) c x y)).
Proof.
  intros lm b m src sps dst dps CV NE c x y HC HI NI cb L cs cd.
  rewrite (stored_expected _ _ _ _ _ _ _ CV c x y HC HI NI). fold cb. fold L. unfold expected_value.
  assert (SL : same_light cs cd = false).
  { unfold same_light, cs, cd. destruct (ci_transfer (im_color src)), (ci_transfer (im_color dst)); try reflexivity;
      destruct (ci_primaries (im_color src)), (ci_primaries (im_color dst)); try reflexivity; destruct NE; congruence. }
  assert (SK : same_image_kind src dst = false).
  { unfold same_image_kind. apply andb_false_iff. right. apply not_true_iff_false. intros E.
    unfold color_info_eqb in E. destruct (color_info_eq_dec (im_color src) (im_color dst)) as [EQ|]; [|discriminate E].
    unfold same_light, cs, cd in SL. rewrite EQ in SL.
    destruct (ci_transfer (im_color dst)), (ci_primaries (im_color dst)); discriminate SL. }
  rewrite SK. fold cs. fold cd. unfold recolored. rewrite SL. reflexivity.
Qed.
Print Assumptions C38_applied.

(** The two cases differ: linear to sRGB changes the samples, linear to linear
    (RGBA to BGR) does not *)
Example C38_example : forall b,
  converts ex_lm b ex_mem (ex_rgba22 0 TLinear) (ex_rgba_planes 0) (ex_rgba22 1 TSRGB) (ex_rgba_planes 1) /\
  converts ex_lm b ex_mem (ex_rgba22 0 TSRGB) (ex_rgba_planes 0) (ex_image BGR 2 2 (CRGB TSRGB PrBT709) [(Slice 1 0 12, 6)]) [(Slice 1 0 12, 6)] /\
  stored ex_lm b ex_mem (ex_rgba22 0 TSRGB) (ex_image BGR 2 2 (CRGB TSRGB PrBT709) [(Slice 1 0 12, 6)]) [(Slice 1 0 12, 6)] CR 1 1 = Some 84%Z /\
  given ex_mem (ex_rgba22 0 TLinear) (ex_rgba_planes 0) CR 1 1 = Some 84%Z /\
  stored ex_lm b ex_mem (ex_rgba22 0 TLinear) (ex_rgba22 1 TSRGB) (ex_rgba_planes 1) CR 1 1 <> Some 84%Z.
Proof.
  intros b. split; [ex_converts b|]. split; [ex_converts b|].
  destruct b; vm_compute; (split; [reflexivity|split; [reflexivity|discriminate]]).
Qed.
