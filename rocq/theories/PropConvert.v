(** C13 - C18: result, memory safety, frame and functional correctness of [convert]. *)

From Coq Require Import List ZArith Bool Arith Lia.
From Verif Require Import Base Types Planes ImageM F32 Vector Simd SpecVector SimdProofs QuantProofs SpecGeom GeomProofs
  SpecColor SpecConvert SpecRun Formats Visit Convert VisitProofs ConvertProofs.
Import ListNotations.

(** Concrete images and libraries for the examples *)
Definition ex_lm : libm := Libm (fun _ a _ => a) (fun _ a => a).
Definition ex_rgb : color_info := CRGB TLinear PrBT709.
Definition ex_yuv : color_info := CYUV (YuvCI TLinear PrBT709 SpBT709 true).
Definition ex_image (f : pixel_format) (w h : nat) (c : color_info) (ps : list (slice * nat)) : image := Image f w h c (Ok ps).
Definition ex_mem : mem := fun b i => Z.of_nat ((b * 40 + i * 7) mod 256).

(** A 4x2 RGB source in buffer 0, with three bytes of padding per row, and a 4x2 I420 destination in buffer 1 *)
Definition ex_src_planes : list (slice * nat) := [(Slice 0 0 30, 15)].
Definition ex_src : image := ex_image RGB 4 2 ex_rgb ex_src_planes.
Definition ex_dst_planes : list (slice * nat) := [(Slice 1 0 10, 5); (Slice 1 10 2, 2); (Slice 1 12 3, 3)].
Definition ex_dst : image := ex_image I420 4 2 ex_yuv ex_dst_planes.

Lemma ex_valid : valid_image ex_src ex_src_planes /\ valid_image ex_dst ex_dst_planes.
Proof. split; (split; [reflexivity|split; [repeat constructor; cbn; unfold usize; cbn; lia|reflexivity]]). Qed.

(** * C13 *)

(** The result of convert, for all images whose planes can be listed or not,
    all formats and color infos, and all memory contents.  ([strides_444]: see
    C15.) *)
Theorem C13_result : forall lm b m src dst,
  (forall ps, im_planes src = Ok ps -> wf_planes ps /\ strides_444 (im_format src) ps) ->
  (forall ps, im_planes dst = Ok ps -> wf_planes ps) ->
  snd (convert lm b m src dst) = convert_result src dst.
Proof. intros lm b m src dst WS WD. apply (convert_result_ok lm b m src dst WS WD). Qed.
Print Assumptions C13_result.

(** Errors are as in the table even without [strides_444] *)
Theorem C13_error : forall lm b m src dst e,
  (forall ps, im_planes src = Ok ps -> wf_planes ps) ->
  (forall ps, im_planes dst = Ok ps -> wf_planes ps) ->
  (snd (convert lm b m src dst) = Err e <-> convert_result src dst = Err e).
Proof.
  intros lm b m src dst e WS WD. destruct (convert_fails lm b m src dst WS WD) as (F & C).
  assert (D : convert_result src dst = Ok tt \/ convert_result src dst <> Ok tt)
    by (destruct (convert_result src dst) as [[]| | |]; auto; right; discriminate).
  destruct D as [D|D].
  - destruct (C D) as ((o & E) & _). rewrite D, E. destruct o as [evs [| [] | |]]; cbn; split; discriminate.
  - rewrite (F D). reflexivity.
Qed.
Print Assumptions C13_error.

(** The parts of the property, in words *)
Theorem C13_mismatched_iff : forall lm b m src dst,
  (forall ps, im_planes src = Ok ps -> wf_planes ps /\ strides_444 (im_format src) ps) ->
  (forall ps, im_planes dst = Ok ps -> wf_planes ps) ->
  (snd (convert lm b m src dst) = Err MismatchedImageSize <->
     im_width src <> im_width dst \/ im_height src <> im_height dst).
Proof.
  intros lm b m src dst WS WD. rewrite (C13_result lm b m src dst WS WD). unfold convert_result.
  destruct (Nat.eqb_spec (im_width src) (im_width dst)), (Nat.eqb_spec (im_height src) (im_height dst)); cbn [andb negb];
    try (split; [intros _; tauto|reflexivity]).
  split; [|tauto]. destruct (_ || _); [discriminate|]. unfold checked.
  destruct (image_bounds_check src); try discriminate. destruct (_ && _); try discriminate.
  destruct (image_bounds_check dst); discriminate.
Qed.
Print Assumptions C13_mismatched_iff.

Theorem C13_odd_iff : forall lm b m src dst,
  (forall ps, im_planes src = Ok ps -> wf_planes ps /\ strides_444 (im_format src) ps) ->
  (forall ps, im_planes dst = Ok ps -> wf_planes ps) ->
  (snd (convert lm b m src dst) = Err OddImageDimensions <->
     im_width src = im_width dst /\ im_height src = im_height dst /\
     (Nat.Odd (im_width src) \/ Nat.Odd (im_height src))).
Proof.
  intros lm b m src dst WS WD. rewrite (C13_result lm b m src dst WS WD). unfold convert_result.
  rewrite <- !Nat.odd_spec.
  destruct (Nat.eqb_spec (im_width src) (im_width dst)), (Nat.eqb_spec (im_height src) (im_height dst)); cbn [andb negb];
    try (split; [discriminate|tauto]).
  destruct (Nat.odd (im_width src)), (Nat.odd (im_height src)); cbn [orb]; try (split; [auto|reflexivity]).
  split; [|intros (_ & _ & [H|H]); discriminate H]. unfold checked.
  destruct (image_bounds_check src); try discriminate. destruct (_ && _); try discriminate.
  destruct (image_bounds_check dst); discriminate.
Qed.
Print Assumptions C13_odd_iff.

(** Success: exactly for equal even sizes, accepted planes and fitting color
    information *)
Theorem C13_ok_iff : forall lm b m src dst,
  (forall ps, im_planes src = Ok ps -> wf_planes ps /\ strides_444 (im_format src) ps) ->
  (forall ps, im_planes dst = Ok ps -> wf_planes ps) ->
  (snd (convert lm b m src dst) = Ok tt <->
     im_width src = im_width dst /\ im_height src = im_height dst /\
     Nat.Even (im_width src) /\ Nat.Even (im_height src) /\
     image_bounds_check src = Ok tt /\ image_bounds_check dst = Ok tt /\
     (same_image_kind src dst = true \/
      color_fits (im_format src) (im_color src) = true /\ color_fits (im_format dst) (im_color dst) = true)).
Proof.
  intros lm b m src dst WS WD. rewrite (C13_result lm b m src dst WS WD). unfold convert_result, checked.
  rewrite <- !Nat.even_spec. unfold Nat.odd.
  destruct (Nat.eqb_spec (im_width src) (im_width dst)), (Nat.eqb_spec (im_height src) (im_height dst)); cbn [andb negb];
    try (split; [discriminate|tauto]).
  destruct (Nat.even (im_width src)), (Nat.even (im_height src)); cbn [negb orb]; try (split; [discriminate|intuition discriminate]).
  destruct (image_bounds_check src) as [[]| | |]; try (split; [discriminate|intuition discriminate]).
  destruct (same_image_kind src dst), (color_fits (im_format src) (im_color src)),
    (color_fits (im_format dst) (im_color dst)); cbn [negb andb];
    destruct (image_bounds_check dst) as [[]| | |]; split; try discriminate; intuition discriminate.
Qed.
Print Assumptions C13_ok_iff.

(** All rows of the table occur *)
Example C13_example :
  let r s d := snd (convert ex_lm AVX2 ex_mem s d) in
  r ex_src ex_dst = Ok tt /\
  r ex_src (ex_image I420 4 4 ex_yuv ex_dst_planes) = Err MismatchedImageSize /\
  r (ex_image RGB 3 2 ex_rgb ex_src_planes) (ex_image I420 3 2 ex_yuv ex_dst_planes) = Err OddImageDimensions /\
  r (ex_image RGB 4 2 ex_rgb [(Slice 0 0 29, 15)]) (ex_image I420 4 2 ex_rgb []) =
     Err (CBoundsCheck (InvalidPlaneSize 0 30 29)) /\
  r ex_src (ex_image I420 4 2 ex_rgb []) = Err InvalidColorInfo /\
  r ex_src (ex_image I420 4 2 ex_yuv []) = Err (CBoundsCheck (InvalidNumberOfPlanes 3 0)) /\
  convert_result ex_src ex_dst = Ok tt.
Proof. vm_compute. repeat split. Qed.

(** * C14 *)

(** A convert that returns an error has not stored anything: no restriction on
    the images at all. *)
Theorem C14_error_no_store : forall lm b m src dst e,
  snd (convert lm b m src dst) = Err e ->
  fst (convert lm b m src dst) = [] /\ forall buf i, apply_all m (fst (convert lm b m src dst)) buf i = m buf i.
Proof.
  intros lm bk m src dst e H. pose proof (convert_silent lm bk m src dst e H) as E.
  unfold ConvertProofs.silent in E. rewrite E. split; reflexivity.
Qed.
Print Assumptions C14_error_no_store.

Example C14_example : exists e, snd (convert ex_lm Scalar ex_mem ex_src (ex_image NV12 4 2 ex_yuv [(Slice 1 0 8, 4); (Slice 1 8 3, 4)])) = Err e.
Proof. eexists. vm_compute. reflexivity. Qed.

(** * C15 *)

(** For images accepted by bounds_check, convert returns Ok or Err: it does not
    panic, performs no load outside of a plane (a raw load or store outside of
    its slice is the result [UB] in the model), and every store lies inside a
    plane of the destination. *)
Theorem C15_memory_safe_partial : forall lm b m src sps dst dps,
  valid_image src sps -> valid_image dst dps ->
  strides_444 (im_format src) sps ->              (* missing: see C15_refuted *)
  (snd (convert lm b m src dst) = Ok tt \/ exists e, snd (convert lm b m src dst) = Err e) /\
  Forall (store_inside dps) (fst (convert lm b m src dst)).
Proof.
  intros lm b m src sps dst dps VS VD ST.
  assert (WS : forall ps, im_planes src = Ok ps -> wf_planes ps /\ strides_444 (im_format src) ps).
  { intros ps E. destruct VS as (E' & W & _). rewrite E in E'. injection E' as ->. auto. }
  assert (WD : forall ps, im_planes dst = Ok ps -> wf_planes ps).
  { intros ps E. destruct VD as (E' & W & _). rewrite E in E'. injection E' as ->. auto. }
  destruct (convert_result_ok lm b m src dst WS WD) as (R & F & C). rewrite R.
  assert (OE : convert_result src dst = Ok tt \/ exists e, convert_result src dst = Err e).
  { unfold convert_result. destruct (negb _); [eauto|]. destruct (_ || _); [eauto|].
    destruct VS as (_ & _ & ->). destruct VD as (_ & _ & ->). cbn [checked]. destruct (_ && _); eauto. }
  split; [exact OE|]. destruct OE as [E|[e E]].
  - destruct (C E) as (sps' & dps' & CV). pose proof (convert_inside lm b m _ _ _ _ CV) as I.
    destruct (cv_dst _ _ _ _ CV) as (E1 & _). destruct VD as (E2 & _). rewrite E2 in E1. injection E1 as ->. exact I.
  - rewrite F by (rewrite E; discriminate). constructor.
Qed.
Print Assumptions C15_memory_safe_partial.

Example C15_example : valid_image ex_src ex_src_planes /\ valid_image ex_dst ex_dst_planes /\
  strides_444 (im_format ex_src) ex_src_planes /\ length (fst (convert ex_lm AVX2 ex_mem ex_src ex_dst)) = 8.
Proof. split; [apply ex_valid|split; [apply ex_valid|split; [discriminate|vm_compute; reflexivity]]]. Qed.

(** Without [strides_444] the claim is false: the second row of U and V is
    addressed with the Y stride.  All three sources pass bounds_check.  The
    first one makes convert read past the end of a slice, the second one makes
    it panic. *)
Definition bad444 (y_stride u_stride : nat) : list (slice * nat) :=
  [(Slice 0 0 (2 * y_stride), y_stride); (Slice 1 0 (2 * u_stride), u_stride); (Slice 2 0 (2 * u_stride), u_stride)].
Definition bad444_image (y_stride u_stride : nat) : image := ex_image I444 2 2 ex_yuv (bad444 y_stride u_stride).
Definition ex_dst_rgb : image := ex_image RGB 2 2 ex_rgb [(Slice 3 0 12, 6)].

Theorem C15_refuted :
  valid_image ex_dst_rgb [(Slice 3 0 12, 6)] /\
  (valid_image (bad444_image 3 2) (bad444 3 2) /\
   forall b, snd (convert ex_lm b ex_mem (bad444_image 3 2) ex_dst_rgb) = UB) /\
  (valid_image (bad444_image 5 2) (bad444 5 2) /\
   forall b, exists p, snd (convert ex_lm b ex_mem (bad444_image 5 2) ex_dst_rgb) = Panic p).
Proof.
  assert (V : forall ps, Forall (fun pl : slice * nat => usize (s_len (fst pl)) /\ usize (snd pl)) ps -> wf_planes ps) by auto.
  split; [|split; split].
  1, 2, 4: split; [reflexivity|split; [repeat constructor; cbn; unfold usize; cbn; lia|reflexivity]].
  - intros []; vm_compute; reflexivity.
  - intros []; eexists; vm_compute; reflexivity.
Qed.
Print Assumptions C15_refuted.

(** * C16 *)

(** A successful or failing convert changes no byte that is not part of a
    sample of the destination: not the padding at the end of a row, not the
    bytes after the last row, nothing outside of the planes. *)
Theorem C16_frame : forall lm b m src sps dst dps,
  valid_image src sps -> valid_image dst dps -> strides_444 (im_format src) sps -> planes_disjoint dps ->
  forall buf i, ~ sample_byte (im_format dst) dps (im_width dst) (im_height dst) buf i ->
    apply_all m (fst (convert lm b m src dst)) buf i = m buf i.
Proof.
  intros lm b m src sps dst dps VS VD ST PD buf i NS.
  assert (WS : forall ps, im_planes src = Ok ps -> wf_planes ps /\ strides_444 (im_format src) ps).
  { intros ps E. destruct VS as (E' & W & _). rewrite E in E'. injection E' as ->. auto. }
  assert (WD : forall ps, im_planes dst = Ok ps -> wf_planes ps).
  { intros ps E. destruct VD as (E' & W & _). rewrite E in E'. injection E' as ->. auto. }
  destruct (convert_result_ok lm b m src dst WS WD) as (R & F & C).
  destruct (convert_result src dst) as [[]| | |] eqn:CR; try (rewrite F by discriminate; reflexivity).
  destruct (C eq_refl) as (sps' & dps' & CV).
  assert (dps' = dps) as ->.
  { destruct (cv_dst _ _ _ _ CV) as (E1 & _). destruct VD as (E2 & _). rewrite E2 in E1. injection E1 as ->. reflexivity. }
  destruct (convert_effect lm b m _ _ _ _ CV PD) as (evs & E & _ & O & _). rewrite E. cbn [fst].
  apply apply_untouched, O, NS.
Qed.
Print Assumptions C16_frame.

(** Byte 4 of the first row of the example destination is padding, byte 3 is a sample *)
Example C16_example :
  ~ sample_byte I420 ex_dst_planes 4 2 1 4 /\ sample_byte I420 ex_dst_planes 4 2 1 3 /\ planes_disjoint ex_dst_planes /\
  apply_all ex_mem (fst (convert ex_lm AVX2 ex_mem ex_src ex_dst)) 1 4 = ex_mem 1 4 /\
  apply_all ex_mem (fst (convert ex_lm AVX2 ex_mem ex_src ex_dst)) 1 3 <> ex_mem 1 3.
Proof.
  split; [|split; [|split; [|split]]].
  - intros (p & pl & r & c & Hp & N & Hr & Hc & E & Hi). cbn in Hp.
    destruct p as [|[|[|p]]]; [..|lia]; cbn in N; injection N as <-; cbn in Hr, Hc, Hi, E; destruct r as [|[|r]]; lia.
  - exists 0, (Slice 1 0 10, 5), 0, 3. cbn. repeat split; lia.
  - intros i j a c H Ha Hc k K. destruct i as [|[|[|i]]], j as [|[|[|j]]]; cbn in Ha, Hc; try discriminate Ha; try discriminate Hc;
      try (destruct (H eq_refl)); try (destruct i; discriminate Ha); try (destruct j; discriminate Hc);
      injection Ha as <-; injection Hc as <-; cbn in K; lia.
  - vm_compute. reflexivity.
  - vm_compute. discriminate.
Qed.

(** * C17 *)

(** The walk: whatever the vector length, every pixel of an image with even
    size is in exactly one visited block, and no block leaves the image. *)
Theorem C17_walk_once : forall vi scalar w h,
  0 < vi_len vi -> vi_len scalar = 1 -> Nat.Even w -> Nat.Even h ->
  (forall x y, x < w -> y < h ->
    length (filter (fun '(i, px, py) => (px <=? x) && (x <? px + 2 * vi_len i) && (py <=? y) && (y <? py + 2))
      (visit_positions vi scalar w h)) = 1) /\
  (forall i px py, In (i, px, py) (visit_positions vi scalar w h) -> px + 2 * vi_len i <= w /\ py + 2 <= h).
Proof.
  intros vi scalar w h HL HS [a ->] [c ->].
  assert (E : forall n, 2 * n mod 2 = 0) by (intros; rewrite Nat.mul_comm; apply Nat.mod_mul; lia).
  split; intros.
  - apply (visit_positions_once vi scalar); auto.
  - eapply visit_positions_inside; eauto.
Qed.
Print Assumptions C17_walk_once.

Example C17_example : map (fun '(i, x, y) => (vi_len i, x, y)) (visit_positions (impl_of ex_lm AVX2) (impl_of ex_lm Scalar) 36 4) =
  [(8, 0, 0); (8, 16, 0); (1, 32, 0); (1, 34, 0); (8, 0, 2); (8, 16, 2); (1, 32, 2); (1, 34, 2)].
Proof. reflexivity. Qed.

(** The stores: a successful convert stores to every byte of every sample of
    the destination exactly once. *)
Theorem C17_stores_once : forall lm b m src sps dst dps,
  valid_image src sps -> valid_image dst dps -> strides_444 (im_format src) sps -> planes_disjoint dps ->
  snd (convert lm b m src dst) = Ok tt ->
  forall buf i, sample_byte (im_format dst) dps (im_width dst) (im_height dst) buf i ->
    times (fst (convert lm b m src dst)) buf i = 1.
Proof.
  intros lm b m src sps dst dps VS VD ST PD OK buf i SB.
  assert (WS : forall ps, im_planes src = Ok ps -> wf_planes ps /\ strides_444 (im_format src) ps).
  { intros ps E. destruct VS as (E' & W & _). rewrite E in E'. injection E' as ->. auto. }
  assert (WD : forall ps, im_planes dst = Ok ps -> wf_planes ps).
  { intros ps E. destruct VD as (E' & W & _). rewrite E in E'. injection E' as ->. auto. }
  destruct (convert_result_ok lm b m src dst WS WD) as (R & F & C). rewrite R in OK.
  destruct (C OK) as (sps' & dps' & CV).
  assert (dps' = dps) as ->.
  { destruct (cv_dst _ _ _ _ CV) as (E1 & _). destruct VD as (E2 & _). rewrite E2 in E1. injection E1 as ->. reflexivity. }
  destruct (convert_effect lm b m _ _ _ _ CV PD) as (evs & E & O & _). rewrite E. cbn [fst]. apply O, SB.
Qed.
Print Assumptions C17_stores_once.

(** * C18 *)

(** After a successful convert every component of every destination pixel is
    the quantised value that SpecConvert.v prescribes for the source samples at
    the same position.  [cb] is the code that processes the column: the vector
    back end, or scalar code for the columns that are left over. *)
Theorem C18_correct_partial : forall lm b m src sps dst dps,
  valid_image src sps -> valid_image dst dps -> planes_disjoint dps ->
  strides_444 (im_format src) sps ->                                     (* missing: see C18_refuted *)
  snd (convert lm b m src dst) = Ok tt ->
  forall c x y, has_comp (im_format dst) c = true -> x < im_width dst -> y < im_height dst ->
  ictcp_chroma420 (im_format dst) (im_color dst) c = false ->            (* missing: see C19_refuted *)
  let cb := column_backend b (im_width dst) x in
  component (apply_all m (fst (convert lm b m src dst))) (im_format dst) dps c x y
    = Some (quantise (quant_of cb) (im_format dst) (expected_value (lane_of lm cb) m src sps dst c x y)).
Proof.
  intros lm b m src sps dst dps VS VD PD ST OK c x y HC Hx Hy NI cb.
  assert (WS : forall ps, im_planes src = Ok ps -> wf_planes ps /\ strides_444 (im_format src) ps).
  { intros ps E. destruct VS as (E' & W & _). rewrite E in E'. injection E' as ->. auto. }
  assert (WD : forall ps, im_planes dst = Ok ps -> wf_planes ps).
  { intros ps E. destruct VD as (E' & W & _). rewrite E in E'. injection E' as ->. auto. }
  destruct (convert_result_ok lm b m src dst WS WD) as (R & F & C). rewrite R in OK.
  destruct (C OK) as (sps' & dps' & CV).
  assert (sps' = sps) as ->.
  { destruct (cv_src _ _ _ _ CV) as (E1 & _). destruct VS as (E2 & _). rewrite E2 in E1. injection E1 as ->. reflexivity. }
  assert (dps' = dps) as ->.
  { destruct (cv_dst _ _ _ _ CV) as (E1 & _). destruct VD as (E2 & _). rewrite E2 in E1. injection E1 as ->. reflexivity. }
  destruct (convert_effect lm b m _ _ _ _ CV PD) as (evs & E & _ & _ & V). rewrite E. cbn [fst].
  rewrite (V m c x y HC Hx Hy). fold cb. rewrite code_value_expected by exact NI. reflexivity.
Qed.
Print Assumptions C18_correct_partial.

(** [|x| < b] weakens *)
Lemma f32_abs_below_mono : forall a b x, (a <= b)%Z -> f32_abs_below a x -> f32_abs_below b x.
Proof.
  intros a b x H; destruct x as [s|s| |s m e]; cbn [f32_abs_below]; auto.
  destruct (num_den s m e) as (n, d) eqn:E. destruct (rne_nearest _ _ _ _ _ E) as (_ & _ & Hd). nia.
Qed.

(** The stored integer in terms of the numbers: scalar and NEON columns
    truncate, AVX2 columns round to nearest even (for values below 32767). *)
Theorem C18_rounding : forall f v cb, let z := quantise (quant_of cb) f v in
  let hi := if sample_bytes f =? 2 then 65535%Z else 255%Z in
  let scaled := f32_mul v (f32_of_Z (max_level f)) in
  (cb = Scalar \/ cb = NEON -> is_trunc_sat hi scaled z) /\
  (cb = AVX2 -> f32_abs_below 32767 scaled -> is_round_sat hi scaled z) /\
  (cb = AVX512 -> f32_in_range hi scaled -> is_round_sat hi scaled z).
Proof.
  intros f v cb z hi scaled. unfold z, hi, scaled, quantise. cbn [fmul f32_ops].
  split; [|split].
  - intros [-> | ->]; destruct f; cbn [quant_of scalar_quant neon_quant q_u8 q_u8i q_u16 sample_bytes Nat.eqb];
      rewrite ?neon_u8_as, ?neon_u16_as; unfold as_u8, as_u16; apply f32_as_trunc; lia.
  - intros -> H. assert (H' : f32_abs_below 2147483647 (f32_mul v (f32_of_Z (max_level f)))) by (eapply f32_abs_below_mono; [|exact H]; lia).
    destruct f; cbn [quant_of avx2_quant q_u8 q_u8i q_u16 sample_bytes Nat.eqb];
      first [apply avx2_u8_round; exact H | apply avx2_u16_round; exact H'].
  - intros -> H. unfold hi, scaled in H. cbn [fmul f32_ops] in H.
    destruct f; cbn [quant_of avx512_quant q_u8 q_u8i q_u16 sample_bytes Nat.eqb] in *; unfold low_u8, low_u16;
      try (apply low_round; [lia|lia|exact H]);
      (apply avx2_u8_round; apply (f32_abs_below_mono (255 + 1)); [lia|apply in_range_below; [lia|exact H]]).
Qed.
Print Assumptions C18_rounding.

(** A concrete case: the hypotheses hold, and the stored samples are not
    trivial. *)
Example C18_example :
  valid_image ex_src ex_src_planes /\ valid_image ex_dst ex_dst_planes /\ strides_444 (im_format ex_src) ex_src_planes /\
  snd (convert ex_lm AVX2 ex_mem ex_src ex_dst) = Ok tt /\
  ictcp_chroma420 (im_format ex_dst) (im_color ex_dst) CU = false /\
  map (fun x => component (apply_all ex_mem (fst (convert ex_lm AVX2 ex_mem ex_src ex_dst))) I420 ex_dst_planes CY x 1) [0; 1; 2; 3]
    = [Some 111%Z; Some 132%Z; Some 153%Z; Some 174%Z] /\
  quantise (quant_of Scalar) I420 (expected_value (lane_of ex_lm Scalar) ex_mem ex_src ex_src_planes ex_dst CY 2 1) = 153%Z.
Proof. split; [apply ex_valid|split; [apply ex_valid|split; [discriminate|vm_compute; auto]]]. Qed.

(** Without equal strides of a 4:4:4 source the claim is false even where no
    load is out of bounds: the chroma planes here have slack at their end, and
    the converted lower row uses chroma from the wrong place. *)
Definition slack444 : list (slice * nat) := [(Slice 0 0 6, 3); (Slice 1 0 6, 2); (Slice 2 0 6, 2)].
Definition slack444_image : image := ex_image I444 2 2 ex_yuv slack444.

Theorem C18_refuted :
  valid_image slack444_image slack444 /\ valid_image ex_dst_rgb [(Slice 3 0 12, 6)] /\
  forall b, snd (convert ex_lm b ex_mem slack444_image ex_dst_rgb) = Ok tt /\
    component (apply_all ex_mem (fst (convert ex_lm b ex_mem slack444_image ex_dst_rgb))) RGB [(Slice 3 0 12, 6)] CG 0 1
      <> Some (quantise (quant_of (column_backend b 2 0)) RGB
           (expected_value (lane_of ex_lm (column_backend b 2 0)) ex_mem slack444_image slack444 ex_dst_rgb CG 0 1)).
Proof.
  split; [|split]; try (split; [reflexivity|split; [repeat constructor; cbn; unfold usize; cbn; lia|reflexivity]]).
  intros []; (split; [vm_compute; reflexivity|vm_compute; discriminate]).
Qed.
Print Assumptions C18_refuted.
