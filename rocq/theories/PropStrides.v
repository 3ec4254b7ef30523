(** C13, C15 - C18 for all images: the planes of a 4:4:4 planar source may have
    different strides. *)

From Coq Require Import List ZArith Bool Arith Lia.
From Verif Require Import Base Types Planes ImageM F32 Vector Simd SpecVector SimdProofs SpecGeom GeomProofs GeomProofs2 ReadProofs
  SpecColor SpecConvert SpecRun SpecStride Formats Visit Convert VisitProofs ConvertProofs StrideProofs PropConvert.
Import ListNotations.

(** [chroma_inside] holds for all sources but 4:4:4 planar ones, and for those
    with equal strides. *)
Theorem strides_chroma_inside : forall src (sps : list (slice * nat)), valid_image src sps -> strides_444 (im_format src) sps ->
  chroma_inside (im_format src) sps (im_width src) (im_height src).
Proof.
  intros src sps V ST K W p luma pl y P N0 N Hy. pose proof (valid_ready _ _ V) as R.
  assert (N3 : n_planes (im_format src) = 3) by (destruct (im_format src); try discriminate K; reflexivity).
  assert (p < 3) by lia.
  pose proof (ready_geom src sps p pl R ltac:(lia) N) as G.
  assert (C : plane_cols (im_format src) p (im_width src) = im_width src /\ plane_rows (im_format src) p (im_height src) = im_height src)
    by (destruct (im_format src); try discriminate K; auto).
  destruct C as [C1 C2]. rewrite C1, C2 in G. destruct G as (A & B & _).
  assert (ES : snd luma = snd pl) by (apply (ST K 0 p); auto; lia).
  unfold read_row. rewrite ES. pose proof (row_bound _ _ _ _ B Hy). destruct (Nat.even y); lia.
Qed.

(** * C13 *)

(** The result is [Ok] exactly when the table says so and the source's chroma
    is where the reader looks for it; it is an error exactly when the table
    says so. *)
Theorem C13_exact : forall lm b m src dst,
  (forall ps, im_planes src = Ok ps -> wf_planes ps) -> (forall ps, im_planes dst = Ok ps -> wf_planes ps) ->
  (snd (convert lm b m src dst) = Ok tt <->
     convert_result src dst = Ok tt /\
     forall ps, im_planes src = Ok ps -> chroma_inside (im_format src) ps (im_width src) (im_height src)) /\
  (forall e, snd (convert lm b m src dst) = Err e <-> convert_result src dst = Err e).
Proof.
  intros lm b m src dst WS WD. split; [|intros e; apply C13_error; assumption].
  destruct (convert_fails lm b m src dst WS WD) as (F & C).
  assert (D : convert_result src dst = Ok tt \/ convert_result src dst <> Ok tt)
    by (destruct (convert_result src dst) as [[]| | |]; auto; right; discriminate).
  destruct D as [D|D]; [|rewrite (F D); cbn [snd]; tauto].
  destruct (C D) as (_ & sps & dps & RS & RD & _). split.
  - intros OK. split; [exact D|]. intros ps E. destruct RS as (E' & RS). rewrite E in E'. injection E' as ->.
    apply (convert_ok_inside lm b m src sps dst); [split; assumption|exact OK].
  - intros (_ & CI). assert (IP : im_planes src = Ok sps) by apply RS.
    rewrite (convert_as_read lm b m src sps dst RS (CI sps IP)).
    rewrite <- D.
    destruct (as_read_ready src sps RS) as (E1 & E2 & E3).
    assert (BC : image_bounds_check (as_read src sps) = Ok tt).
    { eapply image_bounds_check_complete; eassumption. }
    assert (BC' : image_bounds_check src = Ok tt).
    { destruct RS as (X1 & X2 & X3). eapply image_bounds_check_complete; eassumption. }
    assert (EQ : convert_result (as_read src sps) dst = convert_result src dst).
    { unfold convert_result. rewrite BC, BC'. reflexivity. }
    rewrite <- EQ. apply convert_result_ok; [|exact WD].
    intros ps E. rewrite E1 in E. injection E as <-. split; [exact E2|apply (as_read_strides src sps RS)].
Qed.
Print Assumptions C13_exact.

(** A 4:4:4 source whose planes have different strides: the chroma of the
    second one is inside, the chroma of the first one is not. *)
Example C13_exact_example :
  (convert_result (bad444_image 3 2) ex_dst_rgb = Ok tt /\ ~ chroma_inside I444 (bad444 3 2) 2 2) /\
  (convert_result slack444_image ex_dst_rgb = Ok tt /\ chroma_inside I444 slack444 2 2 /\ ~ strides_444 I444 slack444).
Proof.
  split; split; [vm_compute; reflexivity| |vm_compute; reflexivity|split].
  - intros H. specialize (H eq_refl ltac:(lia) 1 _ _ 1 (or_introl eq_refl) eq_refl eq_refl ltac:(lia)). cbn in H. lia.
  - intros _ _ p luma pl y P N0 N Hy. cbn in N0. injection N0 as <-.
    destruct P as [-> | ->]; cbn in N; injection N as <-; destruct y as [|[|y]]; cbn; lia.
  - intros H. specialize (H eq_refl 0 1 _ _ ltac:(lia) ltac:(lia) eq_refl eq_refl). cbn in H. lia.
Qed.

(** * C15 *)

(** For images accepted by bounds_check: convert returns [Ok] or an error -
    no panic, no load outside of a plane - exactly when the table prescribes an
    error or the chroma of the source is inside; and every store, also those
    before a panic, lies inside a plane of the destination. *)
Theorem C15_exact : forall lm b m src sps dst dps,
  valid_image src sps -> valid_image dst dps ->
  ((snd (convert lm b m src dst) = Ok tt \/ exists e, snd (convert lm b m src dst) = Err e) <->
     (exists e, convert_result src dst = Err e) \/ chroma_inside (im_format src) sps (im_width src) (im_height src)) /\
  Forall (store_inside dps) (fst (convert lm b m src dst)).
Proof.
  intros lm b m src sps dst dps VS VD.
  assert (WS : forall ps, im_planes src = Ok ps -> wf_planes ps).
  { intros ps E. destruct VS as (E' & W & _). rewrite E in E'. injection E' as ->. auto. }
  assert (WD : forall ps, im_planes dst = Ok ps -> wf_planes ps).
  { intros ps E. destruct VD as (E' & W & _). rewrite E in E'. injection E' as ->. auto. }
  pose proof (C13_exact lm b m src dst WS WD) as (XO & XE).
  assert (OE : convert_result src dst = Ok tt \/ exists e, convert_result src dst = Err e).
  { unfold convert_result. destruct (negb _); [eauto|]. destruct (_ || _); [eauto|].
    destruct VS as (_ & _ & ->). destruct VD as (_ & _ & ->). cbn [checked]. destruct (_ && _); eauto. }
  split.
  - split.
    + intros [O|[e X]]; [|left; exists e; apply XE, X]. right. apply XO; [exact O|apply VS].
    + intros [[e X]|CI]; [right; exists e; apply XE, X|]. destruct OE as [O|[e X]]; [|right; exists e; apply XE, X].
      left. apply XO. split; [exact O|]. intros ps E. destruct VS as (E' & _). rewrite E in E'. injection E' as ->. exact CI.
  - pose proof (valid_ready _ _ VS) as RS. destruct (convert_prefix lm b m src sps dst RS) as [k K].
    assert (V' : valid_image (as_read src sps) (as_read_planes (im_format src) sps (im_height src))).
    { destruct (as_read_ready src sps RS) as (E1 & E2 & E3). split; [exact E1|split; [exact E2|]].
      eapply image_bounds_check_complete; eassumption. }
    destruct (C15_memory_safe_partial lm b (as_read_mem (im_format src) sps m) _ _ dst dps V' VD (as_read_strides src sps RS)) as [_ I].
    rewrite K in I. apply Forall_app in I. apply I.
Qed.
Print Assumptions C15_exact.

(** Both outcomes occur with unequal strides *)
Example C15_exact_example :
  valid_image slack444_image slack444 /\ valid_image ex_dst_rgb [(Slice 3 0 12, 6)] /\
  snd (convert ex_lm AVX2 ex_mem slack444_image ex_dst_rgb) = Ok tt /\
  snd (convert ex_lm AVX2 ex_mem (bad444_image 3 2) ex_dst_rgb) = UB.
Proof. split; [|split]; [apply C18_refuted|apply C18_refuted|vm_compute; auto]. Qed.

(** * C16 *)

(** A byte that is not part of a sample of the destination is not stored to by
    any convert: not by one that succeeds, not by one that fails, and not
    before a panic. *)
Theorem C16_frame_all : forall lm b m src sps dst dps,
  valid_image src sps -> valid_image dst dps -> planes_disjoint dps ->
  forall buf i, ~ sample_byte (im_format dst) dps (im_width dst) (im_height dst) buf i ->
    times (fst (convert lm b m src dst)) buf i = 0 /\ apply_all m (fst (convert lm b m src dst)) buf i = m buf i.
Proof.
  intros lm b m src sps dst dps VS VD PD buf i NS.
  assert (T : times (fst (convert lm b m src dst)) buf i = 0); [|split; [exact T|apply apply_untouched, T]].
  pose proof (valid_ready _ _ VS) as RS. pose proof (valid_ready _ _ VD) as RD.
  destruct (convert_prefix lm b m src sps dst RS) as [k K].
  destruct (as_read_ready src sps RS) as (E1 & E2 & E3).
  assert (WS : forall ps, im_planes (as_read src sps) = Ok ps -> wf_planes ps /\ strides_444 (im_format (as_read src sps)) ps).
  { intros ps E. rewrite E1 in E. injection E as <-. split; [exact E2|apply (as_read_strides src sps RS)]. }
  assert (WD : forall ps, im_planes dst = Ok ps -> wf_planes ps).
  { intros ps E. destruct VD as (E' & W & _). rewrite E in E'. injection E' as ->. auto. }
  destruct (convert_result_ok lm b (as_read_mem (im_format src) sps m) (as_read src sps) dst WS WD) as (R & F & C).
  assert (Z : times (fst (convert lm b (as_read_mem (im_format src) sps m) (as_read src sps) dst)) buf i = 0).
  { destruct (convert_result (as_read src sps) dst) as [[]| | |] eqn:CR; try (rewrite F by discriminate; reflexivity).
    destruct (C eq_refl) as (sps' & dps' & CV).
    assert (dps' = dps) as ->.
    { destruct (cv_dst _ _ _ _ CV) as (X1 & _). destruct VD as (X2 & _). rewrite X2 in X1. injection X1 as ->. reflexivity. }
    destruct (convert_effect lm b (as_read_mem (im_format src) sps m) _ _ _ _ CV PD) as (evs & E & _ & O & _). rewrite E. apply O, NS. }
  unfold times in *. rewrite K, filter_app, app_length in Z. lia.
Qed.
Print Assumptions C16_frame_all.

(** * C17 *)

Lemma ok_as_read : forall lm b m src sps dst dps, valid_image src sps -> valid_image dst dps -> snd (convert lm b m src dst) = Ok tt ->
  convert lm b m src dst = convert lm b (as_read_mem (im_format src) sps m) (as_read src sps) dst /\
  valid_image (as_read src sps) (as_read_planes (im_format src) sps (im_height src)) /\
  strides_444 (im_format (as_read src sps)) (as_read_planes (im_format src) sps (im_height src)).
Proof.
  intros lm b m src sps dst dps VS VD OK. pose proof (valid_ready _ _ VS) as RS.
  split; [apply convert_as_read; [exact RS|eapply convert_ok_inside; eassumption]|].
  destruct (as_read_ready src sps RS) as (E1 & E2 & E3). split; [|apply (as_read_strides src sps RS)].
  split; [exact E1|split; [exact E2|]]. eapply image_bounds_check_complete; eassumption.
Qed.

Theorem C17_stores_once_all : forall lm b m src sps dst dps,
  valid_image src sps -> valid_image dst dps -> planes_disjoint dps -> snd (convert lm b m src dst) = Ok tt ->
  forall buf i, sample_byte (im_format dst) dps (im_width dst) (im_height dst) buf i ->
    times (fst (convert lm b m src dst)) buf i = 1.
Proof.
  intros lm b m src sps dst dps VS VD PD OK buf i SB. destruct (ok_as_read lm b m src sps dst dps VS VD OK) as (E & V' & ST).
  rewrite E in OK |- *. eapply C17_stores_once; eassumption.
Qed.
Print Assumptions C17_stores_once_all.

(** * C18 *)

Theorem as_read_component : forall src (sps : list (slice * nat)) m c x y, valid_image src sps -> x < im_width src ->
  component (as_read_mem (im_format src) sps m) (im_format src) (as_read_planes (im_format src) sps (im_height src)) c x y
    = read_component m (im_format src) sps c x y.
Proof.
  intros src sps m c x y V Hx. unfold read_component. destruct (sampling_of (im_format src)) eqn:K.
  1, 2, 4: unfold as_read_mem, as_read_planes; rewrite K; reflexivity.
  pose proof (valid_ready _ _ V) as R. destruct (ready_444 src sps R K) as (py & pu & pv & O & N0 & N1 & N2 & (A & _) & _).
  unfold component, as_read_planes. rewrite K, N0. cbn [map].
  destruct (layout (im_format src) c x y) as [[[p r] col]|] eqn:L; [|reflexivity].
  assert (LR : r = y /\ col = x /\ p < 3).
  { destruct (im_format src), c; try discriminate K; try discriminate L; injection L as <- <- <-; lia. }
  destruct LR as (-> & -> & Hp).
  assert (NP : exists pl, nth_error sps p = Some pl /\ nth_error [(Slice 0 0 (snd py * im_height src), snd py);
     (Slice 1 0 (snd py * im_height src), snd py); (Slice 2 0 (snd py * im_height src), snd py)] p = Some (Slice p 0 (snd py * im_height src), snd py)).
  { destruct p as [|[|[|p]]]; [exists py|exists pu|exists pv|lia]; auto. }
  destruct NP as (pl & NP & NQ). rewrite NP, NQ. f_equal. unfold sample_at, sample_addr. cbn [fst snd s_buf s_off].
  assert (HC : forall k, k < sample_bytes (im_format src) -> x * sample_bytes (im_format src) + k < snd py).
  { intros k HK. nia. }
  assert (P0 : 0 < sample_bytes (im_format src)) by (destruct (im_format src); cbn; lia).
  assert (X : forall k, k < sample_bytes (im_format src) ->
    as_read_mem (im_format src) sps m p (y * snd py + x * sample_bytes (im_format src) + k)
      = m (s_buf (fst pl)) (s_off (fst pl) + read_row (snd py) (snd pl) y + (x * sample_bytes (im_format src) + k))).
  { intros k HK. rewrite <- Nat.add_assoc, (as_read_at _ _ _ _ py pl) by auto. f_equal. lia. }
  cbn [Nat.mul Nat.add]. pose proof (X 0 P0) as X0. rewrite !Nat.add_0_r in X0. rewrite X0.
  destruct (Nat.eqb_spec (sample_bytes (im_format src)) 2) as [E2|E2]; [|reflexivity].
  pose proof (X 1 ltac:(lia)) as X1.
  replace (Datatypes.S (y * snd py + x * sample_bytes (im_format src))) with (y * snd py + x * sample_bytes (im_format src) + 1) by lia.
  rewrite X1. do 3 f_equal. lia.
Qed.
Print Assumptions as_read_component.

(** The specification of the stored samples looks at nothing but the
    components of the source. *)
Theorem expected_from_components : forall L m src sps dst c x y,
  expected_value L m src sps dst c x y = expected_from L src (component m (im_format src) sps) dst c x y.
Proof. reflexivity. Qed.

Lemma target_ext : forall L f color p1 p2 c x y w, w mod 2 = 0 -> x < w ->
  (forall x y, x < w -> p1 x y = p2 x y) -> target L f color p1 c x y = target L f color p2 c x y.
Proof.
  intros L f color p1 p2 c x y w Ew Hx H.
  assert (X0 : 2 * (x / 2) < w /\ 2 * (x / 2) + 1 < w).
  { pose proof (Nat.div_mod x 2 ltac:(lia)). pose proof (Nat.div_mod w 2 ltac:(lia)). pose proof (Nat.mod_upper_bound x 2 ltac:(lia)).
    assert (x / 2 < w / 2) by lia. lia. }
  destruct X0 as [X0 X1]. unfold target. rewrite !(H x) by assumption. rewrite !(H (2 * (x / 2))) by assumption.
  rewrite !(H (2 * (x / 2) + 1)) by assumption. exact eq_refl.
Qed.
Lemma expected_from_ext : forall L src c1 c2 dst c x y w, w mod 2 = 0 -> x < w ->
  (forall c x y, x < w -> c1 c x y = c2 c x y) -> expected_from L src c1 dst c x y = expected_from L src c2 dst c x y.
Proof.
  intros L src c1 c2 dst c x y w Ew Hx H. unfold expected_from. destruct (same_image_kind src dst); [rewrite H by exact Hx; exact eq_refl|].
  apply (target_ext L _ _ _ _ c x y w Ew Hx). clear x y Hx. intros x y Hx. rewrite !(fun c => H c x y Hx). exact eq_refl.
Qed.

(** After a successful convert, every component is the quantised value that is
    prescribed for the samples that have been read.  No condition on strides. *)
Theorem C18_exact_partial : forall lm b m src sps dst dps,
  valid_image src sps -> valid_image dst dps -> planes_disjoint dps -> snd (convert lm b m src dst) = Ok tt ->
  forall c x y, has_comp (im_format dst) c = true -> x < im_width dst -> y < im_height dst ->
  ictcp_chroma420 (im_format dst) (im_color dst) c = false ->            (* missing: see C19_refuted *)
  let cb := column_backend b (im_width dst) x in
  component (apply_all m (fst (convert lm b m src dst))) (im_format dst) dps c x y
    = Some (quantise (quant_of cb) (im_format dst)
        (expected_from (lane_of lm cb) src (read_component m (im_format src) sps) dst c x y)).
Proof.
  intros lm b m src sps dst dps VS VD PD OK c x y HC Hx Hy NI cb.
  destruct (ok_as_read lm b m src sps dst dps VS VD OK) as (E & V' & ST).
  assert (OK' := OK). rewrite E in OK'.
  assert (WS : forall ps, im_planes (as_read src sps) = Ok ps -> wf_planes ps /\ strides_444 (im_format (as_read src sps)) ps).
  { intros ps X. destruct V' as (X' & W & _). rewrite X in X'. injection X' as ->. auto. }
  assert (WD : forall ps, im_planes dst = Ok ps -> wf_planes ps).
  { intros ps X. destruct VD as (X' & W & _). rewrite X in X'. injection X' as ->. auto. }
  destruct (convert_result_ok lm b (as_read_mem (im_format src) sps m) (as_read src sps) dst WS WD) as (R & F & C). rewrite R in OK'.
  destruct (C OK') as (sps' & dps' & CV).
  assert (sps' = as_read_planes (im_format src) sps (im_height src)) as ->.
  { destruct (cv_src _ _ _ _ CV) as (E1 & _). destruct V' as (E2 & _). rewrite E2 in E1. injection E1 as ->. reflexivity. }
  assert (dps' = dps) as ->.
  { destruct (cv_dst _ _ _ _ CV) as (E1 & _). destruct VD as (E2 & _). rewrite E2 in E1. injection E1 as ->. reflexivity. }
  destruct (convert_effect lm b (as_read_mem (im_format src) sps m) _ _ _ _ CV PD) as (evs & EE & _ & _ & V). rewrite E, EE. cbn [fst].
  rewrite (V m c x y HC Hx Hy). fold cb. rewrite code_value_expected by exact NI. do 2 f_equal. rewrite expected_from_components.
  change (expected_from (lane_of lm cb) (as_read src sps)) with (expected_from (lane_of lm cb) src).
  pose proof (cv_width _ _ _ _ CV) as EW. cbn [as_read im_width] in EW.
  apply expected_from_ext with (w := im_width src); [rewrite EW; apply (cv_even_w _ _ _ _ CV)|lia|].
  intros c' x' y' Hx'. apply (as_read_component src sps m); assumption.
Qed.
Print Assumptions C18_exact_partial.

(** For all other sources, and for planes with equal strides, the sample that
    is read is the component itself. *)
Theorem read_component_same : forall m f (ps : list (slice * nat)) c x y, strides_444 f ps ->
  (sampling_of f = S444 -> nth_error ps 0 <> None) -> read_component m f ps c x y = component m f ps c x y.
Proof.
  intros m f ps c x y ST NE. unfold read_component. destruct (sampling_of f) eqn:K; try reflexivity.
  unfold component. destruct (layout f c x y) as [[[p r] col]|] eqn:L; [|reflexivity].
  assert (LR : r = y /\ col = x /\ p < 3).
  { destruct f, c; try discriminate K; try discriminate L; injection L as <- <- <-; lia. }
  destruct LR as (-> & -> & Hp). destruct (nth_error ps 0) as [luma|] eqn:N0; [|destruct (NE eq_refl eq_refl)].
  destruct (nth_error ps p) as [pl|] eqn:N; [|reflexivity]. rewrite (ST K 0 p luma pl ltac:(lia) Hp N0 N).
  unfold sample_at, sample_addr, read_row. cbn [fst snd s_buf s_off]. f_equal.
  assert (E : (if Nat.even y then y * snd pl else y * snd pl) = y * snd pl) by (destruct (Nat.even y); reflexivity). rewrite E.
  replace (s_off (fst pl) + y * snd pl + (0 * 0 + x * sample_bytes f)) with (s_off (fst pl) + (y * snd pl + x * sample_bytes f)) by lia. reflexivity.
Qed.

(** The lower row of the example of C18_refuted, and what is read for it *)
Example C18_exact_example :
  read_component ex_mem I444 slack444 CU 0 1 = Some (ex_mem 1 3) /\ component ex_mem I444 slack444 CU 0 1 = Some (ex_mem 1 2) /\
  component (apply_all ex_mem (fst (convert ex_lm AVX2 ex_mem slack444_image ex_dst_rgb))) RGB [(Slice 3 0 12, 6)] CG 0 1
    = Some (quantise (quant_of Scalar) RGB
        (expected_from (lane_of ex_lm Scalar) slack444_image (read_component ex_mem I444 slack444) ex_dst_rgb CG 0 1)).
Proof. vm_compute. auto. Qed.
