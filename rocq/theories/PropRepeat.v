(** C86: conversions that are repeated, that replace each other, and that do not
    touch each other. *)

From Coq Require Import List ZArith Bool Arith Lia Permutation.
From Verif Require Import Base MultiThread SpecThreads BandProofs ExecProofs Types Planes ImageM F32 Vector Simd SpecVector SpecGeom GeomProofs SpecColor SpecConvert SpecRun SpecExec Formats Visit Convert
  VisitProofs ConvertProofs PropConvert PropStrides PropThreads PropFidelity Copy SpecCopy CopyProofs PropCopy.
Import ListNotations.

(** * Specification *)

(** The images [a] and [b] have no sample in common.  They can be windows of one image. *)
Definition separate (a : image) (aps : list (slice * nat)) (b : image) (bps : list (slice * nat)) : Prop :=
  forall buf i, sample_byte (im_format a) aps (im_width a) (im_height a) buf i -> ~ sample_byte (im_format b) bps (im_width b) (im_height b) buf i.

(** A conversion to be made, with the planes of its images *)
Record job := Job { j_lm : libm; j_backend : backend; j_src : image; j_sps : list (slice * nat); j_dst : image; j_dps : list (slice * nat) }.

Definition job_ok (j : job) : Prop :=
  valid_image (j_src j) (j_sps j) /\ valid_image (j_dst j) (j_dps j) /\ strides_444 (im_format (j_src j)) (j_sps j) /\ planes_disjoint (j_dps j).

(** No job writes a sample that a job reads or that another job writes *)
Definition jobs_separate (js : list job) : Prop :=
  (forall j k, In j js -> In k js -> separate (j_src j) (j_sps j) (j_dst k) (j_dps k)) /\
  (forall x y j k, x <> y -> nth_error js x = Some j -> nth_error js y = Some k -> separate (j_dst j) (j_dps j) (j_dst k) (j_dps k)).

(** What a job stores, from the memory it reads *)
Definition job_stores (j : job) (m : mem) : list wev := fst (convert (j_lm j) (j_backend j) m (j_src j) (j_dst j)).

(** * Lists of stores *)

(** What a list of stores makes of a byte does not depend on the memory, but for
    bytes it does not touch *)
Lemma stores_decide : forall evs buf i, exists o, forall m, apply_all m evs buf i = match o with Some z => z | None => m buf i end.
Proof.
  induction evs as [|e evs IH]; intros buf i; [exists None; reflexivity|].
  destruct (IH buf i) as ([z|] & H).
  - exists (Some z). intros m. cbn [apply_all fold_left]. exact (H (apply_wev m e)).
  - destruct ((buf =? w_buf e) && (w_off e <=? i) && (i <? w_off e + length (w_bytes e))) eqn:C.
    + exists (Some (nth (i - w_off e) (w_bytes e) 0%Z)). intros m. cbn [apply_all fold_left]. transitivity (apply_wev m e buf i); [exact (H (apply_wev m e))|].
      unfold apply_wev. rewrite C. reflexivity.
    + exists None. intros m. cbn [apply_all fold_left]. transitivity (apply_wev m e buf i); [exact (H (apply_wev m e))|].
      unfold apply_wev. rewrite C. reflexivity.
Qed.

Lemma stores_again : forall evs m buf i, apply_all (apply_all m evs) evs buf i = apply_all m evs buf i.
Proof. intros evs m buf i. destruct (stores_decide evs buf i) as ([z|] & H); rewrite !H; reflexivity. Qed.

Lemma stores_local : forall evs m m' buf i, m buf i = m' buf i -> apply_all m evs buf i = apply_all m' evs buf i.
Proof. intros evs m m' buf i E. destruct (stores_decide evs buf i) as ([z|] & H); rewrite !H; [reflexivity|exact E]. Qed.

Lemma stores_cover : forall evs m m' buf i, times evs buf i <> 0 -> apply_all m evs buf i = apply_all m' evs buf i.
Proof.
  induction evs as [|e evs IH]; intros m m' buf i T; [destruct (T eq_refl)|]. cbn [apply_all fold_left].
  change (apply_all (apply_wev m e) evs buf i = apply_all (apply_wev m' e) evs buf i).
  destruct (Nat.eq_dec (times evs buf i) 0) as [Z|Z]; [|apply IH, Z].
  apply stores_local. unfold times in T, Z. cbn [filter] in T. destruct (covers buf i e) eqn:C; [|contradiction].
  rewrite !apply_wev_covers, C. reflexivity.
Qed.

(** * C86 *)

(** A conversion that does not write to its source leaves the samples of other
    images as they are *)
Lemma samples_kept : forall lm b m src sps dst dps im ps,
  valid_image src sps -> valid_image dst dps -> planes_disjoint dps -> separate im ps dst dps ->
  same_samples (im_format im) ps (im_width im) (im_height im) m (after_convert lm b m src dst).
Proof.
  intros lm b m src sps dst dps im ps VS VD PD SEP buf i SB. symmetry. apply (C16_frame_all lm b m src sps dst dps VS VD PD). apply SEP, SB.
Qed.

Lemma valid_src : forall src sps, valid_image src sps -> strides_444 (im_format src) sps ->
  forall ps, im_planes src = Ok ps -> wf_planes ps /\ strides_444 (im_format src) ps.
Proof. intros src sps VS ST ps E. destruct VS as (E' & W & _). rewrite E in E'. injection E' as ->. auto. Qed.

Lemma valid_dst : forall dst dps, valid_image dst dps -> forall ps, im_planes dst = Ok ps -> wf_planes ps.
Proof. intros dst dps VD ps E. destruct VD as (E' & W & _). rewrite E in E'. injection E' as ->. auto. Qed.

(** Repeating a conversion: same outcome, same stores, and the memory stays *)
Theorem C86_again : forall lm b m src sps dst dps,
  valid_image src sps -> valid_image dst dps -> strides_444 (im_format src) sps -> planes_disjoint dps -> separate src sps dst dps ->
  let m' := after_convert lm b m src dst in
  convert lm b m' src dst = convert lm b m src dst /\ same_memory (after_convert lm b m' src dst) m'.
Proof.
  intros lm b m src sps dst dps VS VD ST PD SEP m'.
  assert (E : convert lm b m' src dst = convert lm b m src dst).
  { symmetry. apply C47_depends_on_source_samples; [exact (valid_src src sps VS ST)|exact (valid_dst dst dps VD)|].
    intros ps EP. assert (ps = sps) as -> by (destruct VS as (E' & _); rewrite EP in E'; injection E' as ->; reflexivity).
    exact (samples_kept lm b m src sps dst dps src sps VS VD PD SEP). }
  split; [exact E|]. intros buf i. unfold after_convert at 1. rewrite E. apply stores_again.
Qed.
Print Assumptions C86_again.

(** Of two pictures converted to the same image the second remains, and nothing of
    the first *)
Theorem C86_replaced : forall lm1 b1 lm2 b2 m src1 sps1 src2 sps2 dst dps,
  valid_image src1 sps1 -> valid_image src2 sps2 -> valid_image dst dps -> strides_444 (im_format src2) sps2 -> planes_disjoint dps ->
  separate src2 sps2 dst dps ->
  snd (convert lm2 b2 m src2 dst) = Ok tt ->
  same_memory (after_convert lm2 b2 (after_convert lm1 b1 m src1 dst) src2 dst) (after_convert lm2 b2 m src2 dst).
Proof.
  intros lm1 b1 lm2 b2 m src1 sps1 src2 sps2 dst dps VS1 VS2 VD ST2 PD SEP OK buf i.
  assert (E : convert lm2 b2 (after_convert lm1 b1 m src1 dst) src2 dst = convert lm2 b2 m src2 dst).
  { symmetry. apply C47_depends_on_source_samples; [exact (valid_src src2 sps2 VS2 ST2)|exact (valid_dst dst dps VD)|].
    intros ps EP. assert (ps = sps2) as -> by (destruct VS2 as (E' & _); rewrite EP in E'; injection E' as ->; reflexivity).
    exact (samples_kept lm1 b1 m src1 sps1 dst dps src2 sps2 VS1 VD PD SEP). }
  unfold after_convert at 1. rewrite E. unfold after_convert at 2.
  destruct (Nat.eq_dec (times (fst (convert lm2 b2 m src2 dst)) buf i) 0) as [Z|Z]; [|apply stores_cover, Z].
  apply stores_local. apply (C16_frame_all lm1 b1 m src1 sps1 dst dps VS1 VD PD).
  intros SB. rewrite (C17_stores_once lm2 b2 m src2 sps2 dst dps VS2 VD ST2 PD OK buf i SB) in Z. discriminate Z.
Qed.
Print Assumptions C86_replaced.

(** Conversions that write neither what the other reads nor what it writes can be
    done in either order *)
Theorem C86_commute : forall lm1 b1 lm2 b2 m src1 sps1 dst1 dps1 src2 sps2 dst2 dps2,
  valid_image src1 sps1 -> valid_image dst1 dps1 -> strides_444 (im_format src1) sps1 -> planes_disjoint dps1 ->
  valid_image src2 sps2 -> valid_image dst2 dps2 -> strides_444 (im_format src2) sps2 -> planes_disjoint dps2 ->
  separate src1 sps1 dst2 dps2 -> separate src2 sps2 dst1 dps1 -> separate dst1 dps1 dst2 dps2 ->
  let m1 := after_convert lm1 b1 m src1 dst1 in let m2 := after_convert lm2 b2 m src2 dst2 in
  snd (convert lm2 b2 m1 src2 dst2) = snd (convert lm2 b2 m src2 dst2) /\ snd (convert lm1 b1 m2 src1 dst1) = snd (convert lm1 b1 m src1 dst1) /\
  same_memory (after_convert lm2 b2 m1 src2 dst2) (after_convert lm1 b1 m2 src1 dst1).
Proof.
  intros lm1 b1 lm2 b2 m src1 sps1 dst1 dps1 src2 sps2 dst2 dps2 VS1 VD1 ST1 PD1 VS2 VD2 ST2 PD2 S12 S21 SD m1 m2.
  assert (E2 : convert lm2 b2 m1 src2 dst2 = convert lm2 b2 m src2 dst2).
  { symmetry. apply C47_depends_on_source_samples; [exact (valid_src src2 sps2 VS2 ST2)|exact (valid_dst dst2 dps2 VD2)|].
    intros ps EP. assert (ps = sps2) as -> by (destruct VS2 as (E' & _); rewrite EP in E'; injection E' as ->; reflexivity).
    exact (samples_kept lm1 b1 m src1 sps1 dst1 dps1 src2 sps2 VS1 VD1 PD1 S21). }
  assert (E1 : convert lm1 b1 m2 src1 dst1 = convert lm1 b1 m src1 dst1).
  { symmetry. apply C47_depends_on_source_samples; [exact (valid_src src1 sps1 VS1 ST1)|exact (valid_dst dst1 dps1 VD1)|].
    intros ps EP. assert (ps = sps1) as -> by (destruct VS1 as (E' & _); rewrite EP in E'; injection E' as ->; reflexivity).
    exact (samples_kept lm2 b2 m src2 sps2 dst2 dps2 src1 sps1 VS2 VD2 PD2 S12). }
  split; [rewrite E2; reflexivity|]. split; [rewrite E1; reflexivity|]. intros buf i.
  unfold after_convert at 1 2. rewrite E2, E1. unfold m1, m2, after_convert.
  set (e1 := fst (convert lm1 b1 m src1 dst1)). set (e2 := fst (convert lm2 b2 m src2 dst2)).
  destruct (Nat.eq_dec (times e1 buf i) 0) as [Z1|Z1].
  - rewrite (apply_untouched e1 (apply_all m e2) buf i Z1). apply stores_local, apply_untouched, Z1.
  - destruct (Nat.eq_dec (times e2 buf i) 0) as [Z2|Z2].
    + rewrite (apply_untouched e2 (apply_all m e1) buf i Z2). symmetry. apply stores_local, apply_untouched, Z2.
    + exfalso. apply Z1. apply (C16_frame_all lm1 b1 m src1 sps1 dst1 dps1 VS1 VD1 PD1). intros SB1.
      apply Z2. apply (C16_frame_all lm2 b2 m src2 sps2 dst2 dps2 VS2 VD2 PD2). apply SD, SB1.
Qed.
Print Assumptions C86_commute.

(** Converting with several threads gives the same, and repeating it changes nothing *)
Theorem C86_multi_thread_again : forall lm b threads threads' m src sps dst dps o o',
  valid_image src sps -> valid_image dst dps -> strides_444 (im_format src) sps -> planes_disjoint dps -> separate src sps dst dps ->
  0 < im_width src -> 0 < im_height src -> 0 < threads -> 0 < threads' ->
  convert_multi_thread lm b threads m src dst o ->
  convert_multi_thread lm b threads' (apply_all m (fst o)) src dst o' ->
  snd o' = snd o /\ same_memory (apply_all (apply_all m (fst o)) (fst o')) (apply_all m (fst o)).
Proof.
  intros lm b threads threads' m src sps dst dps o o' VS VD ST PD SEP W0 H0 T0 T0' R R'.
  destruct (C39_multi_thread_equals_convert lm b threads m src sps dst dps o VS VD ST PD W0 H0 T0 R) as (E & M).
  destruct (C39_multi_thread_equals_convert lm b threads' _ src sps dst dps o' VS VD ST PD W0 H0 T0' R') as (E' & M').
  destruct (C86_again lm b m src sps dst dps VS VD ST PD SEP) as (A & B).
  assert (S : convert lm b (apply_all m (fst o)) src dst = convert lm b m src dst).
  { rewrite <- A. apply C47_depends_on_source_samples; [exact (valid_src src sps VS ST)|exact (valid_dst dst dps VD)|]. intros ps _ buf i _. apply M. }
  split; [rewrite E', E, S; reflexivity|]. intros buf i. rewrite (M' buf i), S.
  rewrite (stores_local _ _ (after_convert lm b m src dst) buf i (M buf i)). rewrite (M buf i). apply stores_again.
Qed.
Print Assumptions C86_multi_thread_again.

(** A job stores only to samples of its destination, and computes from samples of its source *)
Lemma job_inside : forall j m buf i, job_ok j ->
  ~ sample_byte (im_format (j_dst j)) (j_dps j) (im_width (j_dst j)) (im_height (j_dst j)) buf i -> filter (covers buf i) (job_stores j m) = [].
Proof.
  intros j m buf i (VS & VD & _ & PD) S.
  destruct (C16_frame_all (j_lm j) (j_backend j) m (j_src j) (j_sps j) (j_dst j) (j_dps j) VS VD PD buf i S) as (T & _).
  apply length_zero_iff_nil. exact T.
Qed.

Lemma job_depends : forall j m m', job_ok j -> same_samples (im_format (j_src j)) (j_sps j) (im_width (j_src j)) (im_height (j_src j)) m m' ->
  convert (j_lm j) (j_backend j) m (j_src j) (j_dst j) = convert (j_lm j) (j_backend j) m' (j_src j) (j_dst j).
Proof.
  intros j m m' (VS & VD & ST & _) S. apply C47_depends_on_source_samples; [exact (valid_src _ _ VS ST)|exact (valid_dst _ _ VD)|].
  intros ps EP. destruct VS as (E' & _). rewrite EP in E'. injection E' as ->. exact S.
Qed.

(** Jobs that run at the same time, their loads and stores taking turns in any way:
    each destination is as if its job had run alone, and everything else stays *)
Theorem C86_at_the_same_time : forall js m evs ks,
  (forall j, In j js -> job_ok j) -> jobs_separate js ->
  let threads := map job_stores js in
  live threads m (map (fun _ => 0) threads) evs ks -> finished threads (apply_all m evs) ks ->
  (forall j, In j js -> forall buf i, sample_byte (im_format (j_dst j)) (j_dps j) (im_width (j_dst j)) (im_height (j_dst j)) buf i ->
     apply_all m evs buf i = after_convert (j_lm j) (j_backend j) m (j_src j) (j_dst j) buf i) /\
  (forall buf i, (forall j, In j js -> ~ sample_byte (im_format (j_dst j)) (j_dps j) (im_width (j_dst j)) (im_height (j_dst j)) buf i) ->
     apply_all m evs buf i = m buf i).
Proof.
  intros js m evs ks OK (SR & SW) threads L F.
  set (Inv := fun m' : mem => forall j, In j js -> same_samples (im_format (j_src j)) (j_sps j) (im_width (j_src j)) (im_height (j_src j)) m m').
  set (ts := map (fun j => job_stores j m) js).
  assert (NT : forall k t, nth_error ts k = Some t -> exists j, nth_error js k = Some j /\ t = job_stores j m).
  { intros k t N. unfold ts in N. rewrite nth_error_map in N. destruct (nth_error js k) as [j|]; [|discriminate N]. injection N as <-. eauto. }
  assert (IL : interleaving ts evs).
  { apply (live_finished threads Inv ts m evs ks); [unfold ts, threads; rewrite !map_length; reflexivity| | | |exact L|exact F].
    - intros k c t m' NC N I. destruct (NT k t N) as (j & NJ & ->). unfold threads in NC. rewrite nth_error_map, NJ in NC. injection NC as <-.
      unfold job_stores. f_equal. symmetry. apply nth_error_In in NJ. apply job_depends; [apply OK, NJ|apply I, NJ].
    - intros m' e t I IT IE j J buf i SB. rewrite (I j J buf i SB). rewrite apply_wev_covers.
      apply In_nth_error in IT as (k & N). destruct (NT k t N) as (j' & NJ & ->). apply nth_error_In in NJ.
      destruct (covers buf i e) eqn:C; [exfalso|reflexivity].
      assert (I' : In e (filter (covers buf i) (job_stores j' m))) by (apply filter_In; auto).
      rewrite (job_inside j' m buf i (OK j' NJ) (SR j j' J NJ buf i SB)) in I'. exact I'.
    - intros j J buf i _. reflexivity. }
  split.
  - intros j J buf i SB. apply In_nth_error in J as (k & N). rewrite apply_filter. unfold after_convert. rewrite (apply_filter _ _ (fst _)). f_equal.
    rewrite (interleaving_filter (covers buf i) k ts evs IL) with (tk := job_stores j m); [reflexivity| |unfold ts; rewrite nth_error_map, N; reflexivity].
    intros k' t NE N'. destruct (NT k' t N') as (j' & NJ & ->).
    apply job_inside; [apply OK; eapply nth_error_In; exact NJ|]. exact (SW k k' j j' (fun E => NE (eq_sym E)) N NJ buf i SB).
  - intros buf i S. rewrite apply_filter, (interleaving_filter_none (covers buf i) ts evs IL); [reflexivity|].
    intros k t N. destruct (NT k t N) as (j & NJ & ->). apply nth_error_In in NJ. apply job_inside; [apply OK, NJ|apply S, NJ].
Qed.
Print Assumptions C86_at_the_same_time.

(** Jobs made one after the other *)
Definition run_jobs (js : list job) (m : mem) : mem := fold_left (fun m j => apply_all m (job_stores j m)) js m.

Lemma run_jobs_ext : forall js m m', (forall j, In j js -> job_ok j) -> same_memory m m' -> same_memory (run_jobs js m) (run_jobs js m').
Proof.
  induction js as [|j js IH]; intros m m' OK E; [exact E|]. cbn [run_jobs fold_left]. apply IH; [intros k I; apply OK; right; exact I|].
  intros buf i. unfold job_stores. rewrite (job_depends j m m' (OK j (or_introl eq_refl))) by (intros bu k _; apply E).
  apply stores_local, E.
Qed.

Lemma jobs_permuted : forall js js', Permutation js js' -> jobs_separate js -> jobs_separate js'.
Proof.
  intros js js' P (R & W). split.
  - intros j k IJ IK. apply R; eapply Permutation_in; try eassumption; apply Permutation_sym, P.
  - apply Permutation_nth_error in P as (_ & f & F & N). intros x y j k NE NX NY. rewrite N in NX, NY.
    apply (W (f x) (f y) j k); [intros E; apply NE, F, E|exact NX|exact NY].
Qed.

Lemma jobs_tail : forall j js, jobs_separate (j :: js) -> jobs_separate js.
Proof.
  intros j js (R & W). split; [intros k l I I'; apply R; right; assumption|].
  intros x y k l NE NX NY. apply (W (S x) (S y) k l); [lia|exact NX|exact NY].
Qed.

(** The order in which separate conversions are made does not matter, however many there are *)
Theorem C86_any_order : forall js js' m,
  (forall j, In j js -> job_ok j) -> jobs_separate js -> Permutation js js' -> same_memory (run_jobs js m) (run_jobs js' m).
Proof.
  intros js js' m OK SEP P. revert m OK SEP. induction P as [|j js js' P IH|j k js|a b c P IH P' IH']; intros m OK SEP.
  - intros buf i. reflexivity.
  - cbn [run_jobs fold_left]. apply IH; [intros l I; apply OK; right; exact I|exact (jobs_tail _ _ SEP)].
  - cbn [run_jobs fold_left]. apply run_jobs_ext; [intros l I; apply OK; right; right; exact I|].
    destruct (OK k (or_introl eq_refl)) as (VS1 & VD1 & ST1 & PD1). destruct (OK j (or_intror (or_introl eq_refl))) as (VS2 & VD2 & ST2 & PD2).
    destruct SEP as (R & W).
    destruct (C86_commute (j_lm k) (j_backend k) (j_lm j) (j_backend j) m _ _ _ _ _ _ _ _ VS1 VD1 ST1 PD1 VS2 VD2 ST2 PD2) as (_ & _ & M).
    + apply R; cbn; auto.
    + apply R; cbn; auto.
    + apply (W 0 1); [discriminate|reflexivity|reflexivity].
    + exact M.
  - intros buf i. rewrite (IH m OK SEP buf i). apply IH'.
    + intros j I. apply OK. eapply Permutation_in; [apply Permutation_sym, P|exact I].
    + exact (jobs_permuted _ _ P SEP).
Qed.
Print Assumptions C86_any_order.

(** Two windows of one RGB picture of 8 columns in buffer 2: its left and its right half *)
Definition left_planes : list (slice * nat) := [(Slice 2 0 48, 24)].
Definition left_half : image := ex_image RGB 4 2 ex_rgb left_planes.
Definition right_planes : list (slice * nat) := [(Slice 2 12 48, 24)].
Definition right_half : image := ex_image RGB 4 2 ex_rgb right_planes.

(** The picture of [ex_src] goes to the I420 image, and to the two halves; the halves
    share rows but no sample.  From the same source, once with the red and blue of
    another picture, other bytes result. *)
Definition ex_other : image := ex_image BGR 4 2 ex_rgb ex_src_planes.

Lemma halves_separate : separate left_half left_planes right_half right_planes.
Proof.
  intros buf i (p & pl & r & c & Hp & N & Hr & Hc & E & Hi) (p' & pl' & r' & c' & Hp' & N' & Hr' & Hc' & E' & Hi').
  cbn in Hp, Hp'. destruct p, p'; try lia. cbn in N, N'. injection N as <-. injection N' as <-. cbn in Hr, Hc, Hi, Hr', Hc', Hi'.
  destruct r as [|[|r]], r' as [|[|r']]; lia.
Qed.

Lemma source_separate : forall f1 c1 b1 b2 d2 w h, s_buf (fst b1) <> 2 -> b2 = (Slice 2 d2 48, 24) -> n_planes f1 = 1 ->
  separate (ex_image f1 w h c1 [b1]) [b1] (ex_image RGB 4 2 ex_rgb [b2]) [b2].
Proof.
  intros f1 c1 b1 b2 d2 w h B -> N1 buf i (p & pl & r & c & Hp & N & Hr & Hc & E & Hi) (p' & pl' & r' & c' & Hp' & N' & Hr' & Hc' & E' & Hi').
  cbn [ex_image im_format] in Hp, Hp'. rewrite N1 in Hp. cbn in Hp'. destruct p, p'; try lia. cbn in N, N'. injection N as <-. injection N' as <-.
  cbn in E'. congruence.
Qed.

Example C86_example :
  valid_image ex_src ex_src_planes /\ valid_image ex_other ex_src_planes /\ valid_image left_half left_planes /\ valid_image right_half right_planes /\
  strides_444 RGB ex_src_planes /\ strides_444 BGR ex_src_planes /\ planes_disjoint left_planes /\ planes_disjoint right_planes /\
  separate ex_src ex_src_planes left_half left_planes /\ separate ex_src ex_src_planes right_half right_planes /\
  separate ex_other ex_src_planes left_half left_planes /\ separate left_half left_planes right_half right_planes /\
  let to src dst m := after_convert ex_lm Scalar m src dst in
  snd (convert ex_lm Scalar ex_mem ex_src left_half) = Ok tt /\
  to ex_src left_half ex_mem 2 24 <> ex_mem 2 24 /\ to ex_src left_half (to ex_src left_half ex_mem) 2 24 = to ex_src left_half ex_mem 2 24 /\
  to ex_src left_half ex_mem 2 24 <> to ex_other left_half ex_mem 2 24 /\
  to ex_src left_half (to ex_other left_half ex_mem) 2 24 = to ex_src left_half ex_mem 2 24 /\
  to ex_src left_half (to ex_other right_half ex_mem) 2 36 = to ex_other right_half (to ex_src left_half ex_mem) 2 36 /\
  to ex_src left_half (to ex_other right_half ex_mem) 2 36 <> ex_mem 2 36.
Proof.
  assert (V : forall f c ps, In f [RGB; BGR] -> In ps [ex_src_planes; left_planes; right_planes] -> valid_image (ex_image f 4 2 c ps) ps).
  { intros f c ps [<-|[<-|[]]] [<-|[<-|[<-|[]]]]; (split; [reflexivity|split; [apply Forall_cons; [cbn; unfold usize; cbn; lia|apply Forall_nil]|reflexivity]]). }
  assert (D : forall p, planes_disjoint [p]).
  { intros p [|i] [|j] a c H Ha Hc; [destruct (H eq_refl)|destruct j; discriminate Hc|destruct i; discriminate Ha|destruct i; discriminate Ha]. }
  split; [apply V; cbn; tauto|]. split; [apply V; cbn; tauto|]. split; [apply V; cbn; tauto|]. split; [apply V; cbn; tauto|].
  split; [intros H; discriminate H|]. split; [intros H; discriminate H|]. split; [apply D|]. split; [apply D|].
  split; [eapply source_separate; cbn; [discriminate|reflexivity|reflexivity]|].
  split; [eapply source_separate; cbn; [discriminate|reflexivity|reflexivity]|].
  split; [eapply source_separate; cbn; [discriminate|reflexivity|reflexivity]|]. split; [exact halves_separate|].
  cbv zeta. repeat split; vm_compute; try reflexivity; discriminate.
Qed.

(** Two jobs at the same time: the picture of [ex_src] to the left half, that of
    [ex_other] to the right half.  The run below takes a store of each in turn. *)
Definition ex_jobs : list job :=
  [Job ex_lm Scalar ex_src ex_src_planes left_half left_planes; Job ex_lm AVX2 ex_other ex_src_planes right_half right_planes].

Example C86_jobs_example :
  (forall j, In j ex_jobs -> job_ok j) /\ jobs_separate ex_jobs /\
  let threads := map job_stores ex_jobs in
  exists evs ks, live threads ex_mem (map (fun _ => 0) threads) evs ks /\ finished threads (apply_all ex_mem evs) ks /\
    1 < length (job_stores (hd (Job ex_lm Scalar ex_src [] ex_src [] ) ex_jobs) ex_mem).
Proof.
  destruct C86_example as (V1 & V2 & V3 & V4 & T1 & T2 & P1 & P2 & S1 & S2 & S3 & S4 & _).
  split; [intros j [<-|[<-|[]]]; repeat (split; [assumption|]); assumption|].
  split.
  - split.
    + intros j k [<-|[<-|[]]] [<-|[<-|[]]]; eapply source_separate; cbn; solve [discriminate|reflexivity].
    + intros [|[|x]] [|[|y]] j k NE NJ NK; cbn in NJ, NK; try (destruct (NE eq_refl)); try (destruct x; discriminate NJ); try (destruct y; discriminate NK);
        injection NJ as <-; injection NK as <-; [exact S4|]. intros buf i A B. exact (S4 buf i B A).
  - cbv zeta. eexists _, _. split; [|split].
    + repeat ((eapply live_step with (j := 0); [reflexivity|reflexivity|vm_compute; reflexivity|]);
              (eapply live_step with (j := 1); [reflexivity|reflexivity|vm_compute; reflexivity|])). apply live_stop.
    + split; [reflexivity|]. intros [|[|j]] c k NC NK; cbn in NC, NK; try (destruct j; discriminate NC); injection NC as <-; injection NK as <-; vm_compute; reflexivity.
    + vm_compute. repeat constructor.
Qed.

(** * Copies *)

(** [copied_byte] with the images exchanged: the bytes a copy reads *)
Definition copy_separate (src : image) (sps : list (slice * nat)) (dst : image) (dps : list (slice * nat)) : Prop :=
  forall buf i, copied_byte (im_format dst) sps dps (im_width dst) buf i -> ~ copied_byte (im_format dst) dps sps (im_width dst) buf i.

(** Copying again changes nothing *)
Theorem C86_copy_again : forall m src sps dst dps,
  valid_image src sps -> valid_image dst dps -> planes_disjoint dps -> copy_separate src sps dst dps ->
  snd (copy m src dst) = Ok tt ->
  let m' := after_copy m src dst in
  snd (copy m' src dst) = Ok tt /\ same_memory (after_copy m' src dst) m'.
Proof.
  intros m src sps dst dps VS VD PD SEP OK m'.
  assert (WS : forall ps, im_planes src = Ok ps -> wf_planes ps) by exact (valid_dst src sps VS).
  assert (WD : forall ps, im_planes dst = Ok ps -> wf_planes ps) by exact (valid_dst dst dps VD).
  assert (OK' : snd (copy m' src dst) = Ok tt) by (rewrite (C43_result m' src dst WS WD), <- (C43_result m src dst WS WD); exact OK).
  split; [exact OK'|]. intros buf i.
  destruct (Nat.eq_dec (times (fst (copy m' src dst)) buf i) 0) as [T|T]; [apply apply_untouched, T|].
  destruct (times_in _ _ _ T) as (e & I & CV).
  destruct (copy_copies m' src sps dst dps VS VD OK') as (C & E & _). rewrite E in I. cbn [fst] in I.
  assert (CB : copied_byte (im_format dst) sps dps (im_width dst) buf i).
  { destruct (copies_width _ _ _ _ C) as (EW & _). destruct C as (_ & EF & _). rewrite <- EF, <- EW. apply covers_copied with (m := m'). exists e. auto. }
  destruct (C43_bytes m src sps dst dps VS VD PD) as (KEEP & MOVE). destruct (C43_bytes m' src sps dst dps VS VD PD) as (_ & MOVE').
  destruct CB as (p & sp & dp & r & k & Hp & NS & ND & Hr & Hk & -> & ->).
  rewrite (MOVE' OK' p sp dp r k Hp NS ND Hr Hk). unfold m' at 2. rewrite (MOVE OK p sp dp r k Hp NS ND Hr Hk).
  apply KEEP. intros CB. apply (SEP _ _ CB). exists p, dp, sp, r, k. rewrite Nat.min_comm in Hr. auto 10.
Qed.
Print Assumptions C86_copy_again.

Example C86_copy_example :
  copy_separate cp_src cp_src_planes cp_dst cp_dst_planes /\ snd (copy ex_mem cp_src cp_dst) = Ok tt /\
  after_copy ex_mem cp_src cp_dst 1 2 <> ex_mem 1 2 /\
  after_copy (after_copy ex_mem cp_src cp_dst) cp_src cp_dst 1 2 = after_copy ex_mem cp_src cp_dst 1 2.
Proof.
  split.
  { intros buf i (p & sp & dp & r & k & Hp & NS & ND & _ & _ & -> & _) (p' & dp' & sp' & r' & k' & Hp' & ND' & NS' & _ & _ & E & _).
    cbn in Hp, Hp'. destruct p, p'; try lia. cbn in NS, ND, NS', ND'. injection NS as <-. injection ND as <-. injection NS' as <-. injection ND' as <-. discriminate E. }
  split; [reflexivity|]. vm_compute. split; [discriminate|reflexivity].
Qed.
