(** C43, C44: [copy]. *)

From Coq Require Import Arith Bool List ZArith Lia.
From Verif Require Import Base Types Planes ImageM F32 Vector Simd Formats Visit Convert Copy
  SpecGeom SpecVector SpecColor SpecConvert SpecRun SpecExec SpecCopy GeomProofs GeomProofs2 GeomProofs3
  ReadProofs WriteProofs VisitProofs ConvertProofs SplitProofs BandProofs ExecProofs ThreadProofs CopyProofs
  PropConvert PropFidelity.
Import ListNotations.

(** Memory after a copy *)
Definition after_copy (m : mem) (src dst : image) : mem := apply_all m (fst (copy m src dst)).

(** Memory after a conversion *)
Definition after_convert (lm : libm) (b : backend) (m : mem) (src dst : image) : mem :=
  apply_all m (fst (convert lm b m src dst)).

(** * C43 *)

(** The result, for all images *)
Theorem C43_result : forall m src dst,
  (forall ps, im_planes src = Ok ps -> wf_planes ps) -> (forall ps, im_planes dst = Ok ps -> wf_planes ps) ->
  snd (copy m src dst) = copy_result src dst.
Proof.
  intros m src dst WS WD. destruct (copy_cases m src dst WS WD) as [[E _]|(sps & dps & _ & E)]; [rewrite E; reflexivity|exact E].
Qed.
Print Assumptions C43_result.

(** Errors leave the memory as it is. *)
Theorem C43_error_no_store : forall m src dst e,
  (forall ps, im_planes src = Ok ps -> wf_planes ps) -> (forall ps, im_planes dst = Ok ps -> wf_planes ps) ->
  snd (copy m src dst) = Err e -> fst (copy m src dst) = [].
Proof.
  intros m src dst e WS WD R. destruct (copy_cases m src dst WS WD) as [[E _]|(sps & dps & C & _)]; [rewrite E; reflexivity|].
  rewrite (copies_result m _ _ _ _ C) in R. destruct (_ || _); discriminate R.
Qed.
Print Assumptions C43_error_no_store.

(** A copy that succeeds was made between accepted images of one format. *)
Lemma copy_copies : forall m src sps dst dps, valid_image src sps -> valid_image dst dps -> snd (copy m src dst) = Ok tt ->
  copies src sps dst dps /\ copy m src dst = (copy_events m (im_width src) (im_format src) sps dps, Ok tt) /\
  strides_positive (im_format src) sps /\ strides_positive (im_format dst) dps.
Proof.
  intros m src sps dst dps VS VD R.
  assert (WS : forall ps, im_planes src = Ok ps -> wf_planes ps).
  { intros ps E. destruct VS as (E' & W & _). rewrite E in E'. injection E' as ->. auto. }
  assert (WD : forall ps, im_planes dst = Ok ps -> wf_planes ps).
  { intros ps E. destruct VD as (E' & W & _). rewrite E in E'. injection E' as ->. auto. }
  destruct (copy_cases m src dst WS WD) as [[E N]|(sps' & dps' & C & E)]; [rewrite E in R; contradiction|].
  assert (sps' = sps) as -> by (destruct C as (_ & _ & (A & _) & _); destruct VS as (B & _); congruence).
  assert (dps' = dps) as -> by (destruct C as (_ & _ & _ & (A & _)); destruct VD as (B & _); congruence).
  rewrite (copies_result m _ _ _ _ C) in R. destruct (zero_stride src) eqn:Z1; [discriminate R|].
  destruct (zero_stride dst) eqn:Z2; [discriminate R|].
  pose proof (proj1 (zero_stride_spec src sps (proj1 VS)) Z1) as P1. pose proof (proj1 (zero_stride_spec dst dps (proj1 VD)) Z2) as P2.
  split; [exact C|]. split; [|auto]. destruct (copies_width _ _ _ _ C) as (EW & _). destruct C as (V & EF & RS & RD).
  apply copy_is; auto.
Qed.

(** Every component of every pixel of the destination is that of the source. *)
Theorem C43_samples : forall m src sps dst dps,
  valid_image src sps -> valid_image dst dps -> planes_disjoint dps -> snd (copy m src dst) = Ok tt ->
  forall c x y, x < im_width dst -> y < im_height dst ->
  component (after_copy m src dst) (im_format dst) dps c x y = component m (im_format src) sps c x y.
Proof.
  intros m src sps dst dps VS VD PD R c x y Hx Hy.
  destruct (copy_copies m src sps dst dps VS VD R) as (C & E & P1 & P2). unfold after_copy. rewrite E. cbn [fst].
  destruct (copies_width _ _ _ _ C) as (EW & EH & Ew & Eh). destruct C as (V & EF & (ES & WS & LS & FS) & (ED & WD & LD & FD)).
  rewrite <- EF in *. rewrite <- EW in *. rewrite <- EH in *. set (f := im_format src) in *.
  unfold component. destruct (layout f c x y) as [[[p r] col]|] eqn:L; [|reflexivity].
  destruct (layout_in_plane f c x y (im_width src) (im_height src) p r col Ew Eh Hx Hy L) as (Hp & Hr & Hc).
  destruct (nth_error sps p) as [sp|] eqn:NS; [|apply nth_error_None in NS; lia].
  destruct (nth_error dps p) as [dp|] eqn:ND; [|apply nth_error_None in ND; lia]. f_equal.
  pose proof (rows_whole _ _ _ _ _ (FS p sp Hp NS) (P1 p sp Hp NS)) as R1.
  pose proof (rows_whole _ _ _ _ _ (FD p dp Hp ND) (P2 p dp Hp ND)) as R2.
  pose proof (sample_bytes_pos f) as SB.
  assert (B : forall j, j < sample_bytes f ->
    apply_all m (copy_events m (im_width src) f sps dps) (s_buf (fst dp)) (s_off (fst dp) + (r * snd dp + col * sample_bytes f) + j)
    = m (s_buf (fst sp)) (s_off (fst sp) + (r * snd sp + col * sample_bytes f) + j)).
  { intros j Hj.
    replace (s_off (fst dp) + (r * snd dp + col * sample_bytes f) + j) with (row_byte dp r (col * sample_bytes f + j)) by (unfold row_byte; lia).
    replace (s_off (fst sp) + (r * snd sp + col * sample_bytes f) + j) with (row_byte sp r (col * sample_bytes f + j)) by (unfold row_byte; lia).
    eapply copied_value; eauto.
    - intros q dq Hq Nq. apply (FD q dq Hq Nq).
    - lia.
    - unfold row_bytes. nia. }
  unfold sample_at, sample_addr.
  pose proof (B 0 ltac:(lia)) as B0. rewrite !Nat.add_0_r in B0. rewrite B0.
  destruct (Nat.eqb_spec (sample_bytes f) 2) as [E2|]; [|reflexivity].
  pose proof (B 1 ltac:(lia)) as B1. rewrite !Nat.add_1_r in B1. rewrite B1. reflexivity.
Qed.
Print Assumptions C43_samples.

(** Exactly which bytes change, and to what, whatever the result *)
Theorem C43_bytes : forall m src sps dst dps,
  valid_image src sps -> valid_image dst dps -> planes_disjoint dps ->
  (forall b i, ~ copied_byte (im_format dst) sps dps (im_width dst) b i -> after_copy m src dst b i = m b i) /\
  (snd (copy m src dst) = Ok tt -> forall p sp dp r k, p < n_planes (im_format dst) ->
     nth_error sps p = Some sp -> nth_error dps p = Some dp ->
     r < Nat.min (whole_rows sp) (whole_rows dp) -> k < row_bytes (im_format dst) p (im_width dst) ->
     after_copy m src dst (s_buf (fst dp)) (row_byte dp r k) = m (s_buf (fst sp)) (row_byte sp r k)).
Proof.
  intros m src sps dst dps VS VD PD.
  assert (WS : forall ps, im_planes src = Ok ps -> wf_planes ps).
  { intros ps E. destruct VS as (E' & W & _). rewrite E in E'. injection E' as ->. auto. }
  assert (WD : forall ps, im_planes dst = Ok ps -> wf_planes ps).
  { intros ps E. destruct VD as (E' & W & _). rewrite E in E'. injection E' as ->. auto. }
  unfold after_copy. split.
  - intros b i N. destruct (copy_cases m src dst WS WD) as [[E _]|(sps' & dps' & C & _)]; [rewrite E; reflexivity|].
    assert (sps' = sps) as -> by (destruct C as (_ & _ & (A & _) & _); destruct VS as (B & _); congruence).
    assert (dps' = dps) as -> by (destruct C as (_ & _ & _ & (A & _)); destruct VD as (B & _); congruence).
    apply apply_untouched. destruct (Nat.eq_dec (times (fst (copy m src dst)) b i) 0) as [|T]; [assumption|exfalso].
    destruct (times_in _ _ _ T) as (e & I & CV). apply N. apply (copies_events m _ _ _ _ _ C) in I. destruct (copies_width _ _ _ _ C) as (EW & _). destruct C as (_ & EF & _).
    rewrite <- EF, <- EW. apply covers_copied with (m := m). exists e. auto.
  - intros R p sp dp r k Hp NS ND Hr Hk. destruct (copy_copies m src sps dst dps VS VD R) as (C & E & P1 & P2). rewrite E. cbn [fst].
    destruct (copies_width _ _ _ _ C) as (EW & _). destruct C as (V & EF & _ & (_ & _ & LD & FD)).
    rewrite <- EF, <- EW in *. eapply copied_value; eauto. intros q dq Hq Nq. apply (FD q dq Hq Nq).
Qed.
Print Assumptions C43_bytes.

(** Row padding is left alone: in every row of the image, the bytes of the
    stride that are not used by samples. *)
Theorem C43_padding : forall m src sps dst dps,
  valid_image src sps -> valid_image dst dps -> planes_disjoint dps ->
  forall p dp r k, p < n_planes (im_format dst) -> nth_error dps p = Some dp -> r < plane_rows (im_format dst) p (im_height dst) ->
    row_bytes (im_format dst) p (im_width dst) <= k < snd dp ->
    after_copy m src dst (s_buf (fst dp)) (row_byte dp r k) = m (s_buf (fst dp)) (row_byte dp r k).
Proof.
  intros m src sps dst dps VS VD PD p dp r k Hp ND Hr [Hk1 Hk2].
  apply (proj1 (C43_bytes m src sps dst dps VS VD PD)). intros (q & sq & dq & r' & k' & Hq & NS & NDq & Hr' & Hk' & EB & EI).
  destruct (valid_ready dst dps VD) as (_ & _ & LD & FD). pose proof (FD q dq Hq NDq) as [Fq _].
  assert (Hw : r < whole_rows dp) by (eapply Nat.lt_le_trans; [exact Hr|eapply rows_whole; [apply (FD p dp Hp ND)|lia]]).
  destruct (Nat.eq_dec q p) as [->|NE].
  - rewrite ND in NDq. injection NDq as <-. apply row_byte_inj in EI as [_ <-]; lia.
  - apply (PD q p dq dp NE NDq ND (row_byte dp r k)). split; [congruence|]. split.
    + rewrite EI. apply (row_byte_in dq r' k'); lia.
    + apply (row_byte_in dp r k); lia.
Qed.
Print Assumptions C43_padding.

(** No store leaves the planes of the destination. *)
Theorem C43_inside : forall m src sps dst dps,
  valid_image src sps -> valid_image dst dps -> Forall (store_inside dps) (fst (copy m src dst)).
Proof.
  intros m src sps dst dps VS VD.
  assert (WS : forall ps, im_planes src = Ok ps -> wf_planes ps).
  { intros ps E. destruct VS as (E' & W & _). rewrite E in E'. injection E' as ->. auto. }
  assert (WD : forall ps, im_planes dst = Ok ps -> wf_planes ps).
  { intros ps E. destruct VD as (E' & W & _). rewrite E in E'. injection E' as ->. auto. }
  apply Forall_forall. intros e I. destruct (copy_cases m src dst WS WD) as [[E _]|(sps' & dps' & C & _)]; [rewrite E in I; destruct I|].
  assert (dps' = dps) as -> by (destruct C as (_ & _ & _ & (A & _)); destruct VD as (B & _); congruence).
  apply (copies_events m _ _ _ _ _ C) in I. apply in_copy_events in I as (p & sp & dp & r & Hp & NS & ND & Hr & ->).
  destruct (copies_width _ _ _ _ C) as (EW & _). destruct C as (_ & EF & _ & (_ & _ & LD & FD)). rewrite <- EF, <- EW in *.
  destruct (FD p dp Hp ND) as [Fp _]. exists dp. split; [apply (nth_error_In _ _ ND)|]. cbn [row_event w_buf w_off w_bytes].
  rewrite read_bytes_length. split; [reflexivity|]. split; [lia|].
  unfold whole_rows in Hr. destruct (Nat.eq_dec (snd dp) 0) as [Z|NZ]; [rewrite Z in Hr; cbn in Hr; lia|].
  pose proof (Nat.mul_div_le (s_len (fst dp)) (snd dp) NZ). nia.
Qed.
Print Assumptions C43_inside.

(** If the planes have no spare rows, nothing but samples changes. *)
Theorem C43_only_samples : forall m src sps dst dps,
  valid_image src sps -> valid_image dst dps -> planes_disjoint dps ->
  no_spare_rows (im_format dst) sps dps (im_height dst) ->
  forall b i, ~ sample_byte (im_format dst) dps (im_width dst) (im_height dst) b i -> after_copy m src dst b i = m b i.
Proof.
  intros m src sps dst dps VS VD PD NR b i N. apply (proj1 (C43_bytes m src sps dst dps VS VD PD)).
  intros (p & sp & dp & r & k & Hp & NS & ND & Hr & Hk & -> & ->). apply N. apply sample_byte_rows.
  exists p, dp, r, k. specialize (NR p sp dp Hp NS ND). repeat split; auto. lia.
Qed.
Print Assumptions C43_only_samples.

(** A 4 x 2 RGB image with padding in its rows, 15 and 13 bytes each *)
Definition cp_src_planes : list (slice * nat) := [(Slice 0 0 30, 15)].
Definition cp_src : image := ex_image RGB 4 2 ex_rgb cp_src_planes.
Definition cp_dst_planes : list (slice * nat) := [(Slice 1 2 26, 13)].
Definition cp_dst : image := ex_image RGB 4 2 ex_rgb cp_dst_planes.

Lemma one_disjoint : forall a, planes_disjoint [a].
Proof. intros a i j x y H Hx Hy. destruct i as [|[|i]], j as [|[|j]]; cbn in Hx, Hy; congruence. Qed.

Example C43_example :
  valid_image cp_src cp_src_planes /\ valid_image cp_dst cp_dst_planes /\ planes_disjoint cp_dst_planes /\
  snd (copy ex_mem cp_src cp_dst) = Ok tt /\ length (fst (copy ex_mem cp_src cp_dst)) = 2 /\
  no_spare_rows RGB cp_src_planes cp_dst_planes 2 /\
  map (after_copy ex_mem cp_src cp_dst 1) [1; 2; 13; 14; 15; 26; 27]
    = [ex_mem 1 1; ex_mem 0 0; ex_mem 0 11; ex_mem 1 14; ex_mem 0 15; ex_mem 0 26; ex_mem 1 27] /\
  (* the error and panic rows of the table *)
  copy ex_mem cp_src (ex_image RGB 4 4 ex_rgb cp_dst_planes) = ([], Err MismatchedImageSize) /\
  copy ex_mem (ex_image RGB 3 2 ex_rgb cp_src_planes) (ex_image RGB 3 2 ex_rgb cp_dst_planes) = ([], Err OddImageDimensions) /\
  copy ex_mem cp_src ex_dst = ([], Panic PAssert) /\
  copy ex_mem cp_src (ex_image RGB 4 2 ex_rgb []) = ([], Err (CBoundsCheck (InvalidNumberOfPlanes 1 0))).
Proof.
  split; [split; [reflexivity|split; [repeat constructor; cbn; unfold usize; cbn; lia|reflexivity]]|].
  split; [split; [reflexivity|split; [repeat constructor; cbn; unfold usize; cbn; lia|reflexivity]]|].
  split; [apply one_disjoint|]. split; [reflexivity|]. split; [reflexivity|]. split.
  - intros p sp dp Hp NS ND. cbn in Hp. assert (p = 0) by lia. subst p. injection NS as <-. injection ND as <-. left. vm_compute. lia.
  - vm_compute. repeat split; reflexivity.
Qed.

(** Planes that are longer than the image needs: copy also overwrites the rows
    after the last row of the image.  Both images are valid and have room for a
    third row; byte 26 of the destination is not a sample. *)
Theorem C43_refuted :
  exists m src sps dst dps, valid_image src sps /\ valid_image dst dps /\ planes_disjoint dps /\
    snd (copy m src dst) = Ok tt /\
    exists b i, ~ sample_byte (im_format dst) dps (im_width dst) (im_height dst) b i /\ after_copy m src dst b i <> m b i.
Proof.
  exists ex_mem, (ex_image RGB 4 2 ex_rgb [(Slice 0 0 45, 15)]), [(Slice 0 0 45, 15)],
    (ex_image RGB 4 2 ex_rgb [(Slice 1 0 39, 13)]), [(Slice 1 0 39, 13)].
  split; [split; [reflexivity|split; [repeat constructor; cbn; unfold usize; cbn; lia|reflexivity]]|].
  split; [split; [reflexivity|split; [repeat constructor; cbn; unfold usize; cbn; lia|reflexivity]]|].
  split; [apply one_disjoint|]. split; [reflexivity|]. exists 1, 26. split.
  - intros (p & pl & r & c & Hp & N & Hr & Hc & E & Hi). cbn in Hp. assert (p = 0) by lia. subst p. injection N as <-. cbn in Hr, Hc, Hi. lia.
  - vm_compute. discriminate.
Qed.
Print Assumptions C43_refuted.

(** Images without pixels, which have stride 0, are accepted by every check but
    make copy panic.  (convert succeeds.) *)
Theorem C43_empty_panics : forall lm b m,
  let empty k := ex_image RGB 0 0 ex_rgb [(Slice k 0 0, 0)] in
  image_bounds_check (empty 0) = Ok tt /\ image_bounds_check (empty 1) = Ok tt /\
  copy m (empty 0) (empty 1) = ([], Panic PDivZero) /\ convert lm b m (empty 0) (empty 1) = ([], Ok tt).
Proof. intros lm b m. repeat split. Qed.
Print Assumptions C43_empty_panics.

(** * C44 *)

Lemma copies_convertible : forall src sps dst dps, copies src sps dst dps -> same_image_kind src dst = true ->
  strides_444 (im_format src) sps -> forall lm b m, snd (convert lm b m src dst) = Ok tt.
Proof.
  intros src sps dst dps C SK ST lm b m. pose proof C as (V & EF & RS & RD). destruct (copies_width _ _ _ _ C) as (EW & EH & Ew & Eh).
  rewrite C13_result.
  - unfold convert_result. rewrite EW, EH, !Nat.eqb_refl, <- EW, <- EH, !odd_mod2, Ew, Eh, SK. cbn [andb negb orb Nat.eqb].
    rewrite (ready_bounds _ _ RS), (ready_bounds _ _ RD). reflexivity.
  - intros ps E. destruct RS as (E' & W & _). rewrite E in E'. injection E' as ->. auto.
  - intros ps E. destruct RD as (E' & W & _). rewrite E in E'. injection E' as ->. auto.
Qed.

(** 8-bit formats: where copy succeeds, convert succeeds on every back end, and
    both leave the same samples. *)
Theorem C44_copy_is_convert : forall lm b m src sps dst dps,
  valid_image src sps -> valid_image dst dps -> planes_disjoint dps -> strides_444 (im_format src) sps -> bytes_ok m ->
  same_image_kind src dst = true -> sample_bytes (im_format src) = 1 -> snd (copy m src dst) = Ok tt ->
  snd (convert lm b m src dst) = Ok tt /\
  same_samples (im_format dst) dps (im_width dst) (im_height dst) (after_copy m src dst) (after_convert lm b m src dst).
Proof.
  intros lm b m src sps dst dps VS VD PD ST B SK S1 R.
  destruct (copy_copies m src sps dst dps VS VD R) as (C & E & P1 & P2).
  assert (OK : snd (convert lm b m src dst) = Ok tt) by (eapply copies_convertible; eauto). split; [exact OK|].
  assert (CV : converts lm b m src sps dst dps) by (split; [exact VS|split; [exact VD|split; [exact PD|split; [exact ST|exact OK]]]]).
  destruct (copies_width _ _ _ _ C) as (EW & EH & Ew & Eh). assert (EF : im_format src = im_format dst) by apply C.
  intros bb i (p & pl & r & c & Hp & N & Hr & Hc & -> & Hi).
  assert (EI : i = s_off (fst pl) + (r * snd pl + c * sample_bytes (im_format dst))) by (rewrite <- EF, S1 in *; lia).
  rewrite EW in Ew. rewrite EH in Eh.
  pose proof (layout_unlayout (im_format dst) p r c (im_width dst) (im_height dst) Hp Hr Hc) as L.
  destruct (unlayout (im_format dst) p r c) as [[k x] y]. destruct L as (L & HC & Hx & Hy).
  pose proof (C43_samples m src sps dst dps VS VD PD R k x y Hx Hy) as A.
  pose proof (C20_same_format_exact_8bit lm b m src sps dst dps CV SK B S1 k x y HC (conj Hx Hy)) as A2.
  unfold stored, given in A2. rewrite <- A2 in A. unfold component in A. rewrite L, N in A. injection A as A.
  unfold sample_at, sample_addr in A. rewrite <- EF, S1 in A. cbn [Nat.eqb] in A. rewrite EI, <- EF, S1. exact A.
Qed.
Print Assumptions C44_copy_is_convert.

(** 16-bit formats: the same for every sample in the nominal range *)
Theorem C44_copy_is_convert_16bit : forall lm b m src sps dst dps,
  valid_image src sps -> valid_image dst dps -> planes_disjoint dps -> strides_444 (im_format src) sps ->
  same_image_kind src dst = true -> snd (copy m src dst) = Ok tt ->
  snd (convert lm b m src dst) = Ok tt /\
  forall c x y z, x < im_width dst -> y < im_height dst ->
    component m (im_format src) sps c x y = Some z -> (0 <= z <= max_level (im_format src))%Z ->
    component (after_copy m src dst) (im_format dst) dps c x y = Some z /\
    component (after_convert lm b m src dst) (im_format dst) dps c x y = Some z.
Proof.
  intros lm b m src sps dst dps VS VD PD ST SK R. destruct (copy_copies m src sps dst dps VS VD R) as (C & E & P1 & P2).
  assert (OK : snd (convert lm b m src dst) = Ok tt) by (eapply copies_convertible; eauto). split; [exact OK|].
  assert (CV : converts lm b m src sps dst dps) by (split; [exact VS|split; [exact VD|split; [exact PD|split; [exact ST|exact OK]]]]).
  intros c x y z Hx Hy G Z. split.
  - rewrite (C43_samples m src sps dst dps VS VD PD R c x y Hx Hy). exact G.
  - eapply (C20_same_format_exact lm b m src sps dst dps CV SK c x y z); auto; [|split; assumption].
    assert (EF : im_format src = im_format dst) by apply C. rewrite EF in G. unfold component in G.
    destruct (im_format dst), c; try discriminate G; reflexivity.
Qed.
Print Assumptions C44_copy_is_convert_16bit.

(** 8-bit formats, planes without spare rows: copy and convert leave the same memory. *)
Theorem C44_same_memory : forall lm b m src sps dst dps,
  valid_image src sps -> valid_image dst dps -> planes_disjoint dps -> strides_444 (im_format src) sps -> bytes_ok m ->
  same_image_kind src dst = true -> sample_bytes (im_format src) = 1 -> snd (copy m src dst) = Ok tt ->
  no_spare_rows (im_format dst) sps dps (im_height dst) ->
  forall buf i, after_copy m src dst buf i = after_convert lm b m src dst buf i.
Proof.
  intros lm b m src sps dst dps VS VD PD ST B SK S1 R NR buf i.
  destruct (C44_copy_is_convert lm b m src sps dst dps VS VD PD ST B SK S1 R) as [_ SS].
  destruct (copy_copies m src sps dst dps VS VD R) as (C & E & _).
  assert (OK : snd (convert lm b m src dst) = Ok tt) by (eapply copies_convertible; eauto).
  assert (CV : converts lm b m src sps dst dps) by (split; [exact VS|split; [exact VD|split; [exact PD|split; [exact ST|exact OK]]]]).
  destruct (convert_bytes lm b m src sps dst dps (converts_convertible _ _ _ _ _ _ _ CV) PD) as (evs & EC & O & _).
  destruct (Nat.eq_dec (times evs buf i) 0) as [T|T]; [|apply SS, O, T].
  destruct (Nat.eq_dec (times (fst (copy m src dst)) buf i) 0) as [T'|T'].
  - unfold after_copy, after_convert. rewrite EC, !apply_untouched by assumption. reflexivity.
  - apply SS. rewrite E in T'. cbn [fst] in T'. destruct (times_in _ _ _ T') as (e & I & CE).
    assert (CB : copied_byte (im_format src) sps dps (im_width src) buf i) by (apply (covers_copied m); exists e; auto).
    destruct (copies_width _ _ _ _ C) as (EW & _). assert (EF : im_format src = im_format dst) by apply C. rewrite EF, EW in CB.
    destruct CB as (p & sp & dp & r & k & Hp & NS & ND & Hr & Hk & -> & ->). apply sample_byte_rows.
    exists p, dp, r, k. specialize (NR p sp dp Hp NS ND). repeat split; auto. lia.
Qed.
Print Assumptions C44_same_memory.

Example C44_example :
  valid_image cp_src cp_src_planes /\ valid_image cp_dst cp_dst_planes /\ planes_disjoint cp_dst_planes /\
  strides_444 RGB cp_src_planes /\ bytes_ok ex_mem /\ same_image_kind cp_src cp_dst = true /\ sample_bytes RGB = 1 /\
  snd (copy ex_mem cp_src cp_dst) = Ok tt /\ no_spare_rows RGB cp_src_planes cp_dst_planes 2.
Proof.
  destruct C43_example as (A & B & C & D & _ & E & _). repeat (split; [assumption|]).
  split; [discriminate|]. split; [|repeat split; assumption].
  intros b i. unfold ex_mem. pose proof (Nat.mod_upper_bound (b * 40 + i * 7) 256 ltac:(lia)). lia.
Qed.

(** Not for 16-bit samples outside of the nominal range: copy keeps the word
    32741 of a 10-bit image, convert stores 32740 (scalar code, as at the right edge). *)
Theorem C44_refuted : forall b,
  valid_image (ex16 0) (ex16_planes 0) /\ valid_image (ex16 1) (ex16_planes 1) /\ planes_disjoint (ex16_planes 1) /\
  same_image_kind (ex16 0) (ex16 1) = true /\ snd (copy ex16_mem (ex16 0) (ex16 1)) = Ok tt /\
  component (after_copy ex16_mem (ex16 0) (ex16 1)) I010 (ex16_planes 1) CY 0 0 = Some 32741%Z /\
  component (after_convert ex_lm b ex16_mem (ex16 0) (ex16 1)) I010 (ex16_planes 1) CY 0 0 = Some 32740%Z.
Proof.
  intros b. destruct (C20_refuted b) as ((VS & VD & PD & _) & SK & _ & S1 & _). repeat (split; [assumption|]).
  split; [reflexivity|]. split; [vm_compute; reflexivity|exact S1].
Qed.
Print Assumptions C44_refuted.
