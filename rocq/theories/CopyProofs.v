(** Lemmas about [copy]. *)

From Coq Require Import Arith Bool List ZArith Lia.
From Verif Require Import Base Types Planes ImageM F32 Vector Simd Formats Visit Convert Copy
  SpecGeom SpecVector SpecColor SpecConvert SpecRun SpecCopy GeomProofs GeomProofs2 GeomProofs3
  ReadProofs WriteProofs VisitProofs ConvertProofs SplitProofs BandProofs ExecProofs ThreadProofs.
Import ListNotations.

Definition all_ok {E} (l : list (out E)) : Prop := Forall (fun o => snd o = Ok tt) l.

Lemma run_all_ok : forall E (l : list (out E)), all_ok l -> run_all l = (concat (map fst l), Ok tt).
Proof.
  intros E l. induction l as [|[ev r] l IH]; intros H; [reflexivity|].
  inversion H as [|? ? H1 H2]; subst. cbn in H1. subst r. cbn. rewrite (IH H2). reflexivity.
Qed.

(** The events of [copy] *)
Definition row_event (m : mem) (n : nat) (sp dp : slice * nat) (r : nat) : wev :=
  Wev (s_buf (fst dp)) (s_off (fst dp) + r * snd dp) (read_bytes m (s_buf (fst sp)) (s_off (fst sp) + r * snd sp) n).

Definition plane_events (m : mem) (n : nat) (sp dp : slice * nat) : list wev :=
  map (row_event m n sp dp) (seq 0 (Nat.min (whole_rows sp) (whole_rows dp))).

Lemma read_bytes_length : forall m b o n, length (read_bytes m b o n) = n.
Proof. intros. unfold read_bytes. rewrite map_length, seq_length. reflexivity. Qed.

Lemma nth_read_bytes : forall m b o n k, k < n -> nth k (read_bytes m b o n) 0%Z = m b (o + k).
Proof. intros m b o n k H. unfold read_bytes. rewrite nth_map_seq by exact H. reflexivity. Qed.

Lemma combine_map_seq : forall A B (f : nat -> A) (g : nat -> B) a n k,
  combine (map f (seq a n)) (map g (seq a k)) = map (fun r => (f r, g r)) (seq a (Nat.min n k)).
Proof.
  intros A B f g a n. revert a. induction n as [|n IH]; intros a [|k]; try reflexivity.
  cbn [seq map combine Nat.min]. f_equal. apply IH.
Qed.

Lemma copy_plane_ok : forall m w d sp dp,
  1 <= bpp d -> usize (opn (width_op d) w * bpp d) ->
  opn (width_op d) w * bpp d <= snd sp -> opn (width_op d) w * bpp d <= snd dp -> 0 < snd sp -> 0 < snd dp ->
  copy_plane m w (d, (sp, dp)) = (plane_events m (opn (width_op d) w * bpp d) sp dp, Ok tt).
Proof.
  intros m w d [s sst] [t tst] B U L1 L2 P1 P2. cbn [snd fst] in *. set (n := opn (width_op d) w * bpp d) in *.
  assert (UO : usize (opn (width_op d) w)) by (eapply usize_le; [|exact U]; unfold n; nia).
  unfold copy_plane. rewrite op_apply_ok by exact UO. cbn [bind]. rewrite umul_ok by exact U. cbn [bind].
  unfold chunks_exact. rewrite (proj2 (Nat.eqb_neq sst 0)), (proj2 (Nat.eqb_neq tst 0)) by lia. cbn [bind obind].
  rewrite combine_map_seq, map_map. fold n. rewrite (map_ext _ (fun r => ([row_event m n (s, sst) (t, tst) r], Ok tt) : out convert_error)).
  - rewrite run_all_ok.
    + f_equal. rewrite map_map. cbn [fst]. unfold plane_events, whole_rows. cbn [fst snd].
      induction (seq 0 _) as [|a l IH]; [reflexivity|]. cbn. f_equal. exact IH.
    + apply Forall_forall. intros o I. apply in_map_iff in I as (r & <- & _). reflexivity.
  - intros r. unfold copy_row, index_range. cbn [s_len s_buf s_off].
    rewrite (proj2 (Nat.leb_le n tst) L2), (proj2 (Nat.leb_le n sst) L1). cbn [Nat.leb andb bind obind s_buf s_off s_len].
    rewrite !Nat.sub_0_r, !Nat.add_0_r. reflexivity.
Qed.

Lemma copy_plane_zero : forall m w d sp dp,
  1 <= bpp d -> usize (opn (width_op d) w * bpp d) -> (snd sp = 0 \/ snd dp = 0) ->
  copy_plane m w (d, (sp, dp)) = ([], Panic PDivZero).
Proof.
  intros m w d [s sst] [t tst] B U Z. cbn [snd fst] in *.
  assert (UO : usize (opn (width_op d) w)) by (eapply usize_le; [|exact U]; nia).
  unfold copy_plane. rewrite op_apply_ok by exact UO. cbn [bind]. rewrite umul_ok by exact U. cbn [bind].
  unfold chunks_exact. destruct (Nat.eqb_spec sst 0); [reflexivity|]. destruct Z as [Z|Z]; [congruence|]. subst tst. reflexivity.
Qed.

(** The planes copy works on *)
Definition copy_jobs (f : pixel_format) (sps dps : list (slice * nat)) : list (plane_desc * ((slice * nat) * (slice * nat))) :=
  combine (plane_descs f) (combine sps dps).

Lemma jobs_nth : forall f sps dps p j, nth_error (copy_jobs f sps dps) p = Some j ->
  p < n_planes f /\ exists d sp dp, j = (d, (sp, dp)) /\ nth_error (plane_descs f) p = Some d /\
    nth_error sps p = Some sp /\ nth_error dps p = Some dp.
Proof.
  intros f sps dps p [d [sp dp]] N. unfold copy_jobs in N. apply nth_error_combine2 in N as [N1 N2]. cbn [fst snd] in *.
  apply nth_error_combine2 in N2 as [N2 N3]. cbn [fst snd] in *.
  split; [rewrite <- n_planes_descs; apply nth_error_Some; congruence|]. exists d, sp, dp. auto.
Qed.

Lemma combine_nth_some : forall A B (la : list A) (lb : list B) p a b,
  nth_error la p = Some a -> nth_error lb p = Some b -> nth_error (combine la lb) p = Some (a, b).
Proof.
  intros A B la. induction la as [|x la IH]; intros [|y lb] [|p] a b N M; cbn in *; try discriminate.
  - congruence.
  - apply IH; assumption.
Qed.

Lemma jobs_get : forall f sps dps p sp dp, p < n_planes f -> nth_error sps p = Some sp -> nth_error dps p = Some dp ->
  exists d, nth_error (plane_descs f) p = Some d /\ nth_error (copy_jobs f sps dps) p = Some (d, (sp, dp)).
Proof.
  intros f sps dps p sp dp Hp N M. destruct (desc_exists f p Hp) as (d & D). exists d. split; [exact D|].
  unfold copy_jobs. apply combine_nth_some; [exact D|]. apply combine_nth_some; assumption.
Qed.

(** What [copy] does with accepted images of the same format and even size *)
Definition copy_events (m : mem) (w : nat) (f : pixel_format) (sps dps : list (slice * nat)) : list wev :=
  concat (map (fun '(d, (sp, dp)) => plane_events m (opn (width_op d) w * bpp d) sp dp) (copy_jobs f sps dps)).

Lemma copy_starts : forall m src sps dst dps, verify_input_windows src dst = Ok tt -> im_format src = im_format dst ->
  ready src sps -> ready dst dps ->
  copy m src dst = run_all (map (copy_plane m (im_width src)) (copy_jobs (im_format src) sps dps)).
Proof.
  intros m src sps dst dps V EF (E1 & W1 & F1) (E2 & W2 & F2). unfold copy. rewrite V. cbn [bind].
  unfold pixel_format_eqb. destruct (pixel_format_eq_dec _ _) as [_|N]; [|congruence]. cbn [bind].
  rewrite (image_bounds_check_complete src sps E1 W1 F1), (image_bounds_check_complete dst dps E2 W2 F2). cbn [map_err bind].
  rewrite E1, E2. cbn [lift bind obind]. reflexivity.
Qed.

Lemma row_bytes_d : forall f p d w, nth_error (plane_descs f) p = Some d ->
  opn (width_op d) w * bpp d = row_bytes f p w /\ 1 <= bpp d.
Proof.
  intros f p d w D. destruct (desc_spec f p d D) as (_ & Hw & _ & Hb & _). unfold row_bytes. rewrite Hw, Hb.
  split; [reflexivity|apply sample_bytes_pos].
Qed.

Lemma copy_is : forall m src sps dst dps, verify_input_windows src dst = Ok tt -> im_format src = im_format dst ->
  ready src sps -> ready dst dps -> im_width src = im_width dst ->
  strides_positive (im_format src) sps -> strides_positive (im_format dst) dps ->
  copy m src dst = (copy_events m (im_width src) (im_format src) sps dps, Ok tt).
Proof.
  intros m src sps dst dps V EF RS RD EW PS PD. rewrite (copy_starts m src sps dst dps V EF RS RD).
  assert (ALL : forall j, In j (copy_jobs (im_format src) sps dps) ->
     copy_plane m (im_width src) j = ((fun '(d, (sp, dp)) => plane_events m (opn (width_op d) (im_width src) * bpp d) sp dp) j, Ok tt)).
  { intros j I. apply In_nth_error in I as (p & N). destruct (jobs_nth _ _ _ _ _ N) as (Hp & d & sp & dp & -> & D & NS & ND).
    destruct RS as (_ & WS & LS & FS). destruct RD as (_ & WD & LD & FD).
    destruct (row_bytes_d _ _ _ (im_width src) D) as [RB B1]. rewrite RB.
    destruct (FS p sp Hp NS) as [F1 _]. rewrite EF in Hp. destruct (FD p dp Hp ND) as [F2 _]. rewrite <- EF, <- EW in F2. rewrite EF in PS.
    rewrite (copy_plane_ok m (im_width src) d sp dp); rewrite ?RB; try assumption.
    - reflexivity.
    - eapply usize_le; [exact F1|]. destruct (wf_nth _ _ _ WS NS) as [_ U]. exact U.
    - exact (PS p sp Hp NS).
    - exact (PD p dp Hp ND). }
  rewrite run_all_ok.
  - f_equal. unfold copy_events. f_equal. rewrite map_map. apply map_ext_in. intros j I. rewrite (ALL j I). reflexivity.
  - apply Forall_forall. intros o I. apply in_map_iff in I as (j & <- & I). rewrite (ALL j I). reflexivity.
Qed.

(** * The memory after a copy *)

Lemma apply_all_same : forall b i v evs m,
  (forall e, In e evs -> covers b i e = true -> nth (i - w_off e) (w_bytes e) 0%Z = v) ->
  apply_all m evs b i = if existsb (covers b i) evs then v else m b i.
Proof.
  intros b i v evs. induction evs as [|e evs IH]; intros m H; [reflexivity|].
  change (apply_all (apply_wev m e) evs b i = if covers b i e || existsb (covers b i) evs then v else m b i).
  rewrite IH by (intros e' I; apply H; right; exact I). rewrite apply_wev_covers.
  destruct (covers b i e) eqn:C; cbn [orb]; [|reflexivity]. rewrite (H e (or_introl eq_refl) C). destruct (existsb _ _); reflexivity.
Qed.

Lemma in_copy_events : forall m w f sps dps e, In e (copy_events m w f sps dps) <->
  exists p sp dp r, p < n_planes f /\ nth_error sps p = Some sp /\ nth_error dps p = Some dp /\
    r < Nat.min (whole_rows sp) (whole_rows dp) /\ e = row_event m (row_bytes f p w) sp dp r.
Proof.
  intros m w f sps dps e. unfold copy_events. split.
  - intros I. apply in_concat in I as (l & I1 & I2). apply in_map_iff in I1 as ([d [sp dp]] & <- & I1).
    apply In_nth_error in I1 as (p & N). destruct (jobs_nth _ _ _ _ _ N) as (Hp & d' & sp' & dp' & E & D & NS & ND).
    injection E as <- <- <-. unfold plane_events in I2. apply in_map_iff in I2 as (r & <- & I2). apply in_seq in I2.
    destruct (row_bytes_d _ _ _ w D) as [RB _]. rewrite RB. exists p, sp, dp, r. repeat split; assumption || lia.
  - intros (p & sp & dp & r & Hp & NS & ND & Hr & ->). destruct (jobs_get f sps dps p sp dp Hp NS ND) as (d & D & NJ).
    apply in_concat. exists (plane_events m (row_bytes f p w) sp dp). split.
    + apply in_map_iff. exists (d, (sp, dp)). split; [|eapply nth_error_In, NJ]. destruct (row_bytes_d _ _ _ w D) as [-> _]. reflexivity.
    + unfold plane_events. apply in_map. apply in_seq. lia.
Qed.

Lemma row_event_covers : forall m n sp dp r b i, covers b i (row_event m n sp dp r) = true <->
  b = s_buf (fst dp) /\ exists k, k < n /\ i = row_byte dp r k.
Proof.
  intros m n sp dp r b i. unfold covers, row_event, row_byte. cbn [w_buf w_off w_bytes]. rewrite read_bytes_length.
  rewrite !andb_true_iff, Nat.eqb_eq, Nat.leb_le, Nat.ltb_lt. split.
  - intros [[-> H1] H2]. split; [reflexivity|]. exists (i - (s_off (fst dp) + r * snd dp)). lia.
  - intros (-> & k & Hk & ->). lia.
Qed.

Lemma covers_copied : forall m w f sps dps b i,
  (exists e, In e (copy_events m w f sps dps) /\ covers b i e = true) <-> copied_byte f sps dps w b i.
Proof.
  intros m w f sps dps b i. split.
  - intros (e & I & C). apply in_copy_events in I as (p & sp & dp & r & Hp & NS & ND & Hr & ->).
    apply row_event_covers in C as (-> & k & Hk & ->). exists p, sp, dp, r, k. auto 10.
  - intros (p & sp & dp & r & k & Hp & NS & ND & Hr & Hk & -> & ->).
    exists (row_event m (row_bytes f p w) sp dp r). split.
    + apply in_copy_events. exists p, sp, dp, r. auto 10.
    + apply row_event_covers. split; [reflexivity|]. exists k. auto.
Qed.

(** A byte of a whole row is in the plane, and in one row only. *)
Lemma row_byte_in : forall pl r k, r < whole_rows pl -> k < snd pl -> in_slice (fst pl) (s_buf (fst pl)) (row_byte pl r k).
Proof.
  intros pl r k Hr Hk. unfold whole_rows in Hr. split; [reflexivity|]. unfold row_byte.
  assert (S r * snd pl <= s_len (fst pl)).
  { pose proof (Nat.mul_div_le (s_len (fst pl)) (snd pl) ltac:(lia)). nia. }
  nia.
Qed.

Lemma row_byte_inj : forall pl r r' k k', k < snd pl -> k' < snd pl -> row_byte pl r k = row_byte pl r' k' -> r = r' /\ k = k'.
Proof.
  intros pl r r' k k' H H' E. unfold row_byte in E.
  assert (r = r') by nia. subst. split; [reflexivity|lia].
Qed.

(** All events that cover a byte store the same value there. *)
Lemma copied_value : forall m w f sps dps p sp dp r k,
  planes_disjoint dps -> p < n_planes f -> nth_error sps p = Some sp -> nth_error dps p = Some dp ->
  (forall q dq, q < n_planes f -> nth_error dps q = Some dq -> row_bytes f q w <= snd dq) ->
  r < Nat.min (whole_rows sp) (whole_rows dp) -> k < row_bytes f p w ->
  apply_all m (copy_events m w f sps dps) (s_buf (fst dp)) (row_byte dp r k) = m (s_buf (fst sp)) (row_byte sp r k).
Proof.
  intros m w f sps dps p sp dp r k PD Hp NS ND RB Hr Hk. pose proof (RB p dp Hp ND) as RBp.
  rewrite (apply_all_same _ _ (m (s_buf (fst sp)) (row_byte sp r k))).
  - destruct (existsb _ _) eqn:X; [reflexivity|]. exfalso.
    assert (E : existsb (covers (s_buf (fst dp)) (row_byte dp r k)) (copy_events m w f sps dps) = true); [|congruence].
    apply existsb_exists. apply covers_copied. exists p, sp, dp, r, k. auto 10.
  - intros e I C. apply in_copy_events in I as (q & sq & dq & r' & Hq & NSq & NDq & Hr' & ->).
    apply row_event_covers in C as (EB & k' & Hk' & EI). pose proof (RB q dq Hq NDq) as RBq.
    assert (q = p).
    { destruct (Nat.eq_dec q p) as [|NE]; [assumption|exfalso].
      apply (PD q p dq dp NE NDq ND (row_byte dp r k)). split; [congruence|]. split.
      - rewrite EI. apply (row_byte_in dq r' k'); lia.
      - apply (row_byte_in dp r k); lia. }
    subst q. rewrite NS in NSq. injection NSq as <-. rewrite ND in NDq. injection NDq as <-.
    apply row_byte_inj in EI as [<- <-]; [|lia|lia].
    unfold row_event. cbn [w_off w_bytes]. rewrite nth_read_bytes by (unfold row_byte; lia).
    f_equal. unfold row_byte. lia.
Qed.

(** Rows of the image are whole rows of an accepted plane. *)
Lemma rows_whole : forall f w h p pl, plane_fits f w h p pl -> 0 < snd pl -> plane_rows f p h <= whole_rows pl.
Proof. intros f w h p pl [_ F] P. unfold whole_rows. apply Nat.div_le_lower_bound; [lia|exact F]. Qed.

(** Bytes of samples are the first [row_bytes] bytes of the rows. *)
Lemma sample_byte_rows : forall f ps w h b i, sample_byte f ps w h b i <->
  exists p pl r k, p < n_planes f /\ nth_error ps p = Some pl /\ r < plane_rows f p h /\ k < row_bytes f p w /\
    b = s_buf (fst pl) /\ i = row_byte pl r k.
Proof.
  intros f ps w h b i. pose proof (sample_bytes_pos f) as SB. unfold row_bytes, row_byte. split.
  - intros (p & pl & r & c & Hp & N & Hr & Hc & -> & Hi). exists p, pl, r, (i - (s_off (fst pl) + r * snd pl)).
    repeat split; try assumption; nia.
  - intros (p & pl & r & k & Hp & N & Hr & Hk & -> & ->). exists p, pl, r, (k / sample_bytes f).
    pose proof (Nat.div_mod k (sample_bytes f) ltac:(lia)). pose proof (Nat.mod_upper_bound k (sample_bytes f) ltac:(lia)).
    repeat split; try assumption; nia.
Qed.

(** * All outcomes *)

Lemma run_all_events : forall E (l : list (out E)) e, In e (fst (run_all l)) -> exists o, In o l /\ In e (fst o).
Proof.
  intros E l. induction l as [|[ev r] l IH]; intros e I; [destruct I|].
  cbn in I. destruct r as [[]| | |]; cbn in I.
  2-4: eexists; split; [left; reflexivity|exact I].
  destruct (run_all l) as [evs r']. cbn in I. apply in_app_or in I as [I|I].
  - eexists. split; [left; reflexivity|exact I].
  - destruct (IH e I) as (o & A & B). exists o. split; [right; exact A|exact B].
Qed.

Lemma run_all_panic : forall E p (l : list (out E)),
  Forall (fun o => snd o = Ok tt \/ snd o = Panic p) l -> Exists (fun o => snd o = Panic p) l -> snd (run_all l) = Panic p.
Proof.
  intros E p l. induction l as [|[ev r] l IH]; intros F X; [inversion X|].
  inversion F as [|? ? F1 F2]; subst. cbn in F1. destruct F1 as [-> | ->]; [|reflexivity].
  assert (X' : Exists (fun o => snd o = Panic p) l) by (inversion X as [? ? X1|]; [discriminate X1|assumption]).
  specialize (IH F2 X'). cbn. destruct (run_all l) as [evs r']. exact IH.
Qed.

Lemma zero_stride_spec : forall im ps, im_planes im = Ok ps ->
  (zero_stride im = false -> strides_positive (im_format im) ps) /\
  (zero_stride im = true -> exists p pl, p < n_planes (im_format im) /\ nth_error ps p = Some pl /\ snd pl = 0).
Proof.
  intros im ps E. unfold zero_stride. rewrite E. split.
  - intros Z p pl Hp N. destruct (Nat.eq_dec (snd pl) 0) as [E0|]; [exfalso|lia].
    assert (existsb (fun pl => snd pl =? 0) (firstn (n_planes (im_format im)) ps) = true); [|congruence].
    apply existsb_exists. exists pl. split; [|apply Nat.eqb_eq, E0].
    apply (nth_error_In _ p). rewrite nth_error_firstn by exact Hp. exact N.
  - intros Z. apply existsb_exists in Z as (pl & I & E0). apply Nat.eqb_eq in E0.
    apply In_nth_error in I as (p & N). exists p, pl.
    assert (L : p < length (firstn (n_planes (im_format im)) ps)) by (apply nth_error_Some; congruence).
    rewrite firstn_length in L. assert (Hp : p < n_planes (im_format im)) by lia.
    rewrite nth_error_firstn in N by exact Hp. auto.
Qed.

(** Both images passed all checks. *)
Definition copies (src : image) (sps : list (slice * nat)) (dst : image) (dps : list (slice * nat)) : Prop :=
  verify_input_windows src dst = Ok tt /\ im_format src = im_format dst /\ ready src sps /\ ready dst dps.

Lemma copies_width : forall src sps dst dps, copies src sps dst dps ->
  im_width src = im_width dst /\ im_height src = im_height dst /\ im_width src mod 2 = 0 /\ im_height src mod 2 = 0.
Proof. intros src sps dst dps (V & _). exact (verify_inv _ _ V). Qed.

Lemma copies_job : forall src sps dst dps p j, copies src sps dst dps ->
  nth_error (copy_jobs (im_format src) sps dps) p = Some j ->
  p < n_planes (im_format src) /\ exists d sp dp, j = (d, (sp, dp)) /\ nth_error sps p = Some sp /\ nth_error dps p = Some dp /\
    opn (width_op d) (im_width src) * bpp d = row_bytes (im_format src) p (im_width src) /\
    1 <= bpp d /\ usize (opn (width_op d) (im_width src) * bpp d) /\
    opn (width_op d) (im_width src) * bpp d <= snd sp /\ opn (width_op d) (im_width src) * bpp d <= snd dp /\
    plane_fits (im_format src) (im_width src) (im_height src) p sp /\
    plane_fits (im_format src) (im_width src) (im_height src) p dp.
Proof.
  intros src sps dst dps p j C N. destruct (copies_width _ _ _ _ C) as (EW & EH & _).
  destruct C as (_ & EF & (_ & WS & LS & FS) & (_ & WD & LD & FD)).
  destruct (jobs_nth _ _ _ _ _ N) as (Hp & d & sp & dp & -> & D & NS & ND). split; [exact Hp|].
  destruct (row_bytes_d _ _ _ (im_width src) D) as [RB B1].
  pose proof (FS p sp Hp NS) as F1. pose proof Hp as Hp'. rewrite EF in Hp'. pose proof (FD p dp Hp' ND) as F2.
  rewrite <- EF, <- EW, <- EH in F2. destruct (wf_nth _ _ _ WS NS) as [_ U].
  exists d, sp, dp. rewrite RB.
  repeat split; try assumption; try apply F1; try apply F2. eapply usize_le; [apply F1|exact U].
Qed.

Lemma copy_job_outcome : forall m src sps dst dps p d sp dp, copies src sps dst dps ->
  nth_error (copy_jobs (im_format src) sps dps) p = Some (d, (sp, dp)) ->
  (0 < snd sp /\ 0 < snd dp /\
     copy_plane m (im_width src) (d, (sp, dp)) = (plane_events m (row_bytes (im_format src) p (im_width src)) sp dp, Ok tt)) \/
  ((snd sp = 0 \/ snd dp = 0) /\ copy_plane m (im_width src) (d, (sp, dp)) = ([], Panic PDivZero)).
Proof.
  intros m src sps dst dps p d sp dp C N.
  destruct (copies_job _ _ _ _ _ _ C N) as (Hp & d' & sp' & dp' & E & NS & ND & RB & B & U & L1 & L2 & _).
  injection E as <- <- <-.
  destruct (Nat.eq_dec (snd sp) 0) as [Z|Z1]; [right; split; [auto|apply copy_plane_zero; auto]|].
  destruct (Nat.eq_dec (snd dp) 0) as [Z|Z2]; [right; split; [auto|apply copy_plane_zero; auto]|].
  left. split; [lia|]. split; [lia|]. rewrite <- RB. apply copy_plane_ok; auto; lia.
Qed.

Lemma copies_result : forall m src sps dst dps, copies src sps dst dps ->
  snd (copy m src dst) = if zero_stride src || zero_stride dst then Panic PDivZero else Ok tt.
Proof.
  intros m src sps dst dps C. pose proof C as (V & EF & RS & RD).
  destruct (zero_stride_spec src sps (proj1 RS)) as [S1 S2]. destruct (zero_stride_spec dst dps (proj1 RD)) as [D1 D2].
  destruct (zero_stride src || zero_stride dst) eqn:Z.
  - rewrite (copy_starts m src sps dst dps V EF RS RD). apply run_all_panic.
    + apply Forall_forall. intros o I. apply in_map_iff in I as ([d [sp dp]] & <- & I). apply In_nth_error in I as (p & N).
      destruct (copy_job_outcome m _ _ _ _ _ _ _ _ C N) as [(_ & _ & ->)|(_ & ->)]; auto.
    + assert (X : exists p sp dp, p < n_planes (im_format src) /\ nth_error sps p = Some sp /\ nth_error dps p = Some dp /\
                    (snd sp = 0 \/ snd dp = 0)).
      { destruct RS as (_ & _ & LS & _), RD as (_ & _ & LD & _). rewrite <- EF in LD, D2. apply orb_true_iff in Z as [Z|Z].
        - destruct (S2 Z) as (p & pl & Hp & N & E0). destruct (nth_error dps p) as [dp|] eqn:ND; [exists p, pl, dp; auto|].
          apply nth_error_None in ND. lia.
        - destruct (D2 Z) as (p & pl & Hp & N & E0). destruct (nth_error sps p) as [sp|] eqn:NS; [exists p, sp, pl; auto|].
          apply nth_error_None in NS. lia. }
      destruct X as (p & sp & dp & Hp & NS & ND & Z0). destruct (jobs_get _ _ _ _ _ _ Hp NS ND) as (d & D & NJ).
      apply Exists_exists. eexists. split; [apply in_map, (nth_error_In _ _ NJ)|].
      destruct (copy_job_outcome m _ _ _ _ _ _ _ _ C NJ) as [(A & B & _)|(_ & ->)]; [lia|reflexivity].
  - apply orb_false_iff in Z as [Z1 Z2]. rewrite (copy_is m src sps dst dps); auto. apply (copies_width _ _ _ _ C).
Qed.

Lemma copies_events : forall m src sps dst dps e, copies src sps dst dps -> In e (fst (copy m src dst)) ->
  In e (copy_events m (im_width src) (im_format src) sps dps).
Proof.
  intros m src sps dst dps e C I. pose proof C as (V & EF & RS & RD). rewrite (copy_starts m src sps dst dps V EF RS RD) in I.
  apply run_all_events in I as (o & I & J). apply in_map_iff in I as ([d [sp dp]] & <- & I). apply In_nth_error in I as (p & N).
  pose proof (copies_job _ _ _ _ _ _ C N) as (Hp & d' & sp' & dp' & E & NS & ND & _). injection E as <- <- <-.
  destruct (copy_job_outcome m _ _ _ _ _ _ _ _ C N) as [(_ & _ & E)|(_ & E)]; rewrite E in J; cbn [fst] in J; [|destruct J].
  unfold plane_events in J. apply in_map_iff in J as (r & <- & J). apply in_seq in J.
  apply in_copy_events. exists p, sp, dp, r. repeat split; auto; lia.
Qed.

Lemma odd_mod2 : forall n, Nat.odd n = (n mod 2 =? 1).
Proof.
  intros n. destruct (Nat.odd n) eqn:O.
  - symmetry. apply Nat.eqb_eq. apply Nat.odd_spec in O as [k ->]. rewrite Nat.mul_comm, Nat.add_comm, Nat.mod_add by lia. reflexivity.
  - symmetry. apply Nat.eqb_neq. intros E. assert (Nat.odd n = true); [|congruence]. apply Nat.odd_spec. exists (n / 2).
    pose proof (Nat.div_mod n 2 ltac:(lia)). lia.
Qed.

(** Everything stops with the result of the table and without a store, or both
    images are copied. *)
Lemma copy_cases : forall m src dst,
  (forall ps, im_planes src = Ok ps -> wf_planes ps) -> (forall ps, im_planes dst = Ok ps -> wf_planes ps) ->
  (copy m src dst = ([], copy_result src dst) /\ copy_result src dst <> Ok tt) \/
  (exists sps dps, copies src sps dst dps /\ snd (copy m src dst) = copy_result src dst).
Proof.
  intros m src dst WS WD. unfold copy_result. rewrite !odd_mod2.
  destruct (Nat.eqb_spec (im_width src) (im_width dst)) as [EW|NW];
    [|left; split; [|discriminate]; unfold copy, verify_input_windows; rewrite (proj2 (Nat.eqb_neq _ _) NW); reflexivity].
  destruct (Nat.eqb_spec (im_height src) (im_height dst)) as [EH|NH];
    [|left; split; [|discriminate]; unfold copy, verify_input_windows; rewrite (proj2 (Nat.eqb_neq _ _) NH), orb_true_r; reflexivity].
  cbn [andb negb].
  destruct ((im_width src mod 2 =? 1) || (im_height src mod 2 =? 1)) eqn:O;
    [left; split; [|discriminate]; unfold copy, verify_input_windows; rewrite EW, EH, !Nat.eqb_refl, <- EW, <- EH, O; reflexivity|].
  assert (V : verify_input_windows src dst = Ok tt).
  { unfold verify_input_windows. rewrite EW, EH, !Nat.eqb_refl, <- EW, <- EH, O. reflexivity. }
  destruct (pixel_format_eqb (im_format src) (im_format dst)) eqn:F; cbn [negb];
    [|left; split; [|discriminate]; unfold copy; rewrite V, F; reflexivity].
  destruct (image_bounds_check src) as [[]| | |] eqn:B1;
    try (left; split; [|discriminate]; unfold copy; rewrite V, F; cbn [bind]; rewrite B1; reflexivity).
  destruct (image_bounds_check dst) as [[]| | |] eqn:B2;
    try (left; split; [|discriminate]; unfold copy; rewrite V, F; cbn [bind]; rewrite B1, B2; reflexivity).
  right. destruct (image_bounds_check_inv src B1) as (sps & E1 & F1). destruct (image_bounds_check_inv dst B2) as (dps & E2 & F2).
  exists sps, dps. assert (C : copies src sps dst dps).
  { split; [exact V|]. split; [apply pixel_format_eqb_eq, F|]. split; (split; [assumption|]); auto. }
  split; [exact C|]. apply (copies_result m _ _ _ _ C).
Qed.

(** * Samples of a format and its components *)

Lemma layout_unlayout : forall f p r c w h, p < n_planes f -> r < plane_rows f p h -> c < plane_cols f p w ->
  let '(k, x, y) := unlayout f p r c in layout f k x y = Some (p, r, c) /\ has_comp f k = true /\ x < w /\ y < h.
Proof.
  intros f p r c w h Hp Hr Hc.
  pose proof (Nat.div_mod w 2 ltac:(lia)) as DW. pose proof (Nat.div_mod h 2 ltac:(lia)) as DH.
  assert (H2 : forall a, 2 * a / 2 = a) by (intros a; rewrite Nat.mul_comm; apply Nat.div_mul; lia).
  assert (EV : forall a, (Nat.even a = true /\ a = 2 * (a / 2)) \/ (Nat.even a = false /\ a = 2 * (a / 2) + 1)).
  { intros a. pose proof (Nat.div_mod a 2 ltac:(lia)). destruct (Nat.even a) eqn:E; [left|right]; (split; [reflexivity|]).
    - apply Nat.even_spec in E as [k ->]. rewrite H2. reflexivity.
    - assert (O : Nat.odd a = true) by (unfold Nat.odd; rewrite E; reflexivity). apply Nat.odd_spec in O as [k ->].
      rewrite (Nat.add_comm (2 * k)), (Nat.mul_comm 2 k), Nat.div_add by lia. change (1 / 2) with 0. lia. }
  destruct f; cbn in Hp; cbn [plane_rows plane_cols] in Hr, Hc;
    (destruct p as [|[|[|p]]]; [..|lia]); try lia; cbn [Nat.eqb] in Hr, Hc; cbn [unlayout];
    try (cbn [layout has_comp sampling_of]; rewrite ?H2; repeat split; (reflexivity || lia)).
  - destruct (EV c) as [[-> E]|[-> E]]; cbn [layout has_comp sampling_of]; rewrite !H2; repeat split; try lia; rewrite <- E; reflexivity.
  - destruct (EV c) as [[-> E]|[-> E]]; cbn [layout has_comp sampling_of].
    + repeat split; try lia. rewrite <- E. reflexivity.
    + assert (E4 : c / 4 = c / 2 / 2) by (rewrite Nat.div_div by lia; reflexivity). rewrite E4.
      destruct (EV (c / 2)) as [[-> E']|[-> E']]; cbn [layout has_comp sampling_of]; rewrite !H2;
        repeat split; try lia; do 2 f_equal; lia.
  - pose proof (Nat.div_mod c 4 ltac:(lia)) as E. pose proof (Nat.mod_upper_bound c 4 ltac:(lia)) as U.
    destruct (c mod 4) as [|[|[|[|n]]]]; [..|lia]; cbn [layout has_comp sampling_of]; repeat split; try lia; do 2 f_equal; lia.
  - pose proof (Nat.div_mod c 4 ltac:(lia)) as E. pose proof (Nat.mod_upper_bound c 4 ltac:(lia)) as U.
    destruct (c mod 4) as [|[|[|[|n]]]]; [..|lia]; cbn [layout has_comp sampling_of]; repeat split; try lia; do 2 f_equal; lia.
  - pose proof (Nat.div_mod c 3 ltac:(lia)) as E. pose proof (Nat.mod_upper_bound c 3 ltac:(lia)) as U.
    destruct (c mod 3) as [|[|[|n]]]; [..|lia]; cbn [layout has_comp sampling_of]; repeat split; try lia; do 2 f_equal; lia.
  - pose proof (Nat.div_mod c 3 ltac:(lia)) as E. pose proof (Nat.mod_upper_bound c 3 ltac:(lia)) as U.
    destruct (c mod 3) as [|[|[|n]]]; [..|lia]; cbn [layout has_comp sampling_of]; repeat split; try lia; do 2 f_equal; lia.
Qed.
