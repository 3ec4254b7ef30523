(** Lemmas about plane inference, image construction and cropping. *)

From Coq Require Import List ZArith Bool Arith Lia.
From Verif Require Import Base Types Planes ImageM Crop SpecGeom GeomProofs.
Import ListNotations.

Ltac usz := match goal with
  | |- usize _ => eapply usize_le; [|eassumption]; nia
  end.

(** ** buffer_size and packed_strides *)


Lemma buffer_size_inv : forall E f w h n, @buffer_size E f w h = Ok n ->
  n = tight_size f w h /\ usize n.
Proof.
  intros E f w h n H.
  assert (X: n = tight_size f w h /\ (usize n)).
  { destruct f; unfold buffer_size, tight_size, total, row_bytes in *; cbn -[strict_mul strict_add Nat.mul] in *;
    repeat match goal with
    | H : context [@strict_mul ?E ?a ?b] |- _ =>
        destruct (strict_mul_cases E a b) as [[Q ?]|[Q ?]]; rewrite Q in H; clear Q; cbn -[strict_mul strict_add Nat.mul] in H; [|discriminate H]
    | H : context [@strict_add ?E ?a ?b] |- _ =>
        destruct (strict_add_cases E a b) as [[Q ?]|[Q ?]]; rewrite Q in H; clear Q; cbn -[strict_mul strict_add Nat.mul] in H; [|discriminate H]
    end; injection H as <-; (split; [nia|assumption]). }
  exact X.
Qed.

Lemma buffer_size_total : forall E f w h, h <> 0 -> usize (tight_size f w h) ->
  @buffer_size E f w h = Ok (tight_size f w h).
Proof.
  intros E f w h Hh U. 
  destruct f; unfold buffer_size, tight_size, total, row_bytes in *; cbn -[strict_mul strict_add Nat.mul] in *;
    repeat (first [rewrite strict_mul_ok by usz | rewrite strict_add_ok by usz]; cbn -[strict_mul strict_add Nat.mul]);
    f_equal; nia.
Qed.

Lemma buffer_size_shape : forall E f w h,
  (exists n, @buffer_size E f w h = Ok n) \/ @buffer_size E f w h = Panic POverflow.
Proof.
  intros E f w h.
  destruct f; unfold buffer_size; cbn -[strict_mul strict_add Nat.mul];
  repeat match goal with
    | |- context [@strict_mul ?E ?a ?b] =>
        destruct (strict_mul_cases E a b) as [[Q ?]|[Q ?]]; rewrite Q; clear Q; cbn -[strict_mul strict_add Nat.mul]; [|right; reflexivity]
    | |- context [@strict_add ?E ?a ?b] =>
        destruct (strict_add_cases E a b) as [[Q ?]|[Q ?]]; rewrite Q; clear Q; cbn -[strict_mul strict_add Nat.mul]; [|right; reflexivity]
    end; left; eauto.
Qed.

Lemma packed_strides_inv : forall E f w l, @packed_strides E f w = Ok l -> l = tight_strides f w /\ Forall usize l.
Proof.
  intros E f w l H.
  destruct f; unfold packed_strides, tight_strides, row_bytes in *; cbn -[packed_stride Nat.mul] in *;
  repeat match goal with
    | H : context [@packed_stride ?E ?d ?w] |- _ =>
        destruct (packed_stride_cases E d w) as [[Q ?]|[Q ?]]; rewrite Q in H; clear Q; cbn -[packed_stride Nat.mul] in H; [|discriminate H]
    end; injection H as <-; (split; [reflexivity|repeat constructor; assumption]).
Qed.

Lemma packed_strides_ok : forall E f w, (forall p, p < n_planes f -> usize (row_bytes f p w)) ->
  @packed_strides E f w = Ok (tight_strides f w).
Proof.
  intros E f w H.
  assert (G : forall p d, nth_error (plane_descs f) p = Some d -> @packed_stride E d w = Ok (row_bytes f p w)).
  { intros p d Hd. destruct (desc_spec _ _ _ Hd) as (Hp & Hw & _ & Hb & Hb1 & _).
    unfold row_bytes. rewrite <- Hw, <- Hb. apply packed_stride_ok; auto. rewrite Hw, Hb. apply H; auto. }
  unfold packed_strides, tight_strides.
  destruct f; cbn -[packed_stride row_bytes] in *;
  (rewrite (G 0 _ eq_refl); cbn -[packed_stride row_bytes];
   try (rewrite (G 1 _ eq_refl); cbn -[packed_stride row_bytes]);
   try (rewrite (G 2 _ eq_refl); cbn -[packed_stride row_bytes]); reflexivity).
Qed.

Lemma packed_strides_shape : forall E f w,
  (@packed_strides E f w = Ok (tight_strides f w)) \/ @packed_strides E f w = Panic POverflow.
Proof.
  intros E f w.
  assert ((exists l, @packed_strides E f w = Ok l) \/ @packed_strides E f w = Panic POverflow).
  { destruct f; unfold packed_strides; cbn -[packed_stride Nat.mul];
    repeat match goal with
      | |- context [@packed_stride ?E ?d ?w] =>
          destruct (packed_stride_cases E d w) as [[Q ?]|[Q ?]]; rewrite Q; clear Q; cbn -[packed_stride Nat.mul]; [|right; reflexivity]
      end; left; eauto. }
  destruct H as [[l H]|H]; auto. left. rewrite H. f_equal. eapply proj1, packed_strides_inv; eauto.
Qed.

Lemma tight_strides_length : forall f w, length (tight_strides f w) = n_planes f.
Proof. intros. unfold tight_strides. rewrite map_length, seq_length. auto. Qed.

(** ** infer *)

Definition sizes_d (descs : list plane_desc) (strides : list nat) (h : nat) : list nat :=
  map (fun ds => snd ds * opn (height_op (fst ds)) h) (combine descs strides).

Lemma infer_loop_spec : forall descs strides b off len h,
  Forall (fun d => mulfree (height_op d)) descs -> usize len ->
  (total (sizes_d descs strides h) <= len /\
     infer_loop descs strides (Slice b off len) h = Ok (consecutive b off (sizes_d descs strides h))) \/
  (len < total (sizes_d descs strides h) /\
     exists q, infer_loop descs strides (Slice b off len) h = Panic q /\ (q = POverflow \/ q = PSplitAt)).
Proof.
  induction descs as [|d descs IH]; intros strides b off len h HF HU.
  { left. simpl. split; [lia|reflexivity]. }
  destruct strides as [|st strides].
  { left. simpl. split; [lia|reflexivity]. }
  inversion HF as [|? ? Hm HF']; subst.
  cbn [infer_loop]. rewrite op_apply_mulfree by auto. cbn [bind].
  change (sizes_d (d :: descs) (st :: strides) h) with (st * opn (height_op d) h :: sizes_d descs strides h).
  cbn [consecutive].
  assert (TC : forall a l, total (a :: l) = a + total l) by reflexivity. rewrite !TC.
  rewrite (Nat.mul_comm st).
  destruct (strict_mul_cases noerr (opn (height_op d) h) st) as [[Q U]|[Q U]]; rewrite Q; cbn [bind].
  2:{ right. split; [|eauto]. 
      destruct (le_lt_dec (opn (height_op d) h * st) len); [|lia].
      exfalso; apply U. eapply usize_le; eauto. }
  unfold split_at. cbn [s_len s_buf s_off].
  destruct (Nat.leb_spec (opn (height_op d) h * st) len); cbn [bind].
  2:{ right. split; [lia|eauto]. }
  destruct (IH strides b (off + opn (height_op d) h * st) (len - opn (height_op d) h * st) h HF') as [[A B]|[A [q [B C]]]].
  { eapply usize_le; [|exact HU]; lia. }
  - left. split; [lia|]. rewrite B. reflexivity.
  - right. split; [lia|]. exists q. rewrite B. split; auto.
Qed.

Lemma plane_sizes_d : forall f strides h, length strides = n_planes f ->
  sizes_d (plane_descs f) strides h = plane_sizes f strides h.
Proof.
  intros f strides h H. unfold plane_sizes, sizes_d.
  destruct f; simpl in H;
  repeat (destruct strides as [|? strides]; simpl in H; try discriminate H); reflexivity.
Qed.

(** The planes [infer] finds, in closed form. *)
Definition inferred (f : pixel_format) (buf : slice) (h : nat) (strides : list nat) : list slice :=
  if n_planes f =? 1 then [buf]
  else consecutive (s_buf buf) (s_off buf) (plane_sizes f strides h).

Lemma infer_spec : forall f buf w h strides, usize (s_len buf) ->
  if n_planes f =? 1 then infer f buf w h (Some strides) = Ok [buf]
  else if (length strides =? n_planes f) && (total (plane_sizes f strides h) <=? s_len buf)
  then infer f buf w h (Some strides) = Ok (consecutive (s_buf buf) (s_off buf) (plane_sizes f strides h))
  else exists q, infer f buf w h (Some strides) = Panic q.
Proof.
  intros f [b off len] w h strides HU. cbn [s_buf s_off s_len] in *.
  destruct (n_planes f =? 1) eqn:En.
  { destruct f; try discriminate; reflexivity. }
  assert (EQ : infer f (Slice b off len) w h (Some strides) = infer_impl (plane_descs f) (Slice b off len) w h (Some strides)).
  { destruct f; try discriminate; reflexivity. }
  rewrite EQ. unfold infer_impl. rewrite n_planes_descs.
  destruct (Nat.eqb_spec (length strides) (n_planes f)) as [EL|EL]; cbn [andb bind].
  2:{ exists PUnwrap. reflexivity. }
  destruct (infer_loop_spec (plane_descs f) strides b off len h (descs_mulfree f) HU) as [[A B]|[A [q [B C]]]];
  rewrite (plane_sizes_d f strides h EL) in *.
  - destruct (Nat.leb_spec (total (plane_sizes f strides h)) len); [exact B|lia].
  - destruct (Nat.leb_spec (total (plane_sizes f strides h)) len); [lia|]. exists q. exact B.
Qed.

Lemma infer_none : forall f buf w h, n_planes f <> 1 ->
  infer f buf w h None =
  bind (packed_strides f w) (fun st => infer f buf w h (Some st)).
Proof.
  intros f buf w h Hn.
  assert (EQ : forall o, infer f buf w h o = infer_impl (plane_descs f) buf w h o).
  { intros. destruct f; try (exfalso; apply Hn; reflexivity); reflexivity. }
  rewrite !EQ. unfold infer_impl at 1.
  change (mapM (fun d => packed_stride d w) (plane_descs f)) with (@packed_strides noerr f w).
  destruct (packed_strides f w) as [st|[]| |] eqn:E; try reflexivity.
  cbn [bind]. rewrite ?EQ. unfold infer_impl. apply packed_strides_inv in E as [-> _].
  rewrite tight_strides_length, n_planes_descs, Nat.eqb_refl. reflexivity.
Qed.

Lemma consecutive_nth : forall sizes b off p,
  p < length sizes ->
  nth_error (consecutive b off sizes) p = Some (Slice b (off + total (firstn p sizes)) (nth p sizes 0)).
Proof.
  induction sizes as [|n sizes IH]; intros b off p Hp; simpl in *; [lia|].
  destruct p as [|p]; simpl.
  - rewrite Nat.add_0_r. reflexivity.
  - rewrite IH by lia. do 2 f_equal. lia.
Qed.

Lemma consecutive_length : forall sizes b off, length (consecutive b off sizes) = length sizes.
Proof. induction sizes; simpl; auto. Qed.

Lemma total_firstn_S : forall l p, total (firstn p l) + nth p l 0 <= total l /\
  (p < length l -> total (firstn (S p) l) = total (firstn p l) + nth p l 0).
Proof.
  induction l as [|a l IH]; intros p; [destruct p; simpl; lia|].
  destruct p; [simpl; lia|]. specialize (IH p). destruct IH as [A B]. cbn [firstn total fold_right nth length] in *.
  unfold total in *. split; [lia|]. intros. rewrite B by lia. simpl. lia.
Qed.

Lemma total_firstn_mono : forall l p q, p <= q -> total (firstn p l) <= total (firstn q l).
Proof.
  intros l p q H. induction H as [|q H IH]; auto.
  destruct (le_lt_dec (length l) q).
  - rewrite !(firstn_all2 (n:=q)), (firstn_all2 (n:=S q)) in * by lia. auto.
  - destruct (total_firstn_S l q) as [_ B]. rewrite B by auto. lia.
Qed.

Lemma consecutive_disjoint : forall sizes b off p q a c, p <> q ->
  nth_error (consecutive b off sizes) p = Some a -> nth_error (consecutive b off sizes) q = Some c ->
  disjoint_slices a c.
Proof.
  assert (W : forall sizes b off p q a c, p < q ->
    nth_error (consecutive b off sizes) p = Some a -> nth_error (consecutive b off sizes) q = Some c ->
    disjoint_slices a c).
  { intros sizes b off p q a c Hpq Ha Hc.
    assert (q < length sizes).
    { rewrite <- (consecutive_length sizes b off). apply nth_error_Some. congruence. }
    rewrite consecutive_nth in Ha, Hc by lia. injection Ha as <-. injection Hc as <-.
    intros i (_ & Hi & Hj). simpl in *.
    destruct (total_firstn_S sizes p) as [_ B]. specialize (B ltac:(lia)).
    pose proof (total_firstn_mono sizes (S p) q ltac:(lia)). lia. }
  intros. destruct (le_lt_dec p q).
  - eapply (W sizes b off p q); eauto. lia.
  - intros i Hi. apply (W sizes b off q p c a l H1 H0 i). intuition auto.
Qed.

Lemma nth_map_seq : forall A (g : nat -> A) n p d, p < n -> nth p (map g (seq 0 n)) d = g p.
Proof.
  intros. rewrite (nth_indep _ d (g 0)) by (rewrite map_length, seq_length; auto).
  rewrite map_nth, seq_nth by auto. reflexivity.
Qed.

Lemma plane_sizes_nth : forall f strides h p, p < n_planes f ->
  nth p (plane_sizes f strides h) 0 = nth p strides 0 * plane_rows f p h.
Proof.
  intros. unfold plane_sizes. apply (nth_map_seq _ (fun p => nth p strides 0 * plane_rows f p h)). auto.
Qed.

Lemma plane_sizes_length : forall f strides h, length (plane_sizes f strides h) = n_planes f.
Proof. intros. unfold plane_sizes. rewrite map_length, seq_length. auto. Qed.

Lemma tight_size_total : forall f w h, tight_size f w h = total (plane_sizes f (tight_strides f w) h).
Proof.
  intros. unfold tight_size, plane_sizes. f_equal. apply map_ext_in. intros p Hp.
  apply in_seq in Hp. f_equal. unfold tight_strides.
  rewrite (nth_map_seq _ (fun p => row_bytes f p w)) by lia. reflexivity.
Qed.

Lemma nth_tight_strides : forall f w p, p < n_planes f -> nth p (tight_strides f w) 0 = row_bytes f p w.
Proof.
  intros. unfold tight_strides. apply (nth_map_seq _ (fun p => row_bytes f p w)). auto.
Qed.

Lemma nth_error_combine : forall A B (la : list A) (lb : list B) p x y,
  nth_error (combine la lb) p = Some (x, y) <-> nth_error la p = Some x /\ nth_error lb p = Some y.
Proof.
  induction la as [|a la IH]; intros lb p x y.
  - simpl. destruct p; split; intros H; try discriminate; destruct H; discriminate.
  - destruct lb as [|b lb].
    + simpl. destruct p; split; intros H; try discriminate; destruct H; discriminate.
    + destruct p; simpl.
      * split; [intros H; injection H as <- <-; auto|intros [H1 H2]; congruence].
      * apply IH.
Qed.

(** ** Image construction *)

Lemma image_new_ok_inv : forall f b strides w h c im,
  image_new f b strides w h c = Ok im ->
  w <> 0 /\ h <> 0 /\
  (exists st, (match strides with Some s => Ok s | None => @packed_strides image_error f w end) = Ok st /\
     im = OwnedImage f b st w h c) /\
  image_bounds_check (image_of im) = Ok tt.
Proof.
  intros f b strides w h c im H. unfold image_new in H.
  destruct (Nat.eqb_spec w 0); simpl in H; [discriminate|].
  destruct (Nat.eqb_spec h 0); simpl in H; [discriminate|].
  apply bind_ok in H as (st & E & H). apply bind_ok in H as (u & E2 & H).
  injection H as <-. repeat split; auto.
  - eauto.
  - destruct (image_bounds_check _) as [[]| | |]; simpl in E2; try discriminate. reflexivity.
Qed.

Lemma image_bounds_check_inv : forall im, image_bounds_check im = Ok tt ->
  exists ps, im_planes im = Ok ps /\ planes_fit (im_format im) ps (im_width im) (im_height im).
Proof.
  intros im H. unfold image_bounds_check in H. apply bind_ok in H as (ps & E & H).
  destruct (im_planes im) as [q|[]| |]; simpl in E; try discriminate. injection E as <-.
  exists q. split; auto. apply bounds_check_sound; auto.
Qed.

Lemma image_bounds_check_complete : forall im ps, im_planes im = Ok ps -> wf_planes ps ->
  planes_fit (im_format im) ps (im_width im) (im_height im) -> image_bounds_check im = Ok tt.
Proof.
  intros im ps E W F. unfold image_bounds_check. rewrite E. simpl. apply bounds_check_complete; auto.
Qed.

(** Planes of a whole-buffer image with strides [st]. *)
Lemma whole_planes_fit : forall f buf st w h,
  usize (s_len buf) -> length st = n_planes f -> Forall usize st ->
  (forall p, p < n_planes f -> row_bytes f p w <= nth p st 0) ->
  total (plane_sizes f st h) <= s_len buf ->
  exists ps, infer f buf w h (Some st) = Ok ps /\ ps = inferred f buf h st /\
    wf_planes (combine ps st) /\ planes_fit f (combine ps st) w h.
Proof.
  intros f buf st w h HU HL HS HR HT.
  exists (inferred f buf h st).
  pose proof (infer_spec f buf w h st HU) as S. unfold inferred.
  assert (EI : infer f buf w h (Some st) = Ok (inferred f buf h st)).
  { unfold inferred. destruct (n_planes f =? 1); auto.
    rewrite HL, Nat.eqb_refl in S. destruct (Nat.leb_spec (total (plane_sizes f st h)) (s_len buf)); [exact S|lia]. }
  split; [exact EI|]. split; [reflexivity|]. fold (inferred f buf h st).
  assert (LEN : length (inferred f buf h st) = n_planes f).
  { unfold inferred. destruct (Nat.eqb_spec (n_planes f) 1); auto.
    rewrite consecutive_length, plane_sizes_length; auto. }
  assert (NTH : forall p s stp, nth_error (combine (inferred f buf h st) st) p = Some (s, stp) ->
     p < n_planes f /\ stp = nth p st 0 /\ stp * plane_rows f p h <= s_len s /\ s_len s <= s_len buf).
  { intros p s stp H. apply nth_error_combine in H as [H1 H2].
    assert (p < n_planes f) by (rewrite <- LEN; apply nth_error_Some; congruence).
    assert (stp = nth p st 0) by (symmetry; apply nth_error_nth; auto).
    split; auto. split; auto. unfold inferred in H1.
    destruct (Nat.eqb_spec (n_planes f) 1) as [e|].
    - assert (p = 0) by lia. subst p. simpl in H1. injection H1 as <-.
      split; [|lia]. unfold plane_sizes in HT. rewrite e in HT. simpl in HT. subst stp. lia.
    - rewrite consecutive_nth in H1 by (rewrite plane_sizes_length; auto). injection H1 as <-. simpl.
      destruct (total_firstn_S (plane_sizes f st h) p) as [X _].
      rewrite plane_sizes_nth in X |- * by auto. subst stp. lia. }
  split.
  - unfold wf_planes. rewrite Forall_forall. intros [s stp] Hin.
    apply In_nth_error in Hin as [p Hp]. simpl. destruct (NTH _ _ _ Hp) as (A & B & C & D).
    split; [eapply usize_le; eauto|].
    rewrite Forall_forall in HS. apply HS. subst. apply nth_In. lia.
  - split.
    + rewrite combine_length, LEN, HL. lia.
    + intros p [s stp] Hp H. destruct (NTH _ _ _ H) as (A & B & C & D).
      split; simpl; [subst; auto|auto].
Qed.
