(** Lemmas behind the geometry properties. *)

From Coq Require Import List ZArith Bool Arith Lia.
From Verif Require Import Base Types Planes ImageM Crop SpecGeom GeomProofs GeomProofs2.
Import ListNotations.

Lemma tight_fits : forall f w h p, h <> 0 -> p < n_planes f -> usize (tight_size f w h) ->
  usize (row_bytes f p w).
Proof.
  intros f w h p Hh Hp U. eapply usize_le; [|exact U].
  assert (w / 2 <= w) by (apply Nat.div_le_upper_bound; lia).
  destruct f; simpl in Hp; unfold tight_size, total, row_bytes in *; cbn [n_planes seq map fold_right] in *;
  (destruct p as [|[|[|p]]]; [| | |lia]; try lia); cbn [plane_cols plane_rows sample_bytes Nat.eqb] in *; nia.
Qed.

Lemma lift_ok : forall E A (r : res noerr A) a, @lift E A r = Ok a <-> r = Ok a.
Proof. intros. destruct r as [|[]| |]; simpl; split; intros H; congruence. Qed.

Lemma plane_size_le : forall f st h p, p < n_planes f ->
  nth p st 0 * plane_rows f p h <= total (plane_sizes f st h).
Proof.
  intros. rewrite <- (plane_sizes_nth f st h p) by auto.
  destruct (total_firstn_S (plane_sizes f st h) p). lia.
Qed.

Lemma from_buffer_large : forall f buf w h c, w <> 0 -> h <> 0 -> usize (s_len buf) ->
  tight_size f w h <= s_len buf ->
  from_buffer f buf None w h c = Ok (OwnedImage f (Whole buf) (tight_strides f w) w h c) /\
  owned_planes (OwnedImage f (Whole buf) (tight_strides f w) w h c) =
    Ok (combine (inferred f buf h (tight_strides f w)) (tight_strides f w)).
Proof.
  intros f buf w h c Hw Hh HU HT.
  assert (U : usize (tight_size f w h)) by (eapply usize_le; eauto).
  assert (UR : forall p, p < n_planes f -> usize (row_bytes f p w)) by (intros; eapply tight_fits; eauto).
  destruct (whole_planes_fit f buf (tight_strides f w) w h) as (ps & E & -> & W & F); auto.
  - apply tight_strides_length.
  - apply Forall_forall. intros x Hx. unfold tight_strides in Hx. apply in_map_iff in Hx as (p & <- & Hp).
    apply in_seq in Hp. apply UR. lia.
  - intros. rewrite nth_tight_strides; auto.
  - rewrite <- tight_size_total; auto.
  - assert (OP : owned_planes (OwnedImage f (Whole buf) (tight_strides f w) w h c) =
      Ok (combine (inferred f buf h (tight_strides f w)) (tight_strides f w))).
    { unfold owned_planes. cbn [oi_buffer oi_format oi_width oi_height oi_strides]. rewrite E. reflexivity. }
    split; auto. unfold from_buffer, image_new.
    destruct (Nat.eqb_spec w 0); [tauto|]. destruct (Nat.eqb_spec h 0); [tauto|]. cbn [orb].
    rewrite packed_strides_ok by auto. cbn [bind].
    rewrite (image_bounds_check_complete (image_of (OwnedImage f (Whole buf) (tight_strides f w) w h c)) _ OP W F). reflexivity.
Qed.

Lemma from_buffer_small : forall f buf w h c, usize (s_len buf) ->
  s_len buf < tight_size f w h -> forall im, from_buffer f buf None w h c <> Ok im.
Proof.
  intros f buf w h c HU HT im H. apply image_new_ok_inv in H as (Hw & Hh & (st & E & ->) & B).
  apply packed_strides_inv in E as [-> US].
  apply image_bounds_check_inv in B as (ps & E & F). cbn [image_of im_planes im_format im_width im_height oi_format oi_width oi_height oi_strides] in *.
  unfold owned_planes in E. cbn [oi_buffer oi_format oi_width oi_height oi_strides] in E.
  apply bind_ok in E as (sl & E & E2). injection E2 as <-.
  pose proof (infer_spec f buf w h (tight_strides f w) HU) as S. rewrite E in S.
  destruct (Nat.eqb_spec (n_planes f) 1) as [e|].
  - injection S as ->. destruct F as [_ F].
    assert (N : nth_error (combine [buf] (tight_strides f w)) 0 = Some (buf, row_bytes f 0 w)).
    { apply nth_error_combine. split; auto. unfold tight_strides. rewrite e. reflexivity. }
    destruct (F 0 _ ltac:(lia) N) as [_ X]. simpl in X.
    unfold tight_size in HT. rewrite e in HT. cbn [seq map total fold_right] in HT. lia.
  - rewrite tight_strides_length, Nat.eqb_refl in S. cbn [andb] in S.
    rewrite <- tight_size_total in S.
    destruct (Nat.leb_spec (tight_size f w h) (s_len buf)); [lia|].
    destruct S as [q S]. discriminate.
Qed.

Lemma from_buffer_default_iff : forall f buf w h c, w <> 0 -> h <> 0 -> usize (s_len buf) ->
  (tight_size f w h <= s_len buf <-> exists im, from_buffer f buf None w h c = Ok im).
Proof.
  intros. split.
  - intros. eexists. eapply proj1, from_buffer_large; eauto.
  - intros [im E]. destruct (le_lt_dec (tight_size f w h) (s_len buf)); auto.
    exfalso. eapply from_buffer_small; eauto.
Qed.

Lemma inferred_nth : forall f buf h st p, length st = n_planes f -> p < n_planes f ->
  exists s, nth_error (inferred f buf h st) p = Some s /\ s_buf s = s_buf buf /\
   (n_planes f <> 1 -> s_off s = s_off buf + total (firstn p (plane_sizes f st h)) /\
      s_len s = nth p st 0 * plane_rows f p h) /\ (n_planes f = 1 -> s = buf).
Proof.
  intros f buf h st p HL Hp. unfold inferred.
  destruct (Nat.eqb_spec (n_planes f) 1) as [e|].
  - exists buf. assert (p = 0) by lia. subst. repeat split; auto; intros; lia.
  - rewrite consecutive_nth by (rewrite plane_sizes_length; auto).
    eexists. split; [reflexivity|]. cbn [s_buf s_off s_len]. rewrite plane_sizes_nth by auto.
    repeat split; auto. tauto.
Qed.


Lemma consecutive_cover : forall sizes b off i,
  off <= i < off + total sizes ->
  exists p s, nth_error (consecutive b off sizes) p = Some s /\ in_slice s b i.
Proof.
  induction sizes as [|n sizes IH]; intros b off i H; [unfold total in H; simpl in H; lia|].
  change (total (n :: sizes)) with (n + total sizes) in H.
  destruct (lt_dec i (off + n)).
  - exists 0, (Slice b off n). split; auto. unfold in_slice; simpl. lia.
  - destruct (IH b (off + n) i ltac:(lia)) as (p & s & A & B). exists (S p), s. auto.
Qed.

Lemma consecutive_within : forall sizes b off p s, nth_error (consecutive b off sizes) p = Some s ->
  s_buf s = b /\ off <= s_off s /\ s_off s + s_len s <= off + total sizes.
Proof.
  intros sizes b off p s H.
  assert (p < length sizes). { rewrite <- (consecutive_length sizes b off). apply nth_error_Some. congruence. }
  rewrite consecutive_nth in H by auto. injection H as <-. cbn [s_buf s_off s_len].
  destruct (total_firstn_S sizes p). repeat split; lia.
Qed.


Lemma consecutive_tiles : forall sizes buf, total sizes = s_len buf ->
  tiles buf (consecutive (s_buf buf) (s_off buf) sizes).
Proof.
  intros sizes buf H. split.
  - intros b i. split.
    + intros [-> Hi]. rewrite <- H in Hi. apply consecutive_cover; auto.
    + intros (p & s & A & [-> Hi]). apply consecutive_within in A as (-> & ? & ?).
      split; auto. lia.
  - intros. eapply consecutive_disjoint; eauto.
Qed.

Lemma single_tiles : forall buf, tiles buf [buf].
Proof.
  intros. split.
  - intros b i. split.
    + intros. exists 0, buf. auto.
    + intros (p & s & A & B). destruct p as [|[|p]]; simpl in A; try discriminate. injection A as <-. auto.
  - intros [|[|p]] [|[|q]] a c H A B; simpl in *; try discriminate; lia.
Qed.

Lemma map_fst_combine : forall A B (la : list A) (lb : list B), length la = length lb ->
  map fst (combine la lb) = la.
Proof. induction la; intros [|b lb] H; simpl in *; try discriminate; auto. f_equal; auto. Qed.
Lemma map_snd_combine : forall A B (la : list A) (lb : list B), length la = length lb ->
  map snd (combine la lb) = lb.
Proof. induction la; intros [|b lb] H; simpl in *; try discriminate; auto. f_equal; auto. Qed.

Lemma inferred_length : forall f buf h st, length (inferred f buf h st) = n_planes f.
Proof.
  intros. unfold inferred. destruct (Nat.eqb_spec (n_planes f) 1); auto.
  rewrite consecutive_length, plane_sizes_length; auto.
Qed.

Lemma inferred_tiles : forall f buf h st, total (plane_sizes f st h) = s_len buf ->
  tiles buf (inferred f buf h st).
Proof.
  intros. unfold inferred. destruct (n_planes f =? 1).
  - apply single_tiles.
  - apply consecutive_tiles; auto.
Qed.

Lemma from_buffer_exact : forall f b off n w h c, w <> 0 -> h <> 0 ->
  @buffer_size noerr f w h = Ok n ->
  exists im ps, from_buffer f (Slice b off n) None w h c = Ok im /\
    im_planes (image_of im) = Ok ps /\ length ps = n_planes f /\ tiles (Slice b off n) (map fst ps).
Proof.
  intros f b off n w h c Hw Hh H. apply buffer_size_inv in H as [-> U].
  destruct (from_buffer_large f (Slice b off (tight_size f w h)) w h c) as [A B]; auto.
  do 2 eexists. split; [exact A|]. split; [exact B|]. split.
  - rewrite combine_length, inferred_length, tight_strides_length. lia.
  - rewrite map_fst_combine by (rewrite inferred_length, tight_strides_length; auto).
    apply inferred_tiles. rewrite <- tight_size_total. reflexivity.
Qed.

Lemma buffer_size_minimal : forall f w h n buf c, w <> 0 -> h <> 0 -> usize (s_len buf) ->
  @buffer_size noerr f w h = Ok n ->
  ((exists im, from_buffer f buf None w h c = Ok im) <-> n <= s_len buf).
Proof.
  intros f w h n buf c Hw Hh HU H. apply buffer_size_inv in H as [-> U].
  symmetry. apply from_buffer_default_iff; auto.
Qed.

Lemma buffer_size_panics : forall f w h, h <> 0 ->
  ((exists n, @buffer_size noerr f w h = Ok n) <-> usize (tight_size f w h)) /\
  ((exists q, @buffer_size noerr f w h = Panic q) <-> ~ usize (tight_size f w h)).
Proof.
  intros f w h Hh.
  destruct (buffer_size_shape noerr f w h) as [[n E]|E]; rewrite E.
  - apply buffer_size_inv in E as [-> U]. split; split; eauto; try tauto.
    intros [q X]; discriminate.
  - assert (~ usize (tight_size f w h)).
    { intros U. rewrite buffer_size_total in E by auto. discriminate. }
    split; split; eauto; try tauto. intros [q X]; discriminate.
Qed.

(** ** infer *)

Lemma infer_ok_iff : forall f buf w h st, usize (s_len buf) ->
  ((exists ps, infer f buf w h (Some st) = Ok ps) <->
   (n_planes f = 1 \/ (length st = n_planes f /\ total (plane_sizes f st h) <= s_len buf))) /\
  (forall ps, infer f buf w h (Some st) = Ok ps -> ps = inferred f buf h st) /\
  ((exists q, infer f buf w h (Some st) = Panic q) <->
   ~ (n_planes f = 1 \/ (length st = n_planes f /\ total (plane_sizes f st h) <= s_len buf))).
Proof.
  intros f buf w h st HU. pose proof (infer_spec f buf w h st HU) as S. unfold inferred.
  destruct (Nat.eqb_spec (n_planes f) 1).
  - rewrite S. repeat split; eauto; try tauto; try (intros [q X]; discriminate). intros; congruence.
  - destruct (Nat.eqb_spec (length st) (n_planes f)); cbn [andb] in S.
    + destruct (Nat.leb_spec (total (plane_sizes f st h)) (s_len buf)).
      * rewrite S. repeat split; eauto; try tauto; try (intros [q X]; discriminate). intros; congruence.
      * destruct S as [q S]. rewrite S. repeat split; eauto; intros; try lia; try discriminate.
        destruct H0; discriminate.
    + destruct S as [q S]. rewrite S. repeat split; eauto; intros; try lia; try discriminate.
      destruct H; discriminate.
Qed.

(** ** from_buffer with explicit strides: exact panic conditions *)

Lemma bounds_check_no_panic : forall f ps w h,
  (forall p, p < n_planes f -> usize (row_bytes f p w)) ->
  (forall p pl, p < n_planes f -> nth_error ps p = Some pl -> usize (snd pl * plane_rows f p h)) ->
  (exists e, bounds_check f ps w h = Err e) \/ bounds_check f ps w h = Ok tt.
Proof.
  intros f ps w h H1 H2. pose proof (bounds_check_shape f ps w h) as S.
  destruct (bounds_check f ps w h) as [[]| | |]; eauto; try tauto.
  destruct S as (-> & k & pl & A & B & C). exfalso. apply C. split; eauto.
Qed.

Lemma from_buffer_panic_iff : forall f buf st w h c,
  w <> 0 -> h <> 0 -> usize (s_len buf) -> Forall usize st ->
  (forall p, p < n_planes f -> usize (row_bytes f p w)) ->
  (forall p, p < n_planes f -> usize (nth p st 0 * plane_rows f p h)) ->
  ((exists q, from_buffer f buf (Some st) w h c = Panic q) <->
   n_planes f <> 1 /\ (length st <> n_planes f \/ s_len buf < total (plane_sizes f st h))).
Proof.
  intros f buf st w h c Hw Hh HU HS HR HP.
  unfold from_buffer, image_new.
  destruct (Nat.eqb_spec w 0); [tauto|]. destruct (Nat.eqb_spec h 0); [tauto|]. cbn [orb bind].
  unfold image_bounds_check, image_of. cbn [im_planes im_format im_width im_height oi_format oi_width oi_height oi_strides].
  unfold owned_planes. cbn [oi_buffer oi_format oi_width oi_height oi_strides].
  destruct (infer_ok_iff f buf w h st HU) as (A & B & C).
  destruct (infer f buf w h (Some st)) as [ps|[]|q|] eqn:E; cbn [bind lift map_err].
  - assert (OKC := proj1 A (ex_intro _ ps eq_refl)).
    destruct (bounds_check_no_panic f (combine ps st) w h) as [[e BE]|BE]; auto.
    + intros p [s stp] Hp Hn. apply nth_error_combine in Hn as [_ Hn].
      apply nth_error_nth with (d := 0) in Hn. cbn [snd]. rewrite <- Hn. auto.
    + rewrite BE. cbn [bind map_err]. split; [intros [q X]; discriminate|intros; lia].
    + rewrite BE. cbn [bind map_err]. split; [intros [q X]; discriminate|intros; lia].
  - assert (NC := proj1 C (ex_intro _ q eq_refl)). split; eauto. intros _. lia.
  - exfalso. destruct (Nat.eq_dec (n_planes f) 1) as [e|e].
    + destruct A as [_ A]. destruct (A (or_introl e)). discriminate.
    + assert (X : ~ (n_planes f = 1 \/ length st = n_planes f /\ total (plane_sizes f st h) <= s_len buf)).
      { intros Y. apply A in Y as [? ?]. discriminate. }
      apply C in X as [? ?]. discriminate.
Qed.

(** ** constructors *)

Lemma constructor_invariant : forall f b st w h c im, image_new f b st w h c = Ok im ->
  im_width (image_of im) = w /\ im_height (image_of im) = h /\ im_format (image_of im) = f /\
  im_color (image_of im) = c /\ w <> 0 /\ h <> 0 /\
  (exists ps, im_planes (image_of im) = Ok ps /\ planes_fit f ps w h) /\
  image_bounds_check (image_of im) = Ok tt.
Proof.
  intros f b st w h c im H. apply image_new_ok_inv in H as (Hw & Hh & (st' & E & ->) & B).
  repeat split; auto. apply image_bounds_check_inv in B as (ps & ? & ?). eauto.
Qed.

Lemma constructor_zero : forall f b st w h c, w = 0 \/ h = 0 ->
  image_new f b st w h c = Err InvalidDimensions.
Proof.
  intros. unfold image_new.
  destruct (Nat.eqb_spec w 0); [reflexivity|]. destruct (Nat.eqb_spec h 0); [reflexivity|tauto].
Qed.

(** ** blank *)

Lemma blank_valid : forall m b f w h c m' im,
  blank m b f w h c = Ok (m', im) ->
  image_bounds_check (image_of im) = Ok tt /\
  (exists ps n, im_planes (image_of im) = Ok ps /\ @buffer_size noerr f w h = Ok n /\
     length ps = n_planes f /\ tiles (Slice b 0 n) (map fst ps)) /\
  (forall i, m' b i = 0%Z) /\ (forall b' i, b' <> b -> m' b' i = m b' i).
Proof.
  intros m b f w h c m' im H. unfold blank in H.
  apply bind_ok in H as (n & En & H). apply bind_ok in H as (st & Es & H).
  injection H as <- <-. pose proof En as En'. apply buffer_size_inv in En as [-> U].
  apply packed_strides_inv in Es as [-> US].
  destruct (whole_planes_fit f (Slice b 0 (tight_size f w h)) (tight_strides f w) w h) as (ps & E & -> & W & F); auto.
  - apply tight_strides_length.
  - intros. rewrite nth_tight_strides; auto.
  - rewrite <- tight_size_total. auto.
  - match goal with |- image_bounds_check (image_of ?im) = _ /\ _ =>
      assert (OP : im_planes (image_of im) = Ok (combine (inferred f (Slice b 0 (tight_size f w h)) h (tight_strides f w)) (tight_strides f w)))
    end.
    { cbn [image_of im_planes]. unfold owned_planes. cbn [oi_buffer oi_format oi_width oi_height oi_strides]. rewrite E. reflexivity. }
    split; [eapply image_bounds_check_complete; [exact OP|exact W|exact F]|].
    split.
    + exists (combine (inferred f (Slice b 0 (tight_size f w h)) h (tight_strides f w)) (tight_strides f w)), (tight_size f w h).
      split; [exact OP|]. split; [exact En'|].
      rewrite combine_length, map_fst_combine by (rewrite inferred_length, tight_strides_length; auto).
      rewrite inferred_length, tight_strides_length. split; [lia|].
      apply inferred_tiles. rewrite <- tight_size_total. reflexivity.
    + split; intros; [rewrite Nat.eqb_refl; auto|].
      destruct (Nat.eqb_spec b' b); congruence.
Qed.

Lemma blank_total : forall m b f w h c, h <> 0 -> usize (tight_size f w h) ->
  exists m' im, blank m b f w h c = Ok (m', im).
Proof.
  intros. unfold blank. rewrite buffer_size_total by auto. cbn [bind].
  rewrite packed_strides_ok by (intros; eapply tight_fits; eauto). cbn [bind]. eauto.
Qed.
