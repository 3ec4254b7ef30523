(** Lemmas about plane geometry. *)

From Coq Require Import List ZArith Bool Arith Lia.
From Verif Require Import Base Types Planes ImageM Crop SpecGeom.
Import ListNotations.

#[global] Arguments Nat.div : simpl never.
#[global] Arguments Nat.modulo : simpl never.

Ltac destr_if :=
  match goal with
  | |- context [if ?b then _ else _] => destruct b eqn:?
  | H : context [if ?b then _ else _] |- _ => destruct b eqn:?
  end.

(** Result of [Op::op] without the overflow guard. *)
Definition opn (o : op) (n : nat) : nat :=
  match o with OMul k => n * k | ODiv k => n / k | OId => n end.

Lemma strict_mul_cases : forall E a b,
  (@strict_mul E a b = Ok (a * b) /\ usize (a * b)) \/
  (@strict_mul E a b = Panic POverflow /\ ~ usize (a * b)).
Proof.
  intros. unfold strict_mul, fits, usize. rewrite Nat2Z.inj_mul.
  destruct (Z.leb_spec (Z.of_nat a * Z.of_nat b) usize_max); [left | right]; split; auto; lia.
Qed.

Lemma strict_add_cases : forall E a b,
  (@strict_add E a b = Ok (a + b) /\ usize (a + b)) \/
  (@strict_add E a b = Panic POverflow /\ ~ usize (a + b)).
Proof.
  intros. unfold strict_add, fits, usize. rewrite Nat2Z.inj_add.
  destruct (Z.leb_spec (Z.of_nat a + Z.of_nat b) usize_max); [left | right]; split; auto; lia.
Qed.

Lemma strict_mul_ok : forall E a b, usize (a * b) -> @strict_mul E a b = Ok (a * b).
Proof. intros. destruct (strict_mul_cases E a b) as [[? ?]|[? ?]]; tauto. Qed.
Lemma strict_add_ok : forall E a b, usize (a + b) -> @strict_add E a b = Ok (a + b).
Proof. intros. destruct (strict_add_cases E a b) as [[? ?]|[? ?]]; tauto. Qed.
Lemma umul_ok : forall E a b, usize (a * b) -> @umul E a b = Ok (a * b).
Proof. exact strict_mul_ok. Qed.
Lemma uadd_ok : forall E a b, usize (a + b) -> @uadd E a b = Ok (a + b).
Proof. exact strict_add_ok. Qed.
Lemma umul_cases : forall E a b,
  (@umul E a b = Ok (a * b) /\ usize (a * b)) \/
  (@umul E a b = Panic POverflow /\ ~ usize (a * b)).
Proof. exact strict_mul_cases. Qed.
Lemma uadd_cases : forall E a b,
  (@uadd E a b = Ok (a + b) /\ usize (a + b)) \/
  (@uadd E a b = Panic POverflow /\ ~ usize (a + b)).
Proof. exact strict_add_cases. Qed.

Lemma usize_le : forall a b, a <= b -> usize b -> usize a.
Proof. unfold usize. intros. lia. Qed.

Lemma op_apply_cases : forall E o n,
  (@op_apply E o n = Ok (opn o n) /\ (usize n -> usize (opn o n))) \/
  (@op_apply E o n = Panic POverflow /\ ~ usize (opn o n)).
Proof.
  intros. destruct o as [k|k|]; simpl.
  - destruct (strict_mul_cases E n k) as [[-> ?]|[-> ?]]; auto.
  - left. split; auto. intros. eapply usize_le; [|eassumption].
    destruct k; [cbv [Nat.div]; lia|]. apply Nat.div_le_upper_bound; nia.
  - left; auto.
Qed.

Lemma op_apply_ok : forall E o n, usize (opn o n) -> @op_apply E o n = Ok (opn o n).
Proof. intros. destruct (op_apply_cases E o n) as [[? ?]|[? ?]]; tauto. Qed.

Definition mulfree (o : op) := match o with OMul _ => False | _ => True end.
Lemma op_apply_mulfree : forall E o n, mulfree o -> @op_apply E o n = Ok (opn o n).
Proof. destruct o; simpl; intros; tauto || reflexivity. Qed.

Lemma packed_stride_cases : forall E d w,
  (@packed_stride E d w = Ok (opn (width_op d) w * bpp d) /\
     usize (opn (width_op d) w * bpp d)) \/
  (@packed_stride E d w = Panic POverflow /\
     (~ usize (opn (width_op d) w) \/ ~ usize (opn (width_op d) w * bpp d))).
Proof.
  intros. unfold packed_stride.
  destruct (op_apply_cases E (width_op d) w) as [[-> ?]|[-> ?]]; simpl.
  - destruct (strict_mul_cases E (opn (width_op d) w) (bpp d)) as [[-> ?]|[-> ?]]; auto.
  - auto.
Qed.

Lemma packed_stride_ok : forall E d w, 1 <= bpp d -> usize (opn (width_op d) w * bpp d) ->
  @packed_stride E d w = Ok (opn (width_op d) w * bpp d).
Proof.
  intros E d w Hb H. unfold packed_stride.
  rewrite op_apply_ok by (eapply usize_le; [|eassumption]; nia). simpl.
  apply strict_mul_ok; auto.
Qed.

Lemma bind_ok : forall E A B (r : res E A) (f : A -> res E B) b,
  bind r f = Ok b -> exists a, r = Ok a /\ f a = Ok b.
Proof. intros. destruct r; simpl in *; try discriminate. eauto. Qed.

(** The plane tables agree with the specification. *)

Lemma n_planes_descs : forall f, length (plane_descs f) = n_planes f.
Proof. destruct f; reflexivity. Qed.

Lemma desc_spec : forall f p d, nth_error (plane_descs f) p = Some d ->
  p < n_planes f /\
  (forall w, opn (width_op d) w = plane_cols f p w) /\
  (forall h, opn (height_op d) h = plane_rows f p h) /\
  bpp d = sample_bytes f /\ 1 <= bpp d /\ mulfree (height_op d).
Proof.
  intros f p d H.
  destruct f; (destruct p as [|[|[|p]]]; simpl in H;
    [ | | | ]; try (destruct p; discriminate H); try discriminate H;
    injection H as <-; simpl; repeat split; intros; auto; lia).
Qed.

Lemma desc_exists : forall f p, p < n_planes f -> exists d, nth_error (plane_descs f) p = Some d.
Proof.
  intros f p H. rewrite <- n_planes_descs in H.
  destruct (nth_error (plane_descs f) p) eqn:E; eauto.
  apply nth_error_None in E. lia.
Qed.

Definition plane_fits_d (d : plane_desc) (w h : nat) (pl : slice * nat) : Prop :=
  opn (width_op d) w * bpp d <= snd pl /\ snd pl * opn (height_op d) h <= s_len (fst pl).

Lemma plane_fits_d_spec : forall f p d w h pl, nth_error (plane_descs f) p = Some d ->
  (plane_fits_d d w h pl <-> plane_fits f w h p pl).
Proof.
  intros. apply desc_spec in H as (? & Hw & Hh & Hb & _).
  unfold plane_fits_d, plane_fits, row_bytes. rewrite Hw, Hh, Hb. tauto.
Qed.

(** ** bounds_check *)

Definition no_usize_overflow_d (d : plane_desc) (w h : nat) (pl : slice * nat) : Prop :=
  usize (opn (width_op d) w) /\ usize (opn (width_op d) w * bpp d) /\ usize (snd pl * opn (height_op d) h).

Lemma bcl_ok : forall descs got i w h,
  Forall (fun d => mulfree (height_op d)) descs ->
  bounds_check_loop i descs got w h = Ok tt ->
  forall p d pl, nth_error descs p = Some d -> nth_error got p = Some pl -> plane_fits_d d w h pl.
Proof.
  induction descs as [|d0 descs IH]; intros got i w h HF H p d pl Hd Hp.
  - destruct p; discriminate.
  - destruct got as [|[s st] got]; [destruct p; discriminate|].
    simpl in H. inversion HF as [|? ? Hm HF']; subst.
    destruct (packed_stride_cases bounds_error d0 w) as [[E _]|[E _]]; rewrite E in H; simpl in H; [|discriminate].
    destruct (Nat.ltb_spec st (opn (width_op d0) w * bpp d0)); [discriminate|].
    rewrite op_apply_mulfree in H by auto. simpl in H.
    destruct (strict_mul_cases bounds_error st (opn (height_op d0) h)) as [[E2 _]|[E2 _]]; rewrite E2 in H; simpl in H; [|discriminate].
    destruct (Nat.ltb_spec (s_len s) (st * opn (height_op d0) h)); [discriminate|].
    destruct p as [|p]; simpl in Hd, Hp.
    + injection Hd as <-. injection Hp as <-. split; simpl; lia.
    + eapply IH; eauto.
Qed.

Lemma bcl_complete : forall descs got i w h,
  Forall (fun d => mulfree (height_op d) /\ 1 <= bpp d) descs ->
  Forall (fun pl => usize (s_len (fst pl)) /\ usize (snd pl)) got ->
  (forall p d pl, nth_error descs p = Some d -> nth_error got p = Some pl -> plane_fits_d d w h pl) ->
  bounds_check_loop i descs got w h = Ok tt.
Proof.
  induction descs as [|d0 descs IH]; intros got i w h HF HW H; [reflexivity|].
  destruct got as [|[s st] got]; [reflexivity|]. simpl.
  inversion HF as [|? ? [Hm Hb] HF']; inversion HW as [|? ? [Hl Hs] HW']; subst. simpl in *.
  destruct (H 0 d0 (s, st) eq_refl eq_refl) as [H1 H2]; simpl in *.
  rewrite packed_stride_ok by (auto; eapply usize_le; eauto). simpl.
  destruct (Nat.ltb_spec st (opn (width_op d0) w * bpp d0)); [lia|].
  rewrite op_apply_mulfree by auto. simpl.
  rewrite strict_mul_ok by (eapply usize_le; eauto). simpl.
  destruct (Nat.ltb_spec (s_len s) (st * opn (height_op d0) h)); [lia|].
  apply IH; auto. intros p d pl A B. exact (H (S p) d pl A B).
Qed.

Lemma bcl_shape : forall descs got i w h,
  Forall (fun d => mulfree (height_op d)) descs ->
  match bounds_check_loop i descs got w h with
  | Ok _ => True
  | Err e => exists p d pl, nth_error descs p = Some d /\ nth_error got p = Some pl /\
      (forall q d' pl', q < p -> nth_error descs q = Some d' -> nth_error got q = Some pl' -> plane_fits_d d' w h pl') /\
      ((snd pl < opn (width_op d) w * bpp d /\
         e = InvalidStride (i + p) (opn (width_op d) w * bpp d) (snd pl)) \/
       (opn (width_op d) w * bpp d <= snd pl /\ s_len (fst pl) < snd pl * opn (height_op d) h /\
         e = InvalidPlaneSize (i + p) (snd pl * opn (height_op d) h) (s_len (fst pl))))
  | Panic q => q = POverflow /\ exists p d pl, nth_error descs p = Some d /\ nth_error got p = Some pl /\
      ~ no_usize_overflow_d d w h pl
  | UB => False
  end.
Proof.
  induction descs as [|d0 descs IH]; intros got i w h HF; [exact I|].
  destruct got as [|[s st] got]; [exact I|]. simpl.
  inversion HF as [|? ? Hm HF']; subst.
  destruct (packed_stride_cases bounds_error d0 w) as [[E _]|[E N]]; rewrite E; simpl.
  2:{ split; auto. exists 0, d0, (s, st). simpl. repeat split; auto.
      unfold no_usize_overflow_d. tauto. }
  destruct (Nat.ltb_spec st (opn (width_op d0) w * bpp d0)).
  { exists 0, d0, (s, st). simpl. rewrite Nat.add_0_r.
    split; auto. split; auto. split; [intros; lia|]. left; auto. }
  rewrite op_apply_mulfree by auto. simpl.
  destruct (strict_mul_cases bounds_error st (opn (height_op d0) h)) as [[E2 _]|[E2 N]]; rewrite E2; simpl.
  2:{ split; auto. exists 0, d0, (s, st). simpl. repeat split; auto.
      unfold no_usize_overflow_d. simpl. tauto. }
  destruct (Nat.ltb_spec (s_len s) (st * opn (height_op d0) h)).
  { exists 0, d0, (s, st). simpl. rewrite Nat.add_0_r.
    split; auto. split; auto. split; [intros; lia|]. right; auto. }
  specialize (IH got (S i) w h HF').
  destruct (bounds_check_loop (S i) descs got w h); auto.
  - destruct IH as (p & d & pl & A & B & C & D). exists (S p), d, pl. simpl.
    replace (i + S p) with (S i + p) by lia. split; auto. split; auto. split; [|exact D].
    intros q d' pl' Hq Hd' Hp'. destruct q as [|q]; simpl in *.
    + injection Hd' as <-. injection Hp' as <-. split; simpl; lia.
    + eapply C; eauto. lia.
  - destruct IH as (-> & k & d & pl & A & B & C). split; auto. exists (S k), d, pl. auto.
Qed.

Lemma descs_mulfree : forall f, Forall (fun d => mulfree (height_op d)) (plane_descs f).
Proof. destruct f; repeat constructor. Qed.
Lemma descs_good : forall f, Forall (fun d => mulfree (height_op d) /\ 1 <= bpp d) (plane_descs f).
Proof. destruct f; repeat constructor. Qed.

Lemma nth_error_firstn : forall A (l : list A) n p, p < n -> nth_error (firstn n l) p = nth_error l p.
Proof.
  induction l as [|a l IH]; intros n p H.
  - rewrite firstn_nil. destruct p; reflexivity.
  - destruct n; [lia|]. destruct p; simpl; auto. apply IH. lia.
Qed.

Lemma nth_error_firstn_some : forall A (l : list A) n p x,
  nth_error (firstn n l) p = Some x -> nth_error l p = Some x /\ p < n.
Proof.
  intros. assert (p < length (firstn n l)) by (apply nth_error_Some; congruence).
  rewrite firstn_length in H0. rewrite nth_error_firstn in H by lia. split; [auto|lia].
Qed.

Lemma Forall_firstn : forall A (P : A -> Prop) n l, Forall P l -> Forall P (firstn n l).
Proof.
  intros. rewrite Forall_forall in *. intros x Hx. apply H.
  rewrite <- (firstn_skipn n l). apply in_or_app. auto.
Qed.

Lemma bounds_check_sound : forall f ps w h,
  bounds_check f ps w h = Ok tt -> planes_fit f ps w h.
Proof.
  intros f ps w h H. unfold bounds_check, read_planes in H. rewrite n_planes_descs in H.
  destruct (Nat.leb_spec (n_planes f) (length ps)); simpl in H; [|discriminate].
  split; auto. intros p pl Hp Hnth.
  destruct (desc_exists f p Hp) as [d Hd].
  rewrite <- plane_fits_d_spec by eauto.
  eapply bcl_ok; eauto using descs_mulfree. rewrite nth_error_firstn; auto.
Qed.

Lemma bounds_check_complete : forall f ps w h, wf_planes ps ->
  planes_fit f ps w h -> bounds_check f ps w h = Ok tt.
Proof.
  intros f ps w h HW [HL HF]. unfold bounds_check, read_planes. rewrite n_planes_descs.
  destruct (Nat.leb_spec (n_planes f) (length ps)); [|lia]. simpl.
  apply bcl_complete; auto using descs_good, Forall_firstn.
  intros p d pl Hd Hp. apply nth_error_firstn_some in Hp as [Hp Hlt].
  rewrite plane_fits_d_spec by eauto. auto.
Qed.

Lemma bounds_check_shape : forall f ps w h,
  match bounds_check f ps w h with
  | Ok _ => True
  | Err e =>
      (length ps < n_planes f /\ e = InvalidNumberOfPlanes (n_planes f) (length ps)) \/
      (n_planes f <= length ps /\ exists p pl, p < n_planes f /\ nth_error ps p = Some pl /\
        (forall q pl', q < p -> nth_error ps q = Some pl' -> plane_fits f w h q pl') /\
        ((snd pl < row_bytes f p w /\ e = InvalidStride p (row_bytes f p w) (snd pl)) \/
         (row_bytes f p w <= snd pl /\ s_len (fst pl) < snd pl * plane_rows f p h /\
           e = InvalidPlaneSize p (snd pl * plane_rows f p h) (s_len (fst pl)))))
  | Panic q => q = POverflow /\ exists p pl, p < n_planes f /\ nth_error ps p = Some pl /\
      ~ (usize (row_bytes f p w) /\ usize (snd pl * plane_rows f p h))
  | UB => False
  end.
Proof.
  intros f ps w h. unfold bounds_check, read_planes. rewrite n_planes_descs.
  destruct (Nat.leb_spec (n_planes f) (length ps)); simpl; [|left; auto].
  generalize (bcl_shape (plane_descs f) (firstn (n_planes f) ps) 0 w h (descs_mulfree f)).
  destruct (bounds_check_loop 0 (plane_descs f) (firstn (n_planes f) ps) w h); auto.
  - intros (p & d & pl & A & B & C & D). right. split; auto.
    apply nth_error_firstn_some in B as [B Hlt].
    exists p, pl. destruct (desc_spec _ _ _ A) as (_ & Hw & Hh & Hb & _).
    split; auto. split; auto. split.
    + intros q pl' Hq Hq'. destruct (desc_exists f q) as [d' Hd']; [lia|].
      rewrite <- plane_fits_d_spec by eauto. eapply C; eauto. rewrite nth_error_firstn by lia. auto.
    + unfold row_bytes. rewrite Hw, Hh, Hb in D. exact D.
  - intros (-> & k & d & pl & A & B & C). split; auto.
    apply nth_error_firstn_some in B as [B Hlt].
    exists k, pl. split; auto. split; auto.
    destruct (desc_spec _ _ _ A) as (_ & Hw & Hh & Hb & Hb1 & _).
    unfold no_usize_overflow_d in C. rewrite Hw, Hh, Hb in C. unfold row_bytes.
    intros [U1 U2]. apply C. repeat split; auto. eapply usize_le; [|exact U1]. nia.
Qed.

Lemma bounds_check_iff : forall f ps w h, wf_planes ps ->
  (bounds_check f ps w h = Ok tt <-> planes_fit f ps w h).
Proof. split; [apply bounds_check_sound|apply bounds_check_complete; auto]. Qed.

(** ** Layout *)

Lemma div2_lt : forall x w, w mod 2 = 0 -> x < w -> x / 2 < w / 2.
Proof.
  intros. apply Nat.div_lt_upper_bound; [lia|].
  rewrite (Nat.div_mod w 2) in H0 by lia. lia.
Qed.

Lemma layout_in_plane : forall f c x y w h p r col,
  w mod 2 = 0 -> h mod 2 = 0 -> x < w -> y < h ->
  layout f c x y = Some (p, r, col) ->
  p < n_planes f /\ r < plane_rows f p h /\ col < plane_cols f p w.
Proof.
  intros f c x y w h p r col Hw Hh Hx Hy H.
  pose proof (div2_lt x w Hw Hx). pose proof (div2_lt y h Hh Hy).
  pose proof (Nat.div_mod w 2 ltac:(lia)).
  destruct f, c; simpl in H; try discriminate; injection H as <- <- <-; simpl; lia.
Qed.

Lemma sample_in_slice : forall f pl w h p r col, plane_fits f w h p pl ->
  r < plane_rows f p h -> col < plane_cols f p w ->
  r * snd pl + col * sample_bytes f + sample_bytes f <= s_len (fst pl).
Proof.
  unfold plane_fits, row_bytes. intros. destruct H as [A B]. nia.
Qed.
