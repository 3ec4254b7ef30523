(** C59, C60 for every window, whatever its offset and the bit depth: converting
    and copying work on exactly the pixels that the windows show (C10_crop_exact). *)

From Coq Require Import List ZArith Bool Arith Lia.
From Verif Require Import Base Types Planes ImageM Crop F32 Vector Simd Formats Visit Convert Copy MultiThread
  SpecGeom SpecCrop SpecVector SpecColor SpecConvert SpecRun SpecThreads SpecExec SpecCopy SpecStride SpecWindow
  SimdProofs QuantProofs GeomProofs GeomProofs2 CropProofs ReadProofs WriteProofs VisitProofs ConvertProofs CopyProofs StrideProofs WindowProofs
  PropConvert PropStrides PropThreads PropCopy PropWindow PropCropExact.
Import ListNotations.

(** [v] is the view of any window of image [t] whose planes can be listed. *)
Definition any_window (t : image) (ps : list (slice * nat)) (win : window) (v : image) : Prop :=
  valid_image t ps /\ crop_new t win = Ok v /\ exists cps, im_planes v = Ok cps.

(** What pixel ([x], [y]) of the window shows *)
Definition shown_at (m : mem) (f : pixel_format) (ps : list (slice * nat)) (win : window) (c : comp) (x y : nat) : option Z :=
  let '(c', x', y') := shown f (win_x win) (win_y win) c in component m f ps c' (x' + x) (y' + y).

(** Byte [i] of buffer [b] belongs to a sample that the window shows. *)
Definition shown_byte (f : pixel_format) (ps : list (slice * nat)) (win : window) (b i : nat) : Prop :=
  exists c x y, x < win_width win /\ y < win_height win /\
    let '(c', x', y') := shown f (win_x win) (win_y win) c in component_byte f ps c' (x' + x) (y' + y) b i.

Record exact_view (t : image) (ps : list (slice * nat)) (win : window) (v : image) (cps : list (slice * nat)) : Prop := {
  xv_valid : valid_image v cps;
  xv_format : im_format v = im_format t;
  xv_color : im_color v = im_color t;
  xv_width : im_width v = win_width win;
  xv_height : im_height v = win_height win;
  xv_length : length cps = n_planes (im_format t);
  xv_src_length : n_planes (im_format t) <= length ps;
  xv_plane : forall p pl, p < n_planes (im_format t) -> nth_error ps p = Some pl ->
    crop_fits (im_format t) win p pl /\ nth_error cps p = Some (crop_slice (im_format t) win p pl);
  xv_shown : forall m c i j, component m (im_format t) cps c i j = shown_at m (im_format t) ps win c i j
}.

Lemma view_exact : forall t ps win v, any_window t ps win v -> exists cps, exact_view t ps win v cps.
Proof.
  intros t ps win v (V & HN & (cps & EC)).
  destruct (window_inside _ _ _ HN) as (EV & HX & HY). pose proof V as (HP & HW & _).
  destruct (valid_ready _ _ V) as (_ & _ & HL & _). subst v.
  destruct (cropped_planes_spec t win ps HP HW HL) as [(cps' & A & B & C)|((p & pl & A & B & C) & (q & Q))].
  2:{ rewrite EC in Q. discriminate Q. }
  rewrite EC in A. injection A as <-.
  destruct (C10_crop_exact (fun _ _ => 0%Z) t win _ ps cps HN HP HW EC) as (_ & _ & _ & _ & BC & _).
  exists cps. constructor; try reflexivity; try assumption.
  - split; [exact EC|split; [|exact BC]].
    unfold wf_planes. rewrite Forall_forall. intros pl Hin. apply In_nth_error in Hin as [p Hp].
    assert (Hp' : p < n_planes (im_format t)) by (rewrite <- B; apply nth_error_Some; congruence).
    destruct (nth_error ps p) as [pl0|] eqn:En; [|apply nth_error_None in En; lia].
    destruct (C p pl0 Hp' En) as [CF CN]. rewrite CN in Hp. injection Hp as <-.
    unfold wf_planes in HW. rewrite Forall_forall in HW. apply nth_error_In in En.
    apply HW in En as [U3 U4]. unfold crop_slice. cbn [fst snd s_len]. split; auto.
    eapply usize_le; [|exact U3]. unfold crop_fits in CF. lia.
  - intros m c i j. apply component_shown; auto. intros p pl Hp Hn. apply C; auto.
Qed.

Lemma exact_disjoint : forall t ps win v cps, exact_view t ps win v cps -> planes_disjoint ps -> planes_disjoint cps.
Proof.
  intros t ps win v cps VP PD i j a b NE NA NB k. pose proof (xv_src_length _ _ _ _ _ VP) as HL.
  assert (Hi : i < n_planes (im_format t)) by (rewrite <- (xv_length _ _ _ _ _ VP); apply nth_error_Some; congruence).
  assert (Hj : j < n_planes (im_format t)) by (rewrite <- (xv_length _ _ _ _ _ VP); apply nth_error_Some; congruence).
  destruct (nth_error ps i) as [a0|] eqn:EA; [|apply nth_error_None in EA; lia].
  destruct (nth_error ps j) as [b0|] eqn:EB; [|apply nth_error_None in EB; lia].
  destruct (xv_plane _ _ _ _ _ VP i a0 Hi EA) as [FA QA]. destruct (xv_plane _ _ _ _ _ VP j b0 Hj EB) as [FB QB].
  rewrite QA in NA. injection NA as <-. rewrite QB in NB. injection NB as <-.
  intros (E & KA & KB). apply (PD i j a0 b0 NE EA EB k).
  unfold crop_fits in FA, FB. unfold crop_slice in *. cbn [fst s_buf s_off s_len] in *. split; [exact E|]. lia.
Qed.

Lemma exact_strides : forall t ps win v cps, exact_view t ps win v cps -> strides_444 (im_format t) ps -> strides_444 (im_format v) cps.
Proof.
  intros t ps win v cps VP ST. rewrite (xv_format _ _ _ _ _ VP). intros K p q a b Hp Hq NA NB. pose proof (xv_src_length _ _ _ _ _ VP) as HL.
  assert (N3 : n_planes (im_format t) = 3) by (destruct (im_format t); try discriminate K; reflexivity).
  destruct (nth_error ps p) as [a0|] eqn:EA; [|apply nth_error_None in EA; lia].
  destruct (nth_error ps q) as [b0|] eqn:EB; [|apply nth_error_None in EB; lia].
  destruct (xv_plane _ _ _ _ _ VP p a0 ltac:(lia) EA) as [_ QA]. destruct (xv_plane _ _ _ _ _ VP q b0 ltac:(lia) EB) as [_ QB].
  rewrite QA in NA. injection NA as <-. rewrite QB in NB. injection NB as <-.
  exact (ST K p q a0 b0 Hp Hq EA EB).
Qed.

(** The place of a component, seen from the window and from the image *)
Lemma layout_shown : forall f win c x y p r col, layout f c x y = Some (p, r, col) ->
  let '(c', x', y') := shown f (win_x win) (win_y win) c in
  layout f c' (x' + x) (y' + y) = Some (p, sample_bytes f * plane_rows f p (win_y win) + r, plane_cols f p (win_x win) + col).
Proof.
  intros f win c x y p r col L.
  assert (EO : Nat.even (win_x win) = true /\ win_x win = 2 * (win_x win / 2) \/ Nat.even (win_x win) = false /\ win_x win = 2 * (win_x win / 2) + 1).
  { pose proof (Nat.div_mod (win_x win) 2 ltac:(lia)) as D. pose proof (Nat.mod_upper_bound (win_x win) 2 ltac:(lia)).
    destruct (Nat.even (win_x win)) eqn:E.
    - left. split; [reflexivity|]. apply Nat.even_spec in E as [q Q]. lia.
    - right. split; [reflexivity|]. assert (O : Nat.odd (win_x win) = true) by (unfold Nat.odd; rewrite E; reflexivity).
      apply Nat.odd_spec in O as [q Q]. lia. }
  set (h := win_x win / 2) in *. set (v := win_y win / 2).
  assert (P3 : forall (a a' b b' : nat), a = a' -> b = b' -> Some (p, a, b) = Some (p, a', b')) by (intros; subst; reflexivity).
  unfold shown. destruct f, c; cbn [layout] in L; try discriminate L; injection L as <- <- <-;
    cbn [sample_bytes]; destruct EO as [(E & X)|(E & X)]; rewrite ?E; fold h; fold v;
    cbn [layout plane_rows plane_cols Nat.eqb]; fold h; fold v; rewrite ?double_div_add;
    apply P3; try lia; rewrite ?X; rewrite ?double_div_add;
    repeat match goal with |- context [(2 * h + 1 - 1 + x) / 2] => replace (2 * h + 1 - 1 + x) with (2 * h + x) by lia
    | |- context [(2 * h + 1 + 1 + x) / 2] => replace (2 * h + 1 + 1 + x) with (2 * (h + 1) + x) by lia end;
    rewrite ?double_div_add; try lia.
Qed.

(** The bytes of a view are bytes of what the window shows. *)
Lemma exact_bytes : forall t ps win v cps b i, exact_view t ps win v cps ->
  sample_byte (im_format v) cps (im_width v) (im_height v) b i -> shown_byte (im_format t) ps win b i.
Proof.
  intros t ps win v cps b i VP (p & pl & r & c & Hp & N & Hr & Hc & EB & HI). pose proof (xv_src_length _ _ _ _ _ VP) as HL.
  rewrite (xv_format _ _ _ _ _ VP), (xv_width _ _ _ _ _ VP), (xv_height _ _ _ _ _ VP) in *.
  pose proof (layout_unlayout _ p r c _ _ Hp Hr Hc) as L. destruct (unlayout (im_format t) p r c) as [[k x] y].
  destruct L as (L & _ & Hx & Hy).
  destruct (nth_error ps p) as [pl0|] eqn:EN; [|apply nth_error_None in EN; lia].
  destruct (xv_plane _ _ _ _ _ VP p pl0 Hp EN) as [_ Q]. rewrite Q in N. injection N as <-.
  exists k, x, y. split; [exact Hx|]. split; [exact Hy|].
  pose proof (layout_shown _ win _ _ _ _ _ _ L) as LS. destruct (shown (im_format t) (win_x win) (win_y win) k) as [[c' x'] y'].
  exists p, (sample_bytes (im_format t) * plane_rows (im_format t) p (win_y win) + r), (plane_cols (im_format t) p (win_x win) + c), pl0.
  split; [exact LS|]. split; [exact EN|].
  unfold sample_addr, crop_slice, crop_off in *. cbn [fst snd s_buf s_off] in *. split; [exact EB|]. nia.
Qed.

(** * Converting *)

(** After a successful conversion between any two windows, what the second
    window shows at ([x], [y]) holds what is prescribed for an image that consists
    of what the first window shows. *)
Theorem C59_inside_exact : forall lm b m src sps ws vs dst dps wd vd,
  any_window src sps ws vs -> any_window dst dps wd vd -> strides_444 (im_format src) sps -> planes_disjoint dps ->
  snd (convert lm b m vs vd) = Ok tt ->
  forall c x y, has_comp (im_format dst) c = true -> x < win_width wd -> y < win_height wd ->
  ictcp_chroma420 (im_format dst) (im_color dst) c = false ->            (* see C19_refuted *)
  let cb := column_backend b (win_width wd) x in
  shown_at (apply_all m (fst (convert lm b m vs vd))) (im_format dst) dps wd c x y
    = Some (quantise (quant_of cb) (im_format dst)
        (expected_from (lane_of lm cb) src (shown_at m (im_format src) sps ws) dst c x y)).
Proof.
  intros lm b m src sps ws vs dst dps wd vd WS WD ST PD OK c x y HC Hx Hy NI cb.
  destruct (view_exact _ _ _ _ WS) as (scs & SP). destruct (view_exact _ _ _ _ WD) as (dcs & DP).
  rewrite <- (xv_shown _ _ _ _ _ DP).
  pose proof (C18_correct_partial lm b m vs scs vd dcs (xv_valid _ _ _ _ _ SP) (xv_valid _ _ _ _ _ DP)
    (exact_disjoint _ _ _ _ _ DP PD) (exact_strides _ _ _ _ _ SP ST) OK c x y) as C.
  rewrite (xv_width _ _ _ _ _ DP), (xv_height _ _ _ _ _ DP), (xv_format _ _ _ _ _ DP), (xv_color _ _ _ _ _ DP) in C.
  specialize (C HC Hx Hy NI). cbv zeta in C. fold cb in C. rewrite C. do 2 f_equal. rewrite expected_from_components.
  unfold expected_from, same_image_kind.
  rewrite (xv_format _ _ _ _ _ SP), (xv_color _ _ _ _ _ SP), (xv_format _ _ _ _ _ DP), (xv_color _ _ _ _ _ DP).
  destruct (_ && _); [rewrite (xv_shown _ _ _ _ _ SP); exact eq_refl|].
  unfold target. rewrite !(xv_shown _ _ _ _ _ SP). exact eq_refl.
Qed.
Print Assumptions C59_inside_exact.

(** Whatever the outcome, no byte is changed that the window does not show. *)
Theorem C59_outside_exact : forall lm b m src sps ws vs dst dps wd vd,
  any_window src sps ws vs -> any_window dst dps wd vd -> planes_disjoint dps ->
  forall buf i, ~ shown_byte (im_format dst) dps wd buf i -> apply_all m (fst (convert lm b m vs vd)) buf i = m buf i.
Proof.
  intros lm b m src sps ws vs dst dps wd vd WS WD PD buf i NW.
  destruct (view_exact _ _ _ _ WS) as (scs & SP). destruct (view_exact _ _ _ _ WD) as (dcs & DP).
  apply (C16_frame_all lm b m vs scs vd dcs (xv_valid _ _ _ _ _ SP) (xv_valid _ _ _ _ _ DP) (exact_disjoint _ _ _ _ _ DP PD)).
  intros SB. apply NW. exact (exact_bytes _ _ _ _ _ _ _ DP SB).
Qed.
Print Assumptions C59_outside_exact.

(** * Copying *)

Theorem C60_inside_exact : forall m src sps ws vs dst dps wd vd,
  any_window src sps ws vs -> any_window dst dps wd vd -> planes_disjoint dps ->
  snd (copy m vs vd) = Ok tt ->
  forall c x y, x < win_width wd -> y < win_height wd ->
  shown_at (after_copy m vs vd) (im_format dst) dps wd c x y = shown_at m (im_format src) sps ws c x y.
Proof.
  intros m src sps ws vs dst dps wd vd WS WD PD OK c x y Hx Hy.
  destruct (view_exact _ _ _ _ WS) as (scs & SP). destruct (view_exact _ _ _ _ WD) as (dcs & DP).
  rewrite <- (xv_shown _ _ _ _ _ DP), <- (xv_shown _ _ _ _ _ SP), <- (xv_format _ _ _ _ _ DP), <- (xv_format _ _ _ _ _ SP).
  apply (C43_samples m vs scs vd dcs (xv_valid _ _ _ _ _ SP) (xv_valid _ _ _ _ _ DP) (exact_disjoint _ _ _ _ _ DP PD) OK).
  - rewrite (xv_width _ _ _ _ _ DP). exact Hx.
  - rewrite (xv_height _ _ _ _ _ DP). exact Hy.
Qed.
Print Assumptions C60_inside_exact.

Theorem C60_outside_exact : forall m src sps ws vs dst dps wd vd,
  any_window src sps ws vs -> any_window dst dps wd vd -> planes_disjoint dps ->
  forall buf i, ~ shown_byte (im_format dst) dps wd buf i -> after_copy m vs vd buf i = m buf i.
Proof.
  intros m src sps ws vs dst dps wd vd WS WD PD buf i NW.
  destruct (view_exact _ _ _ _ WS) as (scs & SP). destruct (view_exact _ _ _ _ WD) as (dcs & DP). pose proof (xv_src_length _ _ _ _ _ DP) as LD.
  assert (NS : no_spare_rows (im_format vd) scs dcs (im_height vd)).
  { intros p sp dp Hp _ N. right. rewrite (xv_format _ _ _ _ _ DP), (xv_height _ _ _ _ _ DP) in *.
    destruct (nth_error dps p) as [pl|] eqn:E; [|apply nth_error_None in E; lia].
    destruct (xv_plane _ _ _ _ _ DP p pl Hp E) as [_ Q]. rewrite Q in N. injection N as <-.
    unfold whole_rows, crop_slice. cbn [fst snd s_len]. destruct (Nat.eq_dec (snd pl) 0) as [Z|Z]; [rewrite Z; apply Nat.le_0_l|].
    rewrite Nat.div_mul by exact Z. apply Nat.le_refl. }
  apply (C43_only_samples m vs scs vd dcs (xv_valid _ _ _ _ _ SP) (xv_valid _ _ _ _ _ DP) (exact_disjoint _ _ _ _ _ DP PD) NS buf i).
  intros SB. apply NW. exact (exact_bytes _ _ _ _ _ _ _ DP SB).
Qed.
Print Assumptions C60_outside_exact.

(** A window in row 2 of a 16-bit image: it shows rows 4 and 5, and these are
    what is converted and copied to. *)
Example C59_exact_example :
  let wd := Window 0 2 2 2 in let vd := cropped win16 wd in
  let src := ex_image RGB 4 4 ex_rgb [(Slice 0 0 60, 15)] in let ws := Window 1 1 2 2 in let vs := cropped src ws in
  any_window win16 win16_planes wd vd /\ any_window src [(Slice 0 0 60, 15)] ws vs /\ planes_disjoint win16_planes /\
  (forall b, snd (convert ex_lm b ex_mem vs vd) = Ok tt) /\
  (forall m c x y, shown_at m I410 win16_planes wd c x y = component m I410 win16_planes c x (4 + y)) /\
  (forall m c x y, shown_at m RGB [(Slice 0 0 60, 15)] ws c x y = component m RGB [(Slice 0 0 60, 15)] c (1 + x) (1 + y)).
Proof.
  intros wd vd src ws vs. split; [|split; [|split; [|split; [|split]]]].
  - split; [split; [reflexivity|split; [repeat constructor; cbn; unfold usize; cbn; lia|reflexivity]]|]. split; [reflexivity|eexists; reflexivity].
  - split; [split; [reflexivity|split; [repeat constructor; cbn; unfold usize; cbn; lia|reflexivity]]|]. split; [reflexivity|eexists; reflexivity].
  - intros i j a c NE NA NB k (E & _). apply NE.
    destruct i as [|[|[|i]]], j as [|[|[|j]]]; try reflexivity; cbn in NA, NB;
      try (destruct i; discriminate NA); try (destruct j; discriminate NB); injection NA as <-; injection NB as <-; discriminate E.
  - intros []; vm_compute; reflexivity.
  - intros m [] x y; reflexivity.
  - intros m [] x y; reflexivity.
Qed.
