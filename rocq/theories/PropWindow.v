(** C59, C60: converting and copying from and to windows of images. *)

From Coq Require Import List ZArith Bool Arith Lia.
From Verif Require Import Base Types Planes ImageM Crop F32 Vector Simd Formats Visit Convert Copy MultiThread
  SpecGeom SpecCrop SpecVector SpecColor SpecConvert SpecRun SpecThreads SpecExec SpecCopy SpecStride SpecWindow
  SimdProofs QuantProofs GeomProofs GeomProofs2 CropProofs ReadProofs WriteProofs VisitProofs ConvertProofs CopyProofs StrideProofs WindowProofs
  PropConvert PropStrides PropThreads PropCopy.
Import ListNotations.

(** * C59 *)

(** Partial: [window_of] (SpecWindow.v) asks for a window on the chroma grid and,
    for 16-bit images, in the first row.  Missing: other windows, for which the
    claims are false (C10, C59_16bit_refuted). *)

(** Converting between windows succeeds exactly when the windows have the same
    even size and both images can be converted. *)
Theorem C59_ok_iff : forall lm b m src sps ws vs dst dps wd vd,
  window_of src sps ws vs -> window_of dst dps wd vd -> strides_444 (im_format src) sps ->
  (snd (convert lm b m vs vd) = Ok tt <->
     win_width ws = win_width wd /\ win_height ws = win_height wd /\
     Nat.Even (win_width ws) /\ Nat.Even (win_height ws) /\
     (same_image_kind src dst = true \/
      color_fits (im_format src) (im_color src) = true /\ color_fits (im_format dst) (im_color dst) = true)).
Proof.
  intros lm b m src sps ws vs dst dps wd vd WS WD ST.
  destruct (window_planes _ _ _ _ WS) as (scs & SP). destruct (window_planes _ _ _ _ WD) as (dcs & DP).
  destruct (valid_ready _ _ (proj1 WS)) as (_ & _ & LS & _).
  pose proof (vp_valid _ _ _ _ _ SP) as (ES & US & BS). pose proof (vp_valid _ _ _ _ _ DP) as (ED & UD & BD).
  rewrite C13_ok_iff.
  - unfold same_image_kind. rewrite (vp_width _ _ _ _ _ SP), (vp_height _ _ _ _ _ SP), (vp_width _ _ _ _ _ DP), (vp_height _ _ _ _ _ DP),
      (vp_format _ _ _ _ _ SP), (vp_color _ _ _ _ _ SP), (vp_format _ _ _ _ _ DP), (vp_color _ _ _ _ _ DP). tauto.
  - intros ps E. rewrite E in ES. injection ES as ->. split; [exact US|]. exact (view_strides _ _ _ _ _ SP LS ST).
  - intros ps E. rewrite E in ED. injection ED as ->. exact UD.
Qed.
Print Assumptions C59_ok_iff.

(** After a successful conversion from window [ws] of [src] to window [wd] of
    [dst], pixel ([x], [y]) of the second window holds what is prescribed for an
    image that consists of the pixels of the first window. *)
Theorem C59_inside_partial : forall lm b m src sps ws vs dst dps wd vd,
  window_of src sps ws vs -> window_of dst dps wd vd -> strides_444 (im_format src) sps -> planes_disjoint dps ->
  snd (convert lm b m vs vd) = Ok tt ->
  forall c x y, has_comp (im_format dst) c = true -> x < win_width wd -> y < win_height wd ->
  ictcp_chroma420 (im_format dst) (im_color dst) c = false ->            (* see C19_refuted *)
  let cb := column_backend b (win_width wd) x in
  component (apply_all m (fst (convert lm b m vs vd))) (im_format dst) dps c (win_x wd + x) (win_y wd + y)
    = Some (quantise (quant_of cb) (im_format dst)
        (expected_from (lane_of lm cb) src (fun c x y => component m (im_format src) sps c (win_x ws + x) (win_y ws + y)) dst c x y)).
Proof.
  intros lm b m src sps ws vs dst dps wd vd WS WD ST PD OK c x y HC Hx Hy NI cb.
  destruct (window_planes _ _ _ _ WS) as (scs & SP). destruct (window_planes _ _ _ _ WD) as (dcs & DP).
  destruct (valid_ready _ _ (proj1 WS)) as (_ & _ & LS & _). destruct (valid_ready _ _ (proj1 WD)) as (_ & _ & LD & _).
  rewrite <- (vp_component _ _ _ _ _ DP).
  pose proof (C18_correct_partial lm b m vs scs vd dcs (vp_valid _ _ _ _ _ SP) (vp_valid _ _ _ _ _ DP)
    (view_disjoint _ _ _ _ _ DP LD PD) (view_strides _ _ _ _ _ SP LS ST) OK c x y) as C.
  rewrite (vp_width _ _ _ _ _ DP), (vp_height _ _ _ _ _ DP), (vp_format _ _ _ _ _ DP), (vp_color _ _ _ _ _ DP) in C.
  specialize (C HC Hx Hy NI). cbv zeta in C. fold cb in C. rewrite C. do 2 f_equal. rewrite expected_from_components.
  unfold expected_from, same_image_kind.
  rewrite (vp_format _ _ _ _ _ SP), (vp_color _ _ _ _ _ SP), (vp_format _ _ _ _ _ DP), (vp_color _ _ _ _ _ DP).
  destruct (_ && _); [rewrite (vp_component _ _ _ _ _ SP); exact eq_refl|].
  unfold target. rewrite !(vp_component _ _ _ _ _ SP). exact eq_refl.
Qed.
Print Assumptions C59_inside_partial.

Lemma odd_no_store : forall lm b m src sps dst dps, valid_image src sps -> valid_image dst dps ->
  Nat.Odd (im_width dst) \/ Nat.Odd (im_height dst) ->
  forall buf i, apply_all m (fst (convert lm b m src dst)) buf i = m buf i.
Proof.
  intros lm b m src sps dst dps VS VD HO buf i.
  assert (E : exists e, convert_result src dst = Err e).
  { unfold convert_result. destruct (Nat.eqb_spec (im_width src) (im_width dst)) as [->|]; [|eexists; reflexivity].
    destruct (Nat.eqb_spec (im_height src) (im_height dst)) as [->|]; [|eexists; reflexivity]. cbn [andb negb].
    destruct HO as [O|O]; apply Nat.odd_spec in O; rewrite O, ?orb_true_r; eexists; reflexivity. }
  destruct E as [e E]. apply (C14_error_no_store lm b m src dst e). apply C13_error; [| |exact E].
  - intros ps X. destruct VS as (X' & W & _). rewrite X in X'. injection X' as ->. exact W.
  - intros ps X. destruct VD as (X' & W & _). rewrite X in X'. injection X' as ->. exact W.
Qed.

(** Whatever the outcome, no byte is changed that does not belong to a pixel of
    the destination window. *)
Theorem C59_outside_bytes_partial : forall lm b m src sps ws vs dst dps wd vd,
  window_of src sps ws vs -> window_of dst dps wd vd -> planes_disjoint dps ->
  forall buf i, ~ window_byte (im_format dst) dps wd buf i -> apply_all m (fst (convert lm b m vs vd)) buf i = m buf i.
Proof.
  intros lm b m src sps ws vs dst dps wd vd WS WD PD buf i NW.
  destruct (window_planes _ _ _ _ WS) as (scs & SP). destruct (window_planes _ _ _ _ WD) as (dcs & DP).
  destruct (valid_ready _ _ (proj1 WD)) as (_ & _ & LD & _).
  destruct (Nat.Even_or_Odd (win_width wd)) as [EW|OW].
  - destruct (Nat.Even_or_Odd (win_height wd)) as [EH|OH].
    + apply (C16_frame_all lm b m vs scs vd dcs (vp_valid _ _ _ _ _ SP) (vp_valid _ _ _ _ _ DP) (view_disjoint _ _ _ _ _ DP LD PD)).
      intros SB. apply NW. apply (view_bytes _ _ _ _ _ _ _ WD DP); auto using even_whole.
    + apply (odd_no_store _ _ _ _ _ _ _ (vp_valid _ _ _ _ _ SP) (vp_valid _ _ _ _ _ DP)). rewrite (vp_height _ _ _ _ _ DP). right. exact OH.
  - apply (odd_no_store _ _ _ _ _ _ _ (vp_valid _ _ _ _ _ SP) (vp_valid _ _ _ _ _ DP)). rewrite (vp_width _ _ _ _ _ DP). left. exact OW.
Qed.
Print Assumptions C59_outside_bytes_partial.

(** So the pixels of the image beside the window stay as they are: converting
    to a window of even size never reaches beyond it. *)
Theorem C59_outside_pixels_partial : forall lm b m src sps ws vs dst dps wd vd,
  window_of src sps ws vs -> window_of dst dps wd vd -> planes_disjoint dps ->
  whole_chroma (im_format dst) (im_width dst) (im_height dst) ->
  forall c x y, x < im_width dst -> y < im_height dst -> ~ in_window wd x y ->
  component (apply_all m (fst (convert lm b m vs vd))) (im_format dst) dps c x y = component m (im_format dst) dps c x y.
Proof.
  intros lm b m src sps ws vs dst dps wd vd WS WD PD WC c x y Hx Hy NI.
  destruct (window_planes _ _ _ _ WS) as (scs & SP). destruct (window_planes _ _ _ _ WD) as (dcs & DP).
  apply component_bytes. intros buf i CB.
  destruct (Nat.Even_or_Odd (win_width wd)) as [EW|OW].
  - destruct (Nat.Even_or_Odd (win_height wd)) as [EH|OH].
    + apply (C59_outside_bytes_partial lm b m src sps ws vs dst dps wd vd WS WD PD).
      apply (beside_window dst dps wd vd c x y buf i); auto using even_whole.
    + apply (odd_no_store _ _ _ _ _ _ _ (vp_valid _ _ _ _ _ SP) (vp_valid _ _ _ _ _ DP)). rewrite (vp_height _ _ _ _ _ DP). right. exact OH.
  - apply (odd_no_store _ _ _ _ _ _ _ (vp_valid _ _ _ _ _ SP) (vp_valid _ _ _ _ _ DP)). rewrite (vp_width _ _ _ _ _ DP). left. exact OW.
Qed.
Print Assumptions C59_outside_pixels_partial.

(** With several threads the same memory and result as with one. *)
Theorem C59_multi_thread : forall lm b threads m src sps ws vs dst dps wd vd o,
  window_of src sps ws vs -> window_of dst dps wd vd -> strides_444 (im_format src) sps -> planes_disjoint dps ->
  0 < win_width ws -> 0 < win_height ws -> 0 < threads ->
  convert_multi_thread lm b threads m vs vd o ->
  snd o = snd (convert lm b m vs vd) /\ same_memory (apply_all m (fst o)) (apply_all m (fst (convert lm b m vs vd))).
Proof.
  intros lm b threads m src sps ws vs dst dps wd vd o WS WD ST PD W0 H0 T0 R.
  destruct (window_planes _ _ _ _ WS) as (scs & SP). destruct (window_planes _ _ _ _ WD) as (dcs & DP).
  destruct (valid_ready _ _ (proj1 WS)) as (_ & _ & LS & _). destruct (valid_ready _ _ (proj1 WD)) as (_ & _ & LD & _).
  apply (C39_multi_thread_equals_convert lm b threads m vs scs vd dcs o (vp_valid _ _ _ _ _ SP) (vp_valid _ _ _ _ _ DP)
    (view_strides _ _ _ _ _ SP LS ST) (view_disjoint _ _ _ _ _ DP LD PD)); auto.
  - rewrite (vp_width _ _ _ _ _ SP). exact W0.
  - rewrite (vp_height _ _ _ _ _ SP). exact H0.
Qed.
Print Assumptions C59_multi_thread.

(** The middle of an 8 x 8 I420 image, converted to the middle of a 6 x 8 RGB
    image *)
Definition win_src_planes : list (slice * nat) := [(Slice 0 0 64, 8); (Slice 1 0 16, 4); (Slice 2 0 16, 4)].
Definition win_src : image := ex_image I420 8 8 ex_yuv win_src_planes.
Definition win_dst_planes : list (slice * nat) := [(Slice 3 0 144, 18)].
Definition win_dst : image := ex_image RGB 6 8 ex_rgb win_dst_planes.
Definition win_s : window := Window 2 4 4 2.
Definition win_d : window := Window 1 3 4 2.

Example C59_example :
  window_of win_src win_src_planes win_s (cropped win_src win_s) /\
  window_of win_dst win_dst_planes win_d (cropped win_dst win_d) /\
  strides_444 I420 win_src_planes /\ planes_disjoint win_dst_planes /\ whole_chroma RGB 6 8 /\
  (forall b, snd (convert ex_lm b ex_mem (cropped win_src win_s) (cropped win_dst win_d)) = Ok tt) /\
  in_window win_d 1 4 /\ ~ in_window win_d 5 4 /\
  (let m' := apply_all ex_mem (fst (convert ex_lm AVX2 ex_mem (cropped win_src win_s) (cropped win_dst win_d))) in
   component m' RGB win_dst_planes CR 1 4 <> component ex_mem RGB win_dst_planes CR 1 4 /\
  component m' RGB win_dst_planes CR 5 4 = component ex_mem RGB win_dst_planes CR 5 4).
Proof.
  assert (V : forall f w h c ps, Forall (fun pl : slice * nat => usize (s_len (fst pl)) /\ usize (snd pl)) ps ->
    image_bounds_check (ex_image f w h c ps) = Ok tt -> valid_image (ex_image f w h c ps) ps) by (intros; repeat split; auto).
  split; [|split; [|split; [|split; [|split; [|split; [|split; [|split]]]]]]].
  - split; [apply V; [repeat constructor; cbn; unfold usize; cbn; lia|reflexivity]|]. split; [reflexivity|]. split; [eexists; reflexivity|].
    split; [split; [exists 1|exists 2]; reflexivity|left; reflexivity].
  - split; [apply V; [repeat constructor; cbn; unfold usize; cbn; lia|reflexivity]|]. split; [reflexivity|]. split; [eexists; reflexivity|].
    split; [exact I|left; reflexivity].
  - discriminate.
  - apply one_disjoint.
  - exact I.
  - intros []; vm_compute; reflexivity.
  - unfold in_window; cbn; lia.
  - unfold in_window; cbn; lia.
  - vm_compute. split; [discriminate|reflexivity].
Qed.

(** For windows of 16-bit images that do not start in the first row this is
    false: converting to the window in row 2 of an I410 image changes row 4, which
    is not in the window, and leaves the window as it was. *)
Definition win16_planes : list (slice * nat) := [(Slice 3 0 32, 4); (Slice 4 0 32, 4); (Slice 5 0 32, 4)].
Definition win16 : image := ex_image I410 2 8 ex_yuv win16_planes.

Theorem C59_16bit_refuted :
  let src := ex_image RGB 2 2 ex_rgb [(Slice 0 0 12, 6)] in
  let wd := Window 0 2 2 2 in
  exists vd, crop_new win16 wd = Ok vd /\ valid_image win16 win16_planes /\ even_offsets I410 wd /\ planes_disjoint win16_planes /\
  forall b, let m' := apply_all ex_mem (fst (convert ex_lm b ex_mem src vd)) in
    snd (convert ex_lm b ex_mem src vd) = Ok tt /\
    (forall x y, in_window wd x y -> component m' I410 win16_planes CY x y = component ex_mem I410 win16_planes CY x y) /\
    ~ in_window wd 0 4 /\ component m' I410 win16_planes CY 0 4 <> component ex_mem I410 win16_planes CY 0 4.
Proof.
  intros src wd. exists (cropped win16 wd). split; [reflexivity|].
  split; [split; [reflexivity|split; [repeat constructor; cbn; unfold usize; cbn; lia|reflexivity]]|].
  split; [exact I|]. split.
  - intros i j a c NE NA NB k (E & _). apply NE.
    destruct i as [|[|[|i]]], j as [|[|[|j]]]; try reflexivity; cbn in NA, NB;
      try (destruct i; discriminate NA); try (destruct j; discriminate NB); injection NA as <-; injection NB as <-; discriminate E.
  - assert (W : forall x y, in_window wd x y -> (x = 0 \/ x = 1) /\ (y = 2 \/ y = 3)) by (intros x y [A B]; cbn in A, B; lia).
    intros []; (split; [vm_compute; reflexivity|]);
      (split; [intros x y HW; destruct (W x y HW) as [[-> | ->] [-> | ->]]; vm_compute; reflexivity|]);
      (split; [intros [_ A]; cbn in A; lia|vm_compute; discriminate]).
Qed.
Print Assumptions C59_16bit_refuted.

(** * C60 *)

(** Partial as C59. *)

Lemma odd_no_copy : forall m src sps dst dps, valid_image src sps -> valid_image dst dps ->
  Nat.Odd (im_width dst) \/ Nat.Odd (im_height dst) ->
  forall buf i, after_copy m src dst buf i = m buf i.
Proof.
  intros m src sps dst dps VS VD HO buf i.
  assert (E : exists e, copy_result src dst = Err e).
  { unfold copy_result. destruct (Nat.eqb_spec (im_width src) (im_width dst)) as [->|]; [|eexists; reflexivity].
    destruct (Nat.eqb_spec (im_height src) (im_height dst)) as [->|]; [|eexists; reflexivity]. cbn [andb negb].
    destruct HO as [O|O]; apply Nat.odd_spec in O; rewrite O, ?orb_true_r; eexists; reflexivity. }
  assert (WS : forall ps, im_planes src = Ok ps -> wf_planes ps).
  { intros ps X. destruct VS as (X' & W & _). rewrite X in X'. injection X' as ->. exact W. }
  assert (WD : forall ps, im_planes dst = Ok ps -> wf_planes ps).
  { intros ps X. destruct VD as (X' & W & _). rewrite X in X'. injection X' as ->. exact W. }
  destruct E as [e E]. rewrite <- (C43_result m src dst WS WD) in E.
  unfold after_copy. rewrite (C43_error_no_store m src dst e WS WD E). reflexivity.
Qed.

(** Copying from a window to a window of the same format: the pixels of the
    destination window become those of the source window, *)
Theorem C60_inside_partial : forall m src sps ws vs dst dps wd vd,
  window_of src sps ws vs -> window_of dst dps wd vd -> planes_disjoint dps ->
  snd (copy m vs vd) = Ok tt ->
  forall c x y, x < win_width wd -> y < win_height wd ->
  component (after_copy m vs vd) (im_format dst) dps c (win_x wd + x) (win_y wd + y)
    = component m (im_format src) sps c (win_x ws + x) (win_y ws + y).
Proof.
  intros m src sps ws vs dst dps wd vd WS WD PD OK c x y Hx Hy.
  destruct (window_planes _ _ _ _ WS) as (scs & SP). destruct (window_planes _ _ _ _ WD) as (dcs & DP).
  destruct (valid_ready _ _ (proj1 WD)) as (_ & _ & LD & _).
  rewrite <- (vp_component _ _ _ _ _ DP), <- (vp_component _ _ _ _ _ SP), <- (vp_format _ _ _ _ _ DP), <- (vp_format _ _ _ _ _ SP).
  apply (C43_samples m vs scs vd dcs (vp_valid _ _ _ _ _ SP) (vp_valid _ _ _ _ _ DP) (view_disjoint _ _ _ _ _ DP LD PD) OK).
  - rewrite (vp_width _ _ _ _ _ DP). exact Hx.
  - rewrite (vp_height _ _ _ _ _ DP). exact Hy.
Qed.
Print Assumptions C60_inside_partial.

(** and nothing else changes, whatever the outcome.  (Copying between whole
    images also copies spare rows of the planes, see C43_refuted; the planes of a
    window have none.) *)
Theorem C60_outside_bytes_partial : forall m src sps ws vs dst dps wd vd,
  window_of src sps ws vs -> window_of dst dps wd vd -> planes_disjoint dps ->
  forall buf i, ~ window_byte (im_format dst) dps wd buf i -> after_copy m vs vd buf i = m buf i.
Proof.
  intros m src sps ws vs dst dps wd vd WS WD PD buf i NW.
  destruct (window_planes _ _ _ _ WS) as (scs & SP). destruct (window_planes _ _ _ _ WD) as (dcs & DP).
  destruct (valid_ready _ _ (proj1 WD)) as (_ & _ & LD & _).
  assert (NS : no_spare_rows (im_format vd) scs dcs (im_height vd)).
  { intros p sp dp Hp _ N. right. rewrite (vp_format _ _ _ _ _ DP), (vp_height _ _ _ _ _ DP) in *.
    destruct (nth_error dps p) as [pl|] eqn:E; [|apply nth_error_None in E; lia].
    destruct (vp_plane _ _ _ _ _ DP p pl Hp E) as [_ Q]. rewrite Q in N. injection N as <-.
    unfold whole_rows, crop_slice. cbn [fst snd s_len]. destruct (Nat.eq_dec (snd pl) 0) as [Z|Z]; [rewrite Z; apply Nat.le_0_l|].
    rewrite Nat.div_mul by exact Z. apply Nat.le_refl. }
  pose proof (C43_only_samples m vs scs vd dcs (vp_valid _ _ _ _ _ SP) (vp_valid _ _ _ _ _ DP) (view_disjoint _ _ _ _ _ DP LD PD) NS buf i) as F.
  destruct (Nat.Even_or_Odd (win_width wd)) as [EW|OW].
  - destruct (Nat.Even_or_Odd (win_height wd)) as [EH|OH].
    + apply F. intros SB. apply NW. apply (view_bytes _ _ _ _ _ _ _ WD DP); auto using even_whole.
    + apply (odd_no_copy m vs scs vd dcs (vp_valid _ _ _ _ _ SP) (vp_valid _ _ _ _ _ DP)). rewrite (vp_height _ _ _ _ _ DP). right. exact OH.
  - apply (odd_no_copy m vs scs vd dcs (vp_valid _ _ _ _ _ SP) (vp_valid _ _ _ _ _ DP)). rewrite (vp_width _ _ _ _ _ DP). left. exact OW.
Qed.
Print Assumptions C60_outside_bytes_partial.

Theorem C60_outside_pixels_partial : forall m src sps ws vs dst dps wd vd,
  window_of src sps ws vs -> window_of dst dps wd vd -> planes_disjoint dps ->
  whole_chroma (im_format dst) (im_width dst) (im_height dst) ->
  forall c x y, x < im_width dst -> y < im_height dst -> ~ in_window wd x y ->
  component (after_copy m vs vd) (im_format dst) dps c x y = component m (im_format dst) dps c x y.
Proof.
  intros m src sps ws vs dst dps wd vd WS WD PD WC c x y Hx Hy NI.
  destruct (window_planes _ _ _ _ WS) as (scs & SP). destruct (window_planes _ _ _ _ WD) as (dcs & DP).
  apply component_bytes. intros buf i CB.
  destruct (Nat.Even_or_Odd (win_width wd)) as [EW|OW].
  - destruct (Nat.Even_or_Odd (win_height wd)) as [EH|OH].
    + apply (C60_outside_bytes_partial m src sps ws vs dst dps wd vd WS WD PD).
      apply (beside_window dst dps wd vd c x y buf i); auto using even_whole.
    + apply (odd_no_copy m vs scs vd dcs (vp_valid _ _ _ _ _ SP) (vp_valid _ _ _ _ _ DP)). rewrite (vp_height _ _ _ _ _ DP). right. exact OH.
  - apply (odd_no_copy m vs scs vd dcs (vp_valid _ _ _ _ _ SP) (vp_valid _ _ _ _ _ DP)). rewrite (vp_width _ _ _ _ _ DP). left. exact OW.
Qed.
Print Assumptions C60_outside_pixels_partial.

(** A window of an I420 image copied to another place of an image of that format *)
Definition win_copy_planes : list (slice * nat) := [(Slice 3 0 80, 10); (Slice 4 0 20, 5); (Slice 5 0 20, 5)].
Definition win_copy : image := ex_image I420 10 8 ex_yuv win_copy_planes.
Example C60_example :
  let vs := cropped win_src win_s in let wd := Window 4 2 4 2 in let vd := cropped win_copy wd in
  window_of win_copy win_copy_planes wd vd /\ planes_disjoint win_copy_planes /\ whole_chroma I420 10 8 /\
  snd (copy ex_mem vs vd) = Ok tt /\
  component (after_copy ex_mem vs vd) I420 win_copy_planes CU 4 2 = component ex_mem I420 win_src_planes CU 2 4 /\
  component (after_copy ex_mem vs vd) I420 win_copy_planes CU 4 2 <> component ex_mem I420 win_copy_planes CU 4 2 /\
  component (after_copy ex_mem vs vd) I420 win_copy_planes CU 4 4 = component ex_mem I420 win_copy_planes CU 4 4.
Proof.
  intros vs wd vd. split; [|split; [|split]].
  - split; [split; [reflexivity|split; [repeat constructor; cbn; unfold usize; cbn; lia|reflexivity]]|].
    split; [reflexivity|]. split; [eexists; reflexivity|]. split; [split; [exists 2|exists 1]; reflexivity|left; reflexivity].
  - intros i j a c NE NA NB k (E & _). apply NE.
    destruct i as [|[|[|i]]], j as [|[|[|j]]]; try reflexivity; cbn in NA, NB;
      try (destruct i; discriminate NA); try (destruct j; discriminate NB); injection NA as <-; injection NB as <-; discriminate E.
  - split; [exists 5|exists 4]; reflexivity.
  - vm_compute. repeat split; discriminate.
Qed.
