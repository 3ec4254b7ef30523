(** C83 for every window, whatever its offset and the bit depth: resizing works
    on exactly the samples that the windows show (C10_crop_exact). *)

From Coq Require Import List ZArith Bool Arith Lia.
From Verif Require Import Base Types Planes ImageM Crop Copy MultiThread Resize SpecGeom SpecCrop SpecConvert SpecRun SpecExec SpecCopy SpecResize SpecWindow.
From Verif Require Import WriteProofs VisitProofs GeomProofs CropProofs ConvertProofs ResizeProofs CopyProofs WindowProofs PropConvert PropCopy PropResize PropWindow
  PropResizeWin PropCropExact PropWindowExact.
Import ListNotations.

Lemma exact_resizable : forall t ps win v cps, exact_view t ps win v cps ->
  whole_pixels (im_format t) (win_width win) -> strides_positive (im_format t) ps -> small_window win -> resizable v cps.
Proof.
  intros t ps win v cps VP WP SP (SW & SH). pose proof (xv_src_length _ _ _ _ _ VP) as HL. split; [apply VP|].
  rewrite (xv_format _ _ _ _ _ VP), (xv_width _ _ _ _ _ VP), (xv_height _ _ _ _ _ VP). split; [exact WP|]. split; [apply VP|].
  assert (PL : forall p pl, p < n_planes (im_format t) -> nth_error cps p = Some pl ->
    exists pl0, nth_error ps p = Some pl0 /\ pl = crop_slice (im_format t) win p pl0).
  { intros p pl Hp N. destruct (nth_error ps p) as [pl0|] eqn:EN; [|apply nth_error_None in EN; lia].
    destruct (xv_plane _ _ _ _ _ VP p pl0 Hp EN) as [_ Q]. rewrite Q in N. injection N as <-. eauto. }
  split.
  - intros p pl Hp N. destruct (PL p pl Hp N) as (pl0 & EN & ->). exact (SP p pl0 Hp EN).
  - intros p pl Hp N. destruct (PL p pl Hp N) as (pl0 & EN & ->). pose proof (SP p pl0 Hp EN) as S0.
    unfold whole_rows, crop_slice. cbn [fst snd s_len]. rewrite Nat.div_mul by lia. split; [reflexivity|].
    pose proof (cols_le (im_format t) p (win_width win)). pose proof (rows_le (im_format t) p (win_height win)). lia.
Qed.

Lemma exact_aligned : forall addr t ps win v cps, exact_view t ps win v cps ->
  words_aligned addr (im_format t) ps -> words_aligned addr (im_format v) cps.
Proof.
  intros addr t ps win v cps VP AL. pose proof (xv_src_length _ _ _ _ _ VP) as HL. rewrite (xv_format _ _ _ _ _ VP). intros S2 pl I.
  apply In_nth_error in I as [p N].
  assert (Hp : p < n_planes (im_format t)) by (rewrite <- (xv_length _ _ _ _ _ VP); apply nth_error_Some; congruence).
  destruct (nth_error ps p) as [pl0|] eqn:EN; [|apply nth_error_None in EN; lia].
  destruct (xv_plane _ _ _ _ _ VP p pl0 Hp EN) as [_ Q]. rewrite Q in N. injection N as <-.
  destruct (AL S2 pl0 (nth_error_In _ _ EN)) as [A B]. unfold crop_slice, crop_off. cbn [fst snd s_buf s_off]. rewrite S2. split; [|exact B].
  rewrite Nat2Z.inj_add, Z.add_assoc, Z.even_add, A, Nat2Z.inj_mul, Z.even_mul, orb_true_r. reflexivity.
Qed.

(** Only bytes that the destination's window shows are changed. *)
Theorem C83_outside_exact : forall F addr threads m (rz : resizer F) src sps ws vs dst dps wd vd rz' o,
  stores_in_rows F addr -> any_window src sps ws vs -> any_window dst dps wd vd ->
  whole_pixels (im_format src) (win_width ws) -> whole_pixels (im_format dst) (win_width wd) ->
  strides_positive (im_format src) sps -> strides_positive (im_format dst) dps -> small_window ws -> small_window wd ->
  words_aligned addr (im_format dst) dps ->
  resize F threads m rz vs vd rz' o ->
  forall b i, ~ shown_byte (im_format dst) dps wd b i -> apply_all m (fst o) b i = m b i.
Proof.
  intros F addr threads m rz src sps ws vs dst dps wd vd rz' o ST WS WD PS PD SS SD MS MD AL R b i NW.
  destruct (view_exact _ _ _ _ WS) as (scs & VS). destruct (view_exact _ _ _ _ WD) as (dcs & VD).
  apply (C45_only_samples F addr threads m rz vs scs vd dcs rz' o ST (exact_aligned _ _ _ _ _ _ VD AL)
    (exact_resizable _ _ _ _ _ VS PS SS MS) (exact_resizable _ _ _ _ _ VD PD SD MD) R).
  intros SB. apply NW. exact (exact_bytes _ _ _ _ _ _ _ VD SB).
Qed.
Print Assumptions C83_outside_exact.

(** What the source's window does not show does not matter. *)
Theorem C83_depends_exact : forall F addr threads m m' (rz : resizer F) src sps ws vs dst dps wd vd rz' o,
  loads_from_rows F addr -> any_window src sps ws vs -> any_window dst dps wd vd ->
  whole_pixels (im_format src) (win_width ws) -> whole_pixels (im_format dst) (win_width wd) ->
  strides_positive (im_format src) sps -> strides_positive (im_format dst) dps -> small_window ws -> small_window wd ->
  words_aligned addr (im_format src) sps ->
  (forall b i, shown_byte (im_format src) sps ws b i -> m b i = m' b i) ->
  (resize F threads m rz vs vd rz' o <-> resize F threads m' rz vs vd rz' o).
Proof.
  intros F addr threads m m' rz src sps ws vs dst dps wd vd rz' o LO WS WD PS PD SS SD MS MD AL SM.
  destruct (view_exact _ _ _ _ WS) as (scs & VS). destruct (view_exact _ _ _ _ WD) as (dcs & VD).
  apply (C45_depends_on_source_samples F addr threads m m' rz vs scs vd dcs rz' o LO (exact_aligned _ _ _ _ _ _ VS AL)
    (exact_resizable _ _ _ _ _ VS PS SS MS) (exact_resizable _ _ _ _ _ VD PD SD MD)).
  intros b i SB. apply SM. exact (exact_bytes _ _ _ _ _ _ _ VS SB).
Qed.
Print Assumptions C83_depends_exact.

(** Resizing a window gives the same as resizing an image that consists of what
    the window shows. *)
Theorem C83_picture_exact : forall F addr threads m m' (rz : resizer F) t ps win v src sps dst dps rz' o,
  looks_at_pixels F addr -> any_window t ps win v -> resizable src sps -> resizable dst dps ->
  whole_pixels (im_format t) (win_width win) -> strides_positive (im_format t) ps -> small_window win ->
  words_aligned addr (im_format t) ps -> words_aligned addr (im_format src) sps -> bytes_ok m -> bytes_ok m' ->
  im_format t = im_format src -> win_width win = im_width src -> win_height win = im_height src ->
  (forall c x y, x < im_width src -> y < im_height src ->
     shown_at m (im_format t) ps win c x y = component m' (im_format src) sps c x y) ->
  (resize F threads m rz v dst rz' o <-> resize F threads m' rz src dst rz' o).
Proof.
  intros F addr threads m m' rz t ps win v src sps dst dps rz' o LP WO RS RD WP SP SW AL AL' B B' EF EW EH EQ.
  destruct (view_exact _ _ _ _ WO) as (cps & VP).
  apply (C83_same_picture F addr threads m m' rz v cps src sps dst dps rz' o LP (exact_resizable _ _ _ _ _ VP WP SP SW) RS RD
    (exact_aligned _ _ _ _ _ _ VP AL) AL' B B').
  - rewrite (xv_format _ _ _ _ _ VP). exact EF.
  - rewrite (xv_width _ _ _ _ _ VP). exact EW.
  - rewrite (xv_height _ _ _ _ _ VP). exact EH.
  - rewrite (xv_format _ _ _ _ _ VP), (xv_width _ _ _ _ _ VP), (xv_height _ _ _ _ _ VP), EW, EH. intros c x y Hx Hy.
    rewrite (xv_shown _ _ _ _ _ VP). apply EQ; assumption.
Qed.
Print Assumptions C83_picture_exact.

(** An odd window of an I420 image to a window of another: chroma is that of the
    samples on the left and above. *)
Example C83_exact_example :
  let ws := Window 1 1 4 2 in let wd := Window 3 1 4 4 in
  let vs := cropped win_src ws in let vd := cropped win_copy wd in
  stores_in_rows near addr0 /\ loads_from_rows near addr0 /\ looks_at_pixels near addr0 /\
  any_window win_src win_src_planes ws vs /\ any_window win_copy win_copy_planes wd vd /\
  small_window ws /\ small_window wd /\
  shown_at ex_mem I420 win_src_planes ws CU 0 0 = component ex_mem I420 win_src_planes CU 0 0 /\
  shown_at ex_mem I420 win_src_planes ws CY 0 0 = component ex_mem I420 win_src_planes CY 1 1 /\
  exists rz o, resize near false ex_mem (resizer_new (F := near) tt) vs vd rz o /\ snd o = Ok tt.
Proof.
  intros ws wd vs vd. split; [exact near_stores|]. split; [exact near_loads|]. split; [exact near_pixels|].
  split; [split; [split; [reflexivity|split; [repeat constructor; cbn; unfold usize; cbn; lia|reflexivity]]|split; [reflexivity|eexists; reflexivity]]|].
  split; [split; [split; [reflexivity|split; [repeat constructor; cbn; unfold usize; cbn; lia|reflexivity]]|split; [reflexivity|eexists; reflexivity]]|].
  split; [split; reflexivity|]. split; [split; reflexivity|]. split; [reflexivity|]. split; [reflexivity|].
  eexists _, _. split; [unfold resize; cbn; eexists; split; reflexivity|]. vm_compute. reflexivity.
Qed.
