(** Properties C01 - C12: plane geometry, image construction, cropping. *)

From Coq Require Import List ZArith Bool Arith Lia.
From Verif Require Import Base Types Planes ImageM Crop SpecGeom SpecCrop.
From Verif Require Import GeomProofs GeomProofs2 GeomProofs3 CropProofs.
Import ListNotations.

(** A color info used by the examples. *)
Definition ci0 : color_info := CYUV (YuvCI TLinear PrBT709 SpBT709 true).

(* ------------------------------------------------------------------ *)
(** * C01 *)

(** A buffer of exactly [buffer_size] bytes is accepted, and its planes tile it. *)
Theorem C01_buffer_size_sufficient : forall f b off n w h c,
  w <> 0 -> h <> 0 -> @buffer_size noerr f w h = Ok n ->
  exists im ps, from_buffer f (Slice b off n) None w h c = Ok im /\
    im_planes (image_of im) = Ok ps /\ length ps = n_planes f /\
    tiles (Slice b off n) (map fst ps).
Proof. exact from_buffer_exact. Qed.
Print Assumptions C01_buffer_size_sufficient.

(** A buffer is accepted iff it has at least [buffer_size] bytes. *)
Theorem C01_buffer_size_necessary : forall f w h n buf c,
  w <> 0 -> h <> 0 -> usize (s_len buf) -> @buffer_size noerr f w h = Ok n ->
  ((exists im, from_buffer f buf None w h c = Ok im) <-> n <= s_len buf).
Proof. exact buffer_size_minimal. Qed.
Print Assumptions C01_buffer_size_necessary.

(** [buffer_size] is the number of bytes of all rows of all planes; it panics
    iff that number is not a usize. *)
Theorem C01_buffer_size_value : forall f w h n,
  @buffer_size noerr f w h = Ok n -> n = tight_size f w h.
Proof. intros f w h n H. exact (proj1 (buffer_size_inv _ _ _ _ _ H)). Qed.
Print Assumptions C01_buffer_size_value.

Theorem C01_buffer_size_panics : forall f w h, h <> 0 ->
  ((exists n, @buffer_size noerr f w h = Ok n) <-> usize (tight_size f w h)) /\
  ((exists q, @buffer_size noerr f w h = Panic q) <-> ~ usize (tight_size f w h)).
Proof. exact buffer_size_panics. Qed.
Print Assumptions C01_buffer_size_panics.

Example C01_example : @buffer_size noerr I420 5 3 = Ok 19 /\ @buffer_size noerr I010 4 4 = Ok 48 /\
  @buffer_size noerr NV12 6 4 = Ok 36 /\ @buffer_size noerr RGB 7 2 = Ok 42.
Proof. repeat split. Qed.

(* ------------------------------------------------------------------ *)
(** * C02 *)

Theorem C02_bounds_check_iff : forall f ps w h, wf_planes ps ->
  (bounds_check f ps w h = Ok tt <->
   n_planes f <= length ps /\
   forall p s stride, p < n_planes f -> nth_error ps p = Some (s, stride) ->
     row_bytes f p w <= stride /\ stride * plane_rows f p h <= s_len s).
Proof.
  intros f ps w h W. rewrite (bounds_check_iff f ps w h W). unfold planes_fit, plane_fits.
  split; intros [A B]; (split; [exact A|]); intros p.
  - intros s st Hp Hn. exact (B p (s, st) Hp Hn).
  - intros [s st] Hp Hn. exact (B p s st Hp Hn).
Qed.
Print Assumptions C02_bounds_check_iff.

(** The error is the first violated requirement. *)
Theorem C02_bounds_check_error : forall f ps w h e,
  bounds_check f ps w h = Err e ->
  (length ps < n_planes f /\ e = InvalidNumberOfPlanes (n_planes f) (length ps)) \/
  (n_planes f <= length ps /\ exists p pl, p < n_planes f /\ nth_error ps p = Some pl /\
    (forall q pl', q < p -> nth_error ps q = Some pl' -> plane_fits f w h q pl') /\
    ((snd pl < row_bytes f p w /\ e = InvalidStride p (row_bytes f p w) (snd pl)) \/
     (row_bytes f p w <= snd pl /\ s_len (fst pl) < snd pl * plane_rows f p h /\
       e = InvalidPlaneSize p (snd pl * plane_rows f p h) (s_len (fst pl))))).
Proof. intros f ps w h e H. generalize (bounds_check_shape f ps w h). rewrite H. exact (fun x => x). Qed.
Print Assumptions C02_bounds_check_error.

(** It panics only if a row size or [stride * rows] is not a usize. *)
Theorem C02_bounds_check_panic : forall f ps w h q,
  bounds_check f ps w h = Panic q ->
  exists p pl, p < n_planes f /\ nth_error ps p = Some pl /\
    ~ (usize (row_bytes f p w) /\ usize (snd pl * plane_rows f p h)).
Proof.
  intros f ps w h q H. generalize (bounds_check_shape f ps w h). rewrite H. exact (fun x => proj2 x).
Qed.
Print Assumptions C02_bounds_check_panic.

Example C02_example_ok :
  bounds_check I420 [(Slice 0 0 20, 5); (Slice 0 20 6, 3); (Slice 1 0 4, 2)] 4 4 = Ok tt.
Proof. reflexivity. Qed.
Example C02_example_err :
  bounds_check I420 [(Slice 0 0 20, 5); (Slice 0 20 5, 3); (Slice 1 0 4, 2)] 4 4 = Err (InvalidPlaneSize 1 6 5).
Proof. reflexivity. Qed.
Example C02_example_stride :
  bounds_check I210 [(Slice 0 0 32, 8); (Slice 0 20 99, 3); (Slice 1 0 4, 2)] 4 4 = Err (InvalidStride 1 4 3).
Proof. reflexivity. Qed.
(** The panic case is reachable: a stride of 2^63. *)
Example C02_panic_example : forall stride, Z.of_nat stride = (2 ^ 63)%Z ->
  usize stride /\ bounds_check RGB [(Slice 0 0 10, stride)] 1 2 = Panic POverflow.
Proof.
  intros stride U. split; [unfold usize, usize_max; rewrite U; lia|].
  unfold bounds_check, read_planes. cbn [plane_descs RGB_PLANES length Nat.leb bind firstn bounds_check_loop].
  replace (packed_stride _ 1) with (@Ok bounds_error _ 3) by reflexivity. cbn [bind].
  destruct (Nat.ltb_spec stride 3) as [C|_]; [lia|].
  cbn [op_apply height_op bind].
  unfold strict_mul, fits, usize_max. rewrite U. reflexivity.
Qed.

(* ------------------------------------------------------------------ *)
(** * C03 *)

(** Any plane set with the strides of [packed_strides] and enough rows is accepted. *)
Theorem C03_packed_strides_accepted : forall f w h st ps,
  @packed_strides noerr f w = Ok st -> wf_planes ps -> map snd ps = st ->
  (forall p s stride, nth_error ps p = Some (s, stride) -> stride * plane_rows f p h <= s_len s) ->
  bounds_check f ps w h = Ok tt.
Proof.
  intros f w h st ps H W M L. apply packed_strides_inv in H as [-> _].
  apply bounds_check_complete; auto. split.
  - rewrite <- (map_length snd ps), M, tight_strides_length. auto.
  - intros p [s stp] Hp Hn. split; [|exact (L _ _ _ Hn)]. simpl.
    assert (E : nth_error (map snd ps) p = Some stp) by (rewrite nth_error_map, Hn; reflexivity).
    rewrite M in E. apply nth_error_nth with (d := 0) in E.
    rewrite nth_tight_strides in E by auto. lia.
Qed.
Print Assumptions C03_packed_strides_accepted.

(** A stride below the packed one is never accepted. *)
Theorem C03_packed_strides_minimal : forall f w h st ps p s stride,
  @packed_strides noerr f w = Ok st -> p < n_planes f ->
  nth_error ps p = Some (s, stride) -> stride < nth p st 0 ->
  bounds_check f ps w h <> Ok tt.
Proof.
  intros f w h st ps p s stride H Hp Hn Hlt C. apply packed_strides_inv in H as [-> _].
  rewrite nth_tight_strides in Hlt by auto.
  apply bounds_check_sound in C as [_ C]. destruct (C p _ Hp Hn) as [X _]. simpl in X. lia.
Qed.
Print Assumptions C03_packed_strides_minimal.

Example C03_example : @packed_strides noerr I012 6 = Ok [12; 6; 6] /\ @packed_strides noerr YUYV 6 = Ok [12].
Proof. split; reflexivity. Qed.

(* ------------------------------------------------------------------ *)
(** * C04 *)

Theorem C04_samples_in_bounds : forall f ps w h c x y p r col,
  bounds_check f ps w h = Ok tt ->
  w mod 2 = 0 -> h mod 2 = 0 -> x < w -> y < h ->
  layout f c x y = Some (p, r, col) ->
  exists s stride, nth_error ps p = Some (s, stride) /\
    r * stride + col * sample_bytes f + sample_bytes f <= s_len s /\
    col * sample_bytes f + sample_bytes f <= stride.
Proof.
  intros f ps w h c x y p r col BC Hw Hh Hx Hy HL.
  apply bounds_check_sound in BC as [L F].
  destruct (layout_in_plane f c x y w h p r col Hw Hh Hx Hy HL) as (Hp & Hr & Hc).
  destruct (nth_error ps p) as [[s st]|] eqn:E; [|apply nth_error_None in E; lia].
  exists s, st. split; auto. pose proof (F p _ Hp E) as FF. split.
  - exact (sample_in_slice f (s, st) w h p r col FF Hr Hc).
  - destruct FF as [A _]. unfold row_bytes in A. simpl in A. nia.
Qed.
Print Assumptions C04_samples_in_bounds.

Example C04_example : exists s stride,
  nth_error [(Slice 0 0 8, 4); (Slice 0 8 4, 4)] 1 = Some (s, stride) /\
  bounds_check NV12 [(Slice 0 0 8, 4); (Slice 0 8 4, 4)] 4 2 = Ok tt /\
  layout NV12 CV 3 1 = Some (1, 0, 3) /\ 0 * stride + 3 * 1 + 1 = s_len s.
Proof. do 2 eexists. repeat split. Qed.

(* ------------------------------------------------------------------ *)
(** * C05 *)

(** Successful inference: number, position and size of the planes. *)
Theorem C05_infer_layout : forall f buf w h st ps,
  usize (s_len buf) -> infer f buf w h (Some st) = Ok ps ->
  (n_planes f = 1 -> ps = [buf]) /\
  (n_planes f <> 1 ->
     ps = consecutive (s_buf buf) (s_off buf)
            (map (fun p => nth p st 0 * plane_rows f p h) (seq 0 (n_planes f)))).
Proof.
  intros f buf w h st ps U H.
  apply (proj1 (proj2 (infer_ok_iff f buf w h st U))) in H. subst.
  unfold inferred. destruct (Nat.eqb_spec (n_planes f) 1); split; intros; tauto || reflexivity.
Qed.
Print Assumptions C05_infer_layout.

Theorem C05_infer_panics_iff : forall f buf w h st, usize (s_len buf) ->
  ((exists q, infer f buf w h (Some st) = Panic q) <->
   n_planes f <> 1 /\ (length st <> n_planes f \/
      s_len buf < total (map (fun p => nth p st 0 * plane_rows f p h) (seq 0 (n_planes f))))).
Proof.
  intros f buf w h st U. rewrite (proj2 (proj2 (infer_ok_iff f buf w h st U))).
  unfold plane_sizes. lia.
Qed.
Print Assumptions C05_infer_panics_iff.

Theorem C05_infer_disjoint : forall f buf w h st ps p q a c,
  usize (s_len buf) -> infer f buf w h (Some st) = Ok ps ->
  p <> q -> nth_error ps p = Some a -> nth_error ps q = Some c -> disjoint_slices a c.
Proof.
  intros f buf w h st ps p q a c U H. apply (proj1 (proj2 (infer_ok_iff f buf w h st U))) in H. subst.
  unfold inferred. destruct (n_planes f =? 1).
  - exact (proj2 (single_tiles buf) p q a c).
  - intros. eapply consecutive_disjoint; eauto.
Qed.
Print Assumptions C05_infer_disjoint.

(** Without strides the packed ones are used. *)
Theorem C05_infer_default_strides : forall f buf w h, n_planes f <> 1 ->
  infer f buf w h None = bind (packed_strides f w) (fun st => infer f buf w h (Some st)).
Proof. exact infer_none. Qed.
Print Assumptions C05_infer_default_strides.

Example C05_example : infer I420 (Slice 7 100 30) 4 4 (Some [5; 2; 3]) =
  Ok [Slice 7 100 20; Slice 7 120 4; Slice 7 124 6].
Proof. reflexivity. Qed.

(* ------------------------------------------------------------------ *)
(** * C06 *)

Theorem C06_from_buffer_invariant : forall f buf st w h c im,
  from_buffer f buf st w h c = Ok im ->
  im_width (image_of im) = w /\ im_height (image_of im) = h /\ im_format (image_of im) = f /\
  im_color (image_of im) = c /\ w <> 0 /\ h <> 0 /\
  (exists ps, im_planes (image_of im) = Ok ps /\ planes_fit f ps w h) /\
  image_bounds_check (image_of im) = Ok tt.
Proof. intros f buf. exact (constructor_invariant f (Whole buf)). Qed.
Print Assumptions C06_from_buffer_invariant.

Theorem C06_from_planes_invariant : forall f planes st w h c im,
  from_planes f planes st w h c = Ok im ->
  im_width (image_of im) = w /\ im_height (image_of im) = h /\ im_format (image_of im) = f /\
  im_color (image_of im) = c /\ w <> 0 /\ h <> 0 /\
  (exists ps, im_planes (image_of im) = Ok ps /\ planes_fit f ps w h) /\
  image_bounds_check (image_of im) = Ok tt.
Proof. intros f planes. exact (constructor_invariant f (Split planes)). Qed.
Print Assumptions C06_from_planes_invariant.

Theorem C06_zero_dimensions : forall f buf planes st w h c, w = 0 \/ h = 0 ->
  from_buffer f buf st w h c = Err InvalidDimensions /\
  from_planes f planes st w h c = Err InvalidDimensions.
Proof. intros. split; apply constructor_zero; assumption. Qed.
Print Assumptions C06_zero_dimensions.

(** [from_planes] with explicit strides succeeds iff the dimensions are
    non-zero and the planes suffice. *)
Theorem C06_from_planes_iff : forall f planes st w h c,
  wf_planes (combine planes st) ->
  ((exists im, from_planes f planes (Some st) w h c = Ok im) <->
   w <> 0 /\ h <> 0 /\ planes_fit f (combine planes st) w h).
Proof.
  intros f planes st w h c W. split.
  - intros [im H]. apply image_new_ok_inv in H as (Hw & Hh & (st' & E & ->) & B).
    injection E as <-. apply image_bounds_check_inv in B as (ps & E & F). injection E as <-. auto.
  - intros (Hw & Hh & F). eexists. unfold from_planes, image_new.
    destruct (Nat.eqb_spec w 0); [tauto|]. destruct (Nat.eqb_spec h 0); [tauto|]. cbn [orb bind].
    rewrite (image_bounds_check_complete _ (combine planes st)); auto; reflexivity.
Qed.
Print Assumptions C06_from_planes_iff.

Example C06_example : exists im, from_planes NV12 [Slice 0 0 12; Slice 0 12 6] (Some [6; 6]) 5 2 ci0 = Ok im.
Proof. eexists. reflexivity. Qed.

(* ------------------------------------------------------------------ *)
(** * C07 *)

(** The property is false: a short buffer makes [from_buffer] panic for a
    multi-plane format (but return an error for a single-plane one). *)
Theorem C07_from_buffer_never_panics_refuted :
  exists f buf st w h c q, w <> 0 /\ h <> 0 /\ from_buffer f buf st w h c = Panic q.
Proof. exists I420, (Slice 0 0 5), None, 2, 2, ci0, PSplitAt. repeat split; discriminate. Qed.
Print Assumptions C07_from_buffer_never_panics_refuted.

Example C07_single_plane_errors :
  from_buffer RGB (Slice 0 0 11) None 2 2 ci0 = Err (ImgBoundsCheck (InvalidPlaneSize 0 12 11)).
Proof. reflexivity. Qed.

(** Exactly when it panics (sizes representable): multi-plane format, and
    wrong number of strides or too small a buffer. *)
Theorem C07_from_buffer_panics_iff : forall f buf st w h c,
  w <> 0 -> h <> 0 -> usize (s_len buf) -> Forall usize st ->
  (forall p, p < n_planes f -> usize (row_bytes f p w)) ->
  (forall p, p < n_planes f -> usize (nth p st 0 * plane_rows f p h)) ->
  ((exists q, from_buffer f buf (Some st) w h c = Panic q) <->
   n_planes f <> 1 /\ (length st <> n_planes f \/
     s_len buf < total (map (fun p => nth p st 0 * plane_rows f p h) (seq 0 (n_planes f))))).
Proof. exact from_buffer_panic_iff. Qed.
Print Assumptions C07_from_buffer_panics_iff.

(** Single-plane formats never panic (sizes representable). *)
Theorem C07_single_plane_no_panic_partial : forall f buf st w h c q,
  n_planes f = 1 -> w <> 0 -> h <> 0 -> usize (s_len buf) -> Forall usize st ->
  (forall p, p < n_planes f -> usize (row_bytes f p w)) ->
  (forall p, p < n_planes f -> usize (nth p st 0 * plane_rows f p h)) ->
  from_buffer f buf (Some st) w h c <> Panic q.
Proof.
  intros f buf st w h c q H1 Hw Hh U US UR UP H.
  destruct (proj1 (from_buffer_panic_iff f buf st w h c Hw Hh U US UR UP)); eauto.
Qed.
Print Assumptions C07_single_plane_no_panic_partial.

(* ------------------------------------------------------------------ *)
(** * C08 *)

Theorem C08_blank_valid : forall m b f w h c m' im,
  blank m b f w h c = Ok (m', im) ->
  image_bounds_check (image_of im) = Ok tt /\
  (exists ps n, im_planes (image_of im) = Ok ps /\ @buffer_size noerr f w h = Ok n /\
     length ps = n_planes f /\ tiles (Slice b 0 n) (map fst ps)) /\
  (forall i, m' b i = 0%Z) /\ (forall b' i, b' <> b -> m' b' i = m b' i).
Proof. exact blank_valid. Qed.
Print Assumptions C08_blank_valid.

Theorem C08_blank_total : forall m b f w h c, h <> 0 -> usize (tight_size f w h) ->
  exists m' im, blank m b f w h c = Ok (m', im).
Proof. exact blank_total. Qed.
Print Assumptions C08_blank_total.

Example C08_example : exists m' im, blank (fun _ _ => 7%Z) 3 I420 4 2 ci0 = Ok (m', im) /\
  m' 3 11 = 0%Z /\ m' 2 11 = 7%Z.
Proof. do 2 eexists. repeat split. Qed.

(* ------------------------------------------------------------------ *)
(** * C09 *)

Theorem C09_crop_accepts_iff : forall t win,
  usize (im_width t) -> usize (im_height t) ->
  ((exists ct, crop_new t win = Ok ct) <->
   image_bounds_check t = Ok tt /\
   win_x win + win_width win <= im_width t /\ win_y win + win_height win <= im_height t).
Proof.
  intros t win UW UH. rewrite crop_new_spec by auto.
  destruct (image_bounds_check t) as [[]| | |].
  2,3,4: split; [intros [? ?]; discriminate|intros [? ?]; discriminate].
  destruct (Nat.leb_spec (win_x win + win_width win) (im_width t));
  destruct (Nat.leb_spec (win_y win + win_height win) (im_height t)); cbn [andb];
  split; eauto; try (intros [? ?]; discriminate); intros; lia.
Qed.
Print Assumptions C09_crop_accepts_iff.

(** Which error is reported. *)
Theorem C09_crop_error : forall t win e,
  usize (im_width t) -> usize (im_height t) -> crop_new t win = Err e ->
  (exists be, image_bounds_check t = Err be /\ e = CropBoundsCheck be) \/
  (image_bounds_check t = Ok tt /\ e = WindowSizeOutOfBounds /\
   (im_width t < win_x win + win_width win \/ im_height t < win_y win + win_height win)).
Proof.
  intros t win e UW UH. rewrite crop_new_spec by auto.
  destruct (image_bounds_check t) as [[]| | |]; try discriminate.
  - destruct (Nat.leb_spec (win_x win + win_width win) (im_width t));
    destruct (Nat.leb_spec (win_y win + win_height win) (im_height t)); cbn [andb]; intros H1;
    try discriminate; injection H1 as <-; right; repeat split; auto.
  - intros H. injection H as <-. left. eauto.
Qed.
Print Assumptions C09_crop_error.

Definition img8 : image :=
  Image RGBA 4 4 ci0 (Ok [(Slice 0 0 64, 16)]).
Example C09_example : (exists ct, crop_new img8 (Window 1 1 3 3) = Ok ct) /\
  crop_new img8 (Window 2 1 3 3) = Err WindowSizeOutOfBounds.
Proof. split; [eexists|]; reflexivity. Qed.
(** An offset of usize::MAX does not wrap around. *)
Example C09_no_wrap : forall x, Z.of_nat x = usize_max ->
  crop_new img8 (Window x 0 1 1) = Err WindowSizeOutOfBounds.
Proof.
  intros x U. rewrite crop_new_spec by (cbv; discriminate).
  replace (image_bounds_check img8) with (@Ok bounds_error _ tt) by reflexivity.
  cbn [win_x win_width win_y win_height img8 im_width im_height].
  destruct (Nat.leb_spec (x + 1) 4) as [C|_]; [unfold usize_max in U; lia|reflexivity].
Qed.

(* ------------------------------------------------------------------ *)
(** * C10 *)

(** Partial: 8-bit formats (or 16-bit windows that start in the first row),
    windows aligned to chroma samples, planes long enough behind the window.
    Missing: everything else, where the claim is false (see below). *)
Theorem C10_crop_view_partial : forall m t win ct ps,
  crop_new t win = Ok ct -> im_planes t = Ok ps -> wf_planes ps ->
  even_offsets (im_format t) win ->
  (sample_bytes (im_format t) = 1 \/ forall p, plane_rows (im_format t) p (win_y win) = 0) ->
  (forall p s stride, p < n_planes (im_format t) -> nth_error ps p = Some (s, stride) ->
     (plane_rows (im_format t) p (win_y win) * stride + plane_cols (im_format t) p (win_x win))
       * sample_bytes (im_format t)
     + plane_rows (im_format t) p (win_height win) * stride <= s_len s) ->
  exists cps, im_planes ct = Ok cps /\
    im_format ct = im_format t /\ im_color ct = im_color t /\
    im_width ct = win_width win /\ im_height ct = win_height win /\
    image_bounds_check ct = Ok tt /\
    forall c i j, component m (im_format ct) cps c i j =
                  component m (im_format t) ps c (win_x win + i) (win_y win + j).
Proof.
  intros m t win ct ps HN HP HW HE HB HF. apply crop_view; auto.
  intros p [s st] Hp Hn. exact (HF p s st Hp Hn).
Qed.
Print Assumptions C10_crop_view_partial.

Definition img420 : image :=
  Image I420 8 8 ci0 (Ok [(Slice 0 0 64, 8); (Slice 1 0 16, 4); (Slice 2 0 16, 4)]).
Example C10_example : exists ct, crop_new img420 (Window 2 2 4 4) = Ok ct /\
  im_planes ct = Ok [(Slice 0 18 32, 8); (Slice 1 5 8, 4); (Slice 2 5 8, 4)].
Proof. eexists. split; reflexivity. Qed.

(** Refutation 1: a 16-bit image cropped below the first row shows other rows.
    The window (0,2) of a 2x8 I410 image reads row 4. *)
Definition img410 : image :=
  Image I410 2 8 ci0 (Ok [(Slice 0 0 32, 4); (Slice 1 0 32, 4); (Slice 2 0 32, 4)]).
Theorem C10_crop_16bit_refuted :
  exists t win ct ps cps m, crop_new t win = Ok ct /\ im_planes t = Ok ps /\ im_planes ct = Ok cps /\
    even_offsets (im_format t) win /\
    component m (im_format t) cps CY 0 0 <> component m (im_format t) ps CY (win_x win + 0) (win_y win + 0) /\
    component m (im_format t) cps CY 0 0 = component m (im_format t) ps CY 0 4.
Proof.
  exists img410, (Window 0 2 2 2). do 3 eexists. exists (fun _ i => Z.of_nat i).
  split; [reflexivity|]. split; [reflexivity|]. split; [reflexivity|]. split; [exact I|].
  split; [discriminate|reflexivity].
Qed.
Print Assumptions C10_crop_16bit_refuted.

(** Refutation 2: an odd x offset into NV12 swaps U and V. *)
Definition imgnv12 : image :=
  Image NV12 4 4 ci0 (Ok [(Slice 0 0 17, 4); (Slice 1 0 9, 4)]).
Theorem C10_crop_odd_nv12_refuted :
  exists t win ct ps cps m, crop_new t win = Ok ct /\ im_planes t = Ok ps /\ im_planes ct = Ok cps /\
    im_format t = NV12 /\ win_x win = 1 /\
    component m NV12 cps CU 0 0 = component m NV12 ps CV (win_x win + 0) (win_y win + 0) /\
    component m NV12 cps CU 0 0 <> component m NV12 ps CU (win_x win + 0) (win_y win + 0).
Proof.
  exists imgnv12, (Window 1 0 2 2). do 3 eexists. exists (fun _ i => Z.of_nat i).
  split; [reflexivity|]. split; [reflexivity|]. split; [reflexivity|]. split; [reflexivity|].
  split; [reflexivity|]. split; [reflexivity|discriminate].
Qed.
Print Assumptions C10_crop_odd_nv12_refuted.

(* ------------------------------------------------------------------ *)
(** * C11 *)

(** False: a crop that is accepted, and whose planes() then panics.
    Refutation 1: the lower right quarter of a tightly packed RGBA image. *)
Theorem C11_crop_never_panics_refuted :
  exists t win ct q, crop_new t win = Ok ct /\ im_planes ct = Panic q.
Proof. exists img8, (Window 2 2 2 2). do 2 eexists. split; reflexivity. Qed.
Print Assumptions C11_crop_never_panics_refuted.

(** Refutation 2: the lower half (x = 0) of a tightly packed 16-bit image. *)
Theorem C11_crop_16bit_panics_refuted :
  exists t win ct q, sample_bytes (im_format t) = 2 /\ win_x win = 0 /\
    crop_new t win = Ok ct /\ im_planes ct = Panic q.
Proof. exists img410, (Window 0 6 2 2). do 2 eexists. repeat split; reflexivity. Qed.
Print Assumptions C11_crop_16bit_panics_refuted.

(** Exactly when it panics. *)
Theorem C11_crop_panics_iff : forall t win ct ps,
  crop_new t win = Ok ct -> im_planes t = Ok ps -> wf_planes ps ->
  ((exists q, im_planes ct = Panic q) <->
   exists p pl, p < n_planes (im_format t) /\ nth_error ps p = Some pl /\
     s_len (fst pl) <
       (plane_rows (im_format t) p (win_y win) * snd pl + plane_cols (im_format t) p (win_x win))
          * sample_bytes (im_format t)
       + plane_rows (im_format t) p (win_height win) * snd pl).
Proof.
  intros t win ct ps HN HP HW. unfold crop_new in HN. apply bind_ok in HN as (u & BC & HN).
  destruct (image_bounds_check t) as [[]| | |] eqn:BC'; cbn [map_err] in BC; try discriminate.
  apply image_bounds_check_inv in BC' as (ps' & E & L & _). rewrite HP in E. injection E as <-.
  destruct (checked_add _ _) in HN; [|discriminate]. destruct (checked_add _ _) in HN; [|discriminate].
  destruct (_ || _) in HN; [discriminate|]. injection HN as <-.
  apply cropped_panic_iff; auto.
Qed.
Print Assumptions C11_crop_panics_iff.

(** Partial: an 8-bit image is safe to crop from the left edge, or when two
    rows remain below the window. *)
Theorem C11_crop_8bit_safe_partial : forall t win ct ps q,
  crop_new t win = Ok ct -> im_planes t = Ok ps -> wf_planes ps ->
  sample_bytes (im_format t) = 1 ->
  usize (im_width t) -> usize (im_height t) ->
  win_x win = 0 \/ win_y win + win_height win + 2 <= im_height t ->
  im_planes ct <> Panic q.
Proof.
  intros t win ct ps q HN HP HW HB UW UH HC HX.
  destruct (proj1 (C11_crop_panics_iff t win ct ps HN HP HW) (ex_intro _ q HX)) as (p & pl & Hp & Hn & Hl).
  destruct (proj1 (C09_crop_accepts_iff t win UW UH) (ex_intro _ ct HN)) as (BC & WX & WY).
  apply image_bounds_check_inv in BC as (ps' & E & F). rewrite HP in E. injection E as <-.
  destruct HC as [HC|HC].
  - pose proof (crop_fits_left_edge _ _ _ _ win p pl F Hp Hn HB HC WY) as X. unfold crop_fits, crop_off in X. lia.
  - assert (X1 : win_x win <= im_width t) by lia.
    pose proof (crop_fits_spare_row _ _ _ _ win p pl F Hp Hn HB X1 HC) as X. unfold crop_fits, crop_off in X. lia.
Qed.
Print Assumptions C11_crop_8bit_safe_partial.

Example C11_example : exists ct, crop_new img8 (Window 1 1 2 1) = Ok ct /\
  im_planes ct = Ok [(Slice 0 20 16, 16)].
Proof. eexists. split; reflexivity. Qed.

(* ------------------------------------------------------------------ *)
(** * C12 *)

(** Two crops equal one crop by the summed offsets, for every format (even
    the ones whose single crop is wrong), unless both offsets split a chroma
    sample. *)
Theorem C12_crop_compose : forall t w1 w2 ps cps,
  im_planes t = Ok ps -> wf_planes ps -> n_planes (im_format t) <= length ps ->
  not_both_odd (win_x w1) (win_x w2) -> not_both_odd (win_y w1) (win_y w2) ->
  im_planes (cropped (cropped t w1) w2) = Ok cps ->
  cropped (cropped t w1) w2 = cropped t (compose_win w1 w2).
Proof. exact crop_compose. Qed.
Print Assumptions C12_crop_compose.

Example C12_example : exists cps,
  im_planes (cropped (cropped img420 (Window 2 2 4 4)) (Window 0 2 2 2)) = Ok cps /\
  cropped (cropped img420 (Window 2 2 4 4)) (Window 0 2 2 2) = cropped img420 (Window 2 4 2 2).
Proof. eexists. split; reflexivity. Qed.

(** With two odd offsets the chroma planes differ. *)
Theorem C12_crop_compose_odd_refuted :
  exists t w1 w2 p1 p2,
    im_planes (cropped (cropped t w1) w2) = Ok p1 /\
    im_planes (cropped t (compose_win w1 w2)) = Ok p2 /\ p1 <> p2.
Proof.
  exists img420, (Window 1 1 4 4), (Window 1 1 2 2). do 2 eexists.
  split; [reflexivity|]. split; [reflexivity|]. discriminate.
Qed.
Print Assumptions C12_crop_compose_odd_refuted.
