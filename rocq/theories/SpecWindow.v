(** Specification vocabulary for converting and copying windows of images. *)

From Coq Require Import List ZArith Bool Arith.
From Verif Require Import Base Types ImageM Crop SpecGeom SpecCrop SpecConvert SpecRun.

(** [v] is the view of window [win] of image [t], whose planes are [ps], and its
    planes can be listed (cropping does not guarantee that, see C11).  The window
    starts on a chroma sample; a window of a 16-bit image starts in the first row
    (for others see C10). *)
Definition window_of (t : image) (ps : list (slice * nat)) (win : window) (v : image) : Prop :=
  valid_image t ps /\ crop_new t win = Ok v /\ (exists cps, im_planes v = Ok cps) /\
  even_offsets (im_format t) win /\ (sample_bytes (im_format t) = 1 \/ win_y win = 0).

(** Pixel ([x], [y]) is in the window. *)
Definition in_window (win : window) (x y : nat) : Prop :=
  (win_x win <= x < win_x win + win_width win) /\ (win_y win <= y < win_y win + win_height win).

(** Byte [i] of buffer [b] belongs to component [c] of pixel ([x], [y]). *)
Definition component_byte (f : pixel_format) (ps : list (slice * nat)) (c : comp) (x y b i : nat) : Prop :=
  exists p r col pl, layout f c x y = Some (p, r, col) /\ nth_error ps p = Some pl /\
    b = fst (sample_addr f pl r col) /\
    snd (sample_addr f pl r col) <= i < snd (sample_addr f pl r col) + sample_bytes f.

(** Byte [i] of buffer [b] belongs to a pixel of the window. *)
Definition window_byte (f : pixel_format) (ps : list (slice * nat)) (win : window) (b i : nat) : Prop :=
  exists c x y, in_window win x y /\ component_byte f ps c x y b i.

(** No chroma sample of the image is cut at its right or lower edge. *)
Definition whole_chroma (f : pixel_format) (w h : nat) : Prop :=
  match sampling_of f with SRGB | S444 => True | S422 => Nat.Even w | S420 => Nat.Even w /\ Nat.Even h end.
