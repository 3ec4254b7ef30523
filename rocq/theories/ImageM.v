(** Images: the [ImageRef] interface and the [Image] type. *)

From Coq Require Import List ZArith Bool Arith.
From Verif Require Import Base Types Planes.
Import ListNotations.

(** src/image_traits.rs [ImageRef] / [ImageMut]: what any image (user
    implemented or not) shows to the library.  [im_planes] is the list the
    iterator returned by [planes()] / [planes_mut()] yields, or the panic it
    raises.  Simplifications: an implementation returns the same planes on
    every call (its documented safety contract), and a lazily raised panic of
    the iterator is modelled as raised when the iterator is created. *)
Record image := Image {
  im_format : pixel_format;
  im_width : nat;
  im_height : nat;
  im_color : color_info;
  im_planes : res noerr (list (slice * nat))
}.

(** src/image_traits.rs [ImageRefExt::bounds_check] *)
Definition image_bounds_check (im : image) : res bounds_error unit :=
  planes <- lift (im_planes im) ;;
  bounds_check (im_format im) planes (im_width im) (im_height im).

(** src/image.rs:16-19 [Buffer] *)
Inductive buffer := Whole (s : slice) | Split (l : list slice).

(** src/image.rs:5-13 [Image] *)
Record owned_image := OwnedImage {
  oi_format : pixel_format;
  oi_buffer : buffer;
  oi_strides : list nat;
  oi_width : nat;
  oi_height : nat;
  oi_color : color_info
}.

(** src/image.rs:110-129 [Image::planes] (and 136-155 [planes_mut]) *)
Definition owned_planes (im : owned_image) : res noerr (list (slice * nat)) :=
  match oi_buffer im with
  | Whole buf =>
      ps <- infer (oi_format im) buf (oi_width im) (oi_height im) (Some (oi_strides im)) ;;
      Ok (combine ps (oi_strides im))
  | Split planes => Ok (combine planes (oi_strides im))
  end.

(** src/image.rs:99-133 [impl ImageRef for Image] *)
Definition image_of (im : owned_image) : image :=
  Image (oi_format im) (oi_width im) (oi_height im) (oi_color im) (owned_planes im).

(** src/image.rs:70-96 [Image::new] *)
Definition image_new (f : pixel_format) (b : buffer) (strides : option (list nat))
    (width height : nat) (color : color_info) : res image_error owned_image :=
  if (width =? 0) || (height =? 0) then Err InvalidDimensions else
  strides <- match strides with
             | Some s => Ok s
             | None => packed_strides f width
             end ;;
  let this := OwnedImage f b strides width height color in
  _ <- map_err ImgBoundsCheck (image_bounds_check (image_of this)) ;;
  Ok this.

(** src/image.rs:48-57 [Image::from_buffer] *)
Definition from_buffer (f : pixel_format) (buf : slice) (strides : option (list nat))
    (width height : nat) (color : color_info) : res image_error owned_image :=
  image_new f (Whole buf) strides width height color.

(** src/image.rs:59-68 [Image::from_planes] *)
Definition from_planes (f : pixel_format) (planes : list slice) (strides : option (list nat))
    (width height : nat) (color : color_info) : res image_error owned_image :=
  image_new f (Split planes) strides width height color.

(** src/image.rs:32-41 [Image::blank]: a fresh buffer [b] of [buffer_size]
    zero bytes (returned as the new memory) *)
Definition blank (m : mem) (b : nat) (f : pixel_format) (width height : nat)
    (color : color_info) : res noerr (mem * owned_image) :=
  n <- buffer_size f width height ;;
  strides <- packed_strides f width ;;
  Ok (fun b' i => if b' =? b then 0%Z else m b' i,
      OwnedImage f (Whole (Slice b 0 n)) strides width height color).
