(** Specification of [copy]. *)

From Coq Require Import Arith Bool List ZArith.
From Verif Require Import Base Types ImageM SpecGeom SpecConvert SpecRun.
Import ListNotations.

(** Rows of [stride] bytes that fit into a plane *)
Definition whole_rows (pl : slice * nat) : nat := s_len (fst pl) / snd pl.

(** Byte [k] of row [r] of a plane *)
Definition row_byte (pl : slice * nat) (r k : nat) : nat := s_off (fst pl) + (r * snd pl + k).

(** The bytes copy stores to: the pixels of all whole rows that source and
    destination have in common, not only of the rows of the image *)
Definition copied_byte (f : pixel_format) (sps dps : list (slice * nat)) (w : nat) (b i : nat) : Prop :=
  exists p sp dp r k, p < n_planes f /\ nth_error sps p = Some sp /\ nth_error dps p = Some dp /\
    r < Nat.min (whole_rows sp) (whole_rows dp) /\ k < row_bytes f p w /\
    b = s_buf (fst dp) /\ i = row_byte dp r k.

(** One of the two planes has no more whole rows than the image. *)
Definition no_spare_rows (f : pixel_format) (sps dps : list (slice * nat)) (h : nat) : Prop :=
  forall p sp dp, p < n_planes f -> nth_error sps p = Some sp -> nth_error dps p = Some dp ->
    whole_rows sp <= plane_rows f p h \/ whole_rows dp <= plane_rows f p h.

(** No stride is zero (only possible for images of width 0). *)
Definition strides_positive (f : pixel_format) (ps : list (slice * nat)) : Prop :=
  forall p pl, p < n_planes f -> nth_error ps p = Some pl -> 0 < snd pl.

(** Some stride of the planes of the image is zero. *)
Definition zero_stride (im : image) : bool :=
  match im_planes im with
  | Ok ps => existsb (fun pl => snd pl =? 0) (firstn (n_planes (im_format im)) ps)
  | _ => false
  end.

(** Result of copy: sizes, parity, formats, source, destination, strides *)
Definition copy_result (src dst : image) : res convert_error unit :=
  if negb ((im_width src =? im_width dst) && (im_height src =? im_height dst)) then Err MismatchedImageSize
  else if Nat.odd (im_width src) || Nat.odd (im_height src) then Err OddImageDimensions
  else if negb (pixel_format_eqb (im_format src) (im_format dst)) then Panic PAssert
  else checked (image_bounds_check src) (checked (image_bounds_check dst)
         (if zero_stride src || zero_stride dst then Panic PDivZero else Ok tt)).
