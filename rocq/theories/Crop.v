(** Cropping. *)

From Coq Require Import List ZArith Bool Arith.
From Verif Require Import Base Types Planes ImageM.
Import ListNotations.

(** src/crop.rs:18-23 [Window] *)
Record window := Window { win_x : nat; win_y : nat; win_width : nat; win_height : nat }.

(** src/crop.rs:8-14 [CropError] *)
Inductive crop_error :=
| WindowSizeOutOfBounds
| CropBoundsCheck (e : bounds_error).

(** src/crop.rs:91-104, the closure of [crop_planes] for one plane.  The
    additions and multiplications are plain usize operations. *)
Definition crop_plane (w : window) (d : plane_desc) (p : slice * nat) : res noerr (slice * nat) :=
  let (s, stride) := p in
  x <- op_apply (width_op d) (win_x w) ;;
  y <- op_apply (height_op d) (win_y w) ;;
  ys <- umul y stride ;;
  ysx <- uadd ys x ;;
  at1 <- umul ysx (bpp d) ;;
  '(_, s) <- split_at s at1 ;;
  h <- op_apply (height_op d) (win_height w) ;;
  at2 <- umul h stride ;;
  '(s, _) <- split_at s at2 ;;
  Ok (s, stride).

(** src/crop.rs:82-106 [crop_planes] *)
Definition crop_planes (descs : list plane_desc) (planes : list (slice * nat)) (w : window)
    : res noerr (list (slice * nat)) :=
  mapM (fun dp => crop_plane w (fst dp) (snd dp)) (combine descs planes).

(** src/crop.rs:54-80 [impl ImageRef / ImageMut for Cropped] *)
Definition cropped (t : image) (w : window) : image :=
  Image (im_format t) (win_width w) (win_height w) (im_color t)
        (planes <- im_planes t ;; crop_planes (plane_descs (im_format t)) planes w).

(** src/crop.rs:29-47 [Cropped::new] *)
Definition crop_new (t : image) (win : window) : res crop_error image :=
  _ <- map_err CropBoundsCheck (image_bounds_check t) ;;
  match checked_add (win_x win) (win_width win) with
  | None => Err WindowSizeOutOfBounds
  | Some w =>
      match checked_add (win_y win) (win_height win) with
      | None => Err WindowSizeOutOfBounds
      | Some h =>
          if (im_width t <? w) || (im_height t <? h)
          then Err WindowSizeOutOfBounds
          else Ok (cropped t win)
      end
  end.
