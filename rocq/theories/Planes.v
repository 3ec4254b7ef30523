(** Plane geometry: sizes, strides, bounds checks, plane inference. *)

From Coq Require Import List ZArith Bool Arith.
From Verif Require Import Base Types.
Import ListNotations.

(** src/pixel_format.rs:57-72 [PixelFormat::buffer_size] *)
Definition buffer_size {E} (f : pixel_format) (width height : nat) : res E nat :=
  let fix go (planes : list plane_desc) (size : nat) : res E nat :=
    match planes with
    | [] => Ok size
    | plane :: rest =>
        w <- op_apply (width_op plane) width ;;
        h <- op_apply (height_op plane) height ;;
        wh <- strict_mul w h ;;
        n <- strict_mul wh (bpp plane) ;;
        size' <- strict_add size n ;;
        go rest size'
    end
  in go (plane_descs f) 0.

(** src/pixel_format.rs:76-85 [PixelFormat::packed_strides] *)
Definition packed_strides {E} (f : pixel_format) (width : nat) : res E (list nat) :=
  mapM (fun d => packed_stride d width) (plane_descs f).

(** src/planes.rs:18-46 [read_planes], [read_planes_mut]: the first [n] planes
    of the iterator, or the error carrying how many there were. *)
Definition read_planes {A} (n : nat) (planes : list A) : res bounds_error (list A) :=
  if n <=? length planes
  then Ok (firstn n planes)
  else Err (InvalidNumberOfPlanes n (length planes)).

(** src/pixel_format.rs:97-128, the inner [bounds_check] loop; [i] is the
    plane index *)
Fixpoint bounds_check_loop (i : nat) (planes : list plane_desc)
    (got : list (slice * nat)) (width height : nat) : res bounds_error unit :=
  match planes, got with
  | plane :: planes', (s, stride) :: got' =>
      min_stride <- packed_stride plane width ;;
      if stride <? min_stride then Err (InvalidStride i min_stride stride) else
      h <- op_apply (height_op plane) height ;;
      min_len <- strict_mul stride h ;;
      if s_len s <? min_len then Err (InvalidPlaneSize i min_len (s_len s)) else
      bounds_check_loop (S i) planes' got' width height
  | _, _ => Ok tt
  end.

(** src/pixel_format.rs:89-142 [PixelFormat::bounds_check] *)
Definition bounds_check (f : pixel_format) (planes : list (slice * nat))
    (width height : nat) : res bounds_error unit :=
  got <- read_planes (length (plane_descs f)) planes ;;
  bounds_check_loop 0 (plane_descs f) got width height.

(** src/planes.rs:97-104, the loop of [infer_impl] *)
Fixpoint infer_loop (descs : list plane_desc) (strides : list nat)
    (buf : slice) (height : nat) : res noerr (list slice) :=
  match descs, strides with
  | desc :: descs', stride :: strides' =>
      h <- op_apply (height_op desc) height ;;
      at_ <- strict_mul h stride ;;
      '(prev, rem) <- split_at buf at_ ;;
      rest <- infer_loop descs' strides' rem height ;;
      Ok (prev :: rest)
  | _, _ => Ok []
  end.

(** src/planes.rs:82-107 [infer_impl]; [<[usize; N]>::try_from(strides).unwrap()]
    panics when the number of strides is not [N] *)
Definition infer_impl (descs : list plane_desc) (buf : slice) (width height : nat)
    (strides : option (list nat)) : res noerr (list slice) :=
  strides <- match strides with
             | Some s => if length s =? length descs then Ok s else Panic PUnwrap
             | None => mapM (fun d => packed_stride d width) descs
             end ;;
  infer_loop descs strides buf height.

(** src/planes.rs:54-79 [infer], with the format specific wrappers of lines
    109-212; the slice operations of [AnySlice] are the same for shared and
    mutable slices (src/planes.rs:217-247) *)
Definition infer (f : pixel_format) (buf : slice) (width height : nat)
    (strides : option (list nat)) : res noerr (list slice) :=
  match f with
  | I420 => infer_impl I420_PLANES buf width height strides
  | I422 => infer_impl I422_PLANES buf width height strides
  | I444 => infer_impl I444_PLANES buf width height strides
  | I010 | I012 => infer_impl I01X_PLANES buf width height strides
  | I210 | I212 => infer_impl I21X_PLANES buf width height strides
  | I410 | I412 => infer_impl I41X_PLANES buf width height strides
  | NV12 => infer_impl NV12_PLANES buf width height strides
  | YUYV => Ok [buf]
  | RGBA | BGRA => Ok [buf]
  | RGB | BGR => Ok [buf]
  end.
