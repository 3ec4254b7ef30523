(** src/copy.rs: copying an image to one of the same format. *)

From Coq Require Import List ZArith Bool Arith.
From Verif Require Import Base Types Planes ImageM F32 Vector Simd Formats Visit Convert.
Import ListNotations.

(** core [slice::chunks_exact] / [chunks_exact_mut], used at src/copy.rs:22-23
    and src/resize.rs:212, 234: whole chunks only; panics for size 0 *)
Definition chunks_exact {E} (s : slice) (size : nat) : res E (list slice) :=
  if size =? 0 then Panic PDivZero
  else Ok (map (fun r => Slice (s_buf s) (s_off s + r * size) size) (seq 0 (s_len s / size))).

(** src/copy.rs:26, [dst_row[..n].copy_from_slice(&src_row[..n])] *)
Definition copy_row (m : mem) (n : nat) (rows : slice * slice) : out convert_error :=
  let '(src_row, dst_row) := rows in
  obind (d <- index_range dst_row 0 n ;; s <- index_range src_row 0 n ;; Ok (d, s)) (fun '(d, s) =>
  ([Wev (s_buf d) (s_off d) (read_bytes m (s_buf s) (s_off s) (s_len s))], Ok tt)).

(** src/copy.rs:20-27, the body of the loop over the planes *)
Definition copy_plane (m : mem) (width : nat)
    (planes : plane_desc * ((slice * nat) * (slice * nat))) : out convert_error :=
  let '(desc, ((src_plane, src_stride), (dst_plane, dst_stride))) := planes in
  obind (w <- op_apply (width_op desc) width ;;
         n <- umul w (bpp desc) ;;
         src_rows <- chunks_exact src_plane src_stride ;;
         dst_rows <- chunks_exact dst_plane dst_stride ;;
         Ok (n, combine src_rows dst_rows)) (fun '(n, rows) =>
  run_all (map (copy_row m n) rows)).

(** src/copy.rs:4-30 [copy_impl], and 34-75 [copy], which calls it on every
    CPU.  [m] is the memory at the call: the destination is borrowed
    exclusively, so that the stores do not change what is read. *)
Definition copy (m : mem) (src dst : image) : out convert_error :=
  obind (_ <- verify_input_windows src dst ;;
         _ <- (if pixel_format_eqb (im_format src) (im_format dst) then Ok tt else Panic PAssert) ;;
         _ <- map_err CBoundsCheck (image_bounds_check src) ;;
         _ <- map_err CBoundsCheck (image_bounds_check dst) ;;
         planes <- lift (im_planes src) ;;
         planes_mut <- lift (im_planes dst) ;;
         Ok (combine (plane_descs (im_format src)) (combine planes planes_mut))) (fun planes =>
  run_all (map (copy_plane m (im_width src)) planes)).
