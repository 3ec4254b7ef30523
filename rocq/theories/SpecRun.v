(** Specification of a run of [convert]: its result, the bytes it may store to,
    and the values it has to leave behind. *)

From Coq Require Import Arith Bool List ZArith.
From Verif Require Import Base Types Planes ImageM F32 Vector Simd SpecGeom SpecVector SpecColor SpecConvert.
Import ListNotations.

(** * Images *)

(** An image that passes [bounds_check], with the planes it shows *)
Definition valid_image (im : image) (ps : list (slice * nat)) : Prop :=
  im_planes im = Ok ps /\ wf_planes ps /\ image_bounds_check im = Ok tt.

(** A YUV format needs YUV color information. *)
Definition color_fits (f : pixel_format) (c : color_info) : bool :=
  match sampling_of f, c with
  | SRGB, _ => true
  | _, CYUV _ => true
  | _, CRGB _ _ => false
  end.

(** Same pixel format and same color information *)
Definition same_image_kind (src dst : image) : bool :=
  pixel_format_eqb (im_format src) (im_format dst) && color_info_eqb (im_color src) (im_color dst).

(** * Result *)

(** The outcome of [bounds_check] as the outcome of [convert] *)
Definition checked (r : res bounds_error unit) (next : res convert_error unit) : res convert_error unit :=
  match r with
  | Ok _ => next
  | Err e => Err (CBoundsCheck e)
  | Panic p => Panic p
  | UB => UB
  end.

(** Sizes, then parity, then the source, then the color information (only
    needed for an actual conversion), then the destination *)
Definition convert_result (src dst : image) : res convert_error unit :=
  if negb ((im_width src =? im_width dst) && (im_height src =? im_height dst)) then Err MismatchedImageSize
  else if Nat.odd (im_width src) || Nat.odd (im_height src) then Err OddImageDimensions
  else
    checked (image_bounds_check src)
      (if negb (same_image_kind src dst) &&
          negb (color_fits (im_format src) (im_color src) && color_fits (im_format dst) (im_color dst))
       then Err InvalidColorInfo
       else checked (image_bounds_check dst) (Ok tt)).

(** * Stores *)

(** A store changes byte [i] of buffer [b] *)
Definition covers (b i : nat) (e : wev) : bool :=
  (b =? w_buf e) && (w_off e <=? i) && (i <? w_off e + length (w_bytes e)).

(** How many of the stores change byte [i] of buffer [b] *)
Definition times (evs : list wev) (b i : nat) : nat := length (filter (covers b i) evs).

(** The store stays inside one of the slices *)
Definition store_inside (ps : list (slice * nat)) (e : wev) : Prop :=
  exists pl, In pl ps /\ w_buf e = s_buf (fst pl) /\ s_off (fst pl) <= w_off e /\
    w_off e + length (w_bytes e) <= s_off (fst pl) + s_len (fst pl).

(** * Columns *)

(** Number of elements of a vector *)
Definition lanes (b : backend) : nat :=
  match b with Scalar => 1 | NEON => 4 | AVX2 => 8 | AVX512 => 16 end.

(** Comparison, maximum, power and logarithm of a back end *)
Definition lane_of (lm : libm) (b : backend) : lane_ops f32 := vi_lane (impl_of lm b).

(** Columns are processed in groups of two vectors; the columns that are left
    over at the right edge are processed with scalar code. *)
Definition column_backend (b : backend) (w x : nat) : backend :=
  if x <? vector_columns (lanes b) w then b else Scalar.

(** * Values *)

(** The value (0 .. 1) destination component [c] of pixel ([x], [y]) has to get *)
Definition expected_value (L : lane_ops f32) (m : mem) (src : image) (sps : list (slice * nat)) (dst : image)
    (c : comp) (x y : nat) : f32 :=
  if same_image_kind src dst then norm m (im_format src) sps c x y
  else target L (im_format dst) (im_color dst)
         (fun x y => recolored L (im_color src) (im_color dst)
                       (source_pixel L m (im_format src) (im_color src) sps x y)) c x y.

(** Chroma of 4:2:0 in one of the ICtCp color spaces *)
Definition is_ictcp (s : color_space) : bool :=
  match s with SpICtCpPQ | SpICtCpHLG => true | _ => false end.
Definition ictcp_chroma420 (f : pixel_format) (color : color_info) (c : comp) : bool :=
  match sampling_of f, color, c with
  | S420, CYUV i, (CU | CV) => is_ictcp (yc_space i)
  | _, _, _ => false
  end.

(** Memory holds bytes. *)
Definition bytes_ok (m : mem) : Prop := forall b i, (0 <= m b i < 256)%Z.
