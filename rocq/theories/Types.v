(** Pixel formats, plane descriptors, color information, errors. *)

From Coq Require Import List ZArith Bool Arith.
From Verif Require Import Base.
Import ListNotations.

(** src/pixel_format.rs:5-50 [PixelFormat] *)
Inductive pixel_format :=
| I420 | I422 | I444
| I010 | I012 | I210 | I212 | I410 | I412
| NV12 | YUYV
| RGBA | BGRA | RGB | BGR.

(** derived [PartialEq] of [PixelFormat] (src/pixel_format.rs:4) *)
Definition pixel_format_eq_dec (a b : pixel_format) : {a = b} + {a <> b}.
Proof. decide equality. Defined.
Definition pixel_format_eqb (a b : pixel_format) : bool :=
  if pixel_format_eq_dec a b then true else false.

(** src/pixel_format.rs:181-187 [PixelFormat::variants] *)
Definition pixel_format_variants : list pixel_format :=
  [I420; I422; I444; I010; I012; I210; I212; I410; I412; NV12; YUYV; RGBA; BGRA; RGB; BGR].

(** src/plane_decs.rs:30-34 [Op] *)
Inductive op := OMul (n : nat) | ODiv (n : nat) | OId.

(** fir::PixelType as used by src/plane_decs.rs (only the variants named there) *)
Inductive pixel_type := PT_U8 | PT_U8x2 | PT_U8x3 | PT_U8x4 | PT_U16.

(** src/plane_decs.rs:9-18 [PlaneDesc] *)
Record plane_desc := PlaneDesc {
  width_op : op;
  height_op : op;
  bpp : nat;               (* bytes_per_primitive *)
  ptype : pixel_type
}.

(** src/plane_decs.rs:36-43 [Op::op] *)
Definition op_apply {E} (o : op) (lhs : nat) : res E nat :=
  match o with
  | OMul rhs => strict_mul lhs rhs
  | ODiv rhs => Ok (lhs / rhs)
  | OId => Ok lhs
  end.

(** src/plane_decs.rs:20-26 [PlaneDesc::packed_stride] *)
Definition packed_stride {E} (d : plane_desc) (width : nat) : res E nat :=
  w <- op_apply (width_op d) width ;; strict_mul w (bpp d).

(** src/plane_decs.rs:46-229, the constant tables *)
Definition I420_PLANES :=
  [PlaneDesc OId OId 1 PT_U8; PlaneDesc (ODiv 2) (ODiv 2) 1 PT_U8; PlaneDesc (ODiv 2) (ODiv 2) 1 PT_U8].
Definition I422_PLANES :=
  [PlaneDesc OId OId 1 PT_U8; PlaneDesc (ODiv 2) OId 1 PT_U8; PlaneDesc (ODiv 2) OId 1 PT_U8].
Definition I444_PLANES :=
  [PlaneDesc OId OId 1 PT_U8; PlaneDesc OId OId 1 PT_U8; PlaneDesc OId OId 1 PT_U8].
Definition I01X_PLANES :=
  [PlaneDesc OId OId 2 PT_U16; PlaneDesc (ODiv 2) (ODiv 2) 2 PT_U16; PlaneDesc (ODiv 2) (ODiv 2) 2 PT_U16].
Definition I21X_PLANES :=
  [PlaneDesc OId OId 2 PT_U16; PlaneDesc (ODiv 2) OId 2 PT_U16; PlaneDesc (ODiv 2) OId 2 PT_U16].
Definition I41X_PLANES :=
  [PlaneDesc OId OId 2 PT_U16; PlaneDesc OId OId 2 PT_U16; PlaneDesc OId OId 2 PT_U16].
Definition NV12_PLANES :=
  [PlaneDesc OId OId 1 PT_U8; PlaneDesc OId (ODiv 2) 1 PT_U8x2].
Definition YUYV_PLANES := [PlaneDesc (OMul 2) OId 1 PT_U8x4].
Definition RGBA_PLANES := [PlaneDesc (OMul 4) OId 1 PT_U8x4].
Definition RGB_PLANES := [PlaneDesc (OMul 3) OId 1 PT_U8x3].

(** src/pixel_format.rs:164-179 [PixelFormat::plane_desc] *)
Definition plane_descs (f : pixel_format) : list plane_desc :=
  match f with
  | I420 => I420_PLANES
  | I422 => I422_PLANES
  | I444 => I444_PLANES
  | I010 | I012 => I01X_PLANES
  | I210 | I212 => I21X_PLANES
  | I410 | I412 => I41X_PLANES
  | NV12 => NV12_PLANES
  | YUYV => YUYV_PLANES
  | RGBA | BGRA => RGBA_PLANES
  | RGB | BGR => RGB_PLANES
  end.

(** src/pixel_format.rs:144-162 [PixelFormat::bits_per_component] *)
Definition bits_per_component (f : pixel_format) : nat :=
  match f with
  | I420 => 8 | I422 => 8 | I444 => 8
  | I010 => 10 | I012 => 12 | I210 => 10 | I212 => 12 | I410 => 10 | I412 => 12
  | NV12 => 8 | YUYV => 8 | RGBA => 8 | BGRA => 8 | RGB => 8 | BGR => 8
  end.

(** src/color/transfer.rs:3-20 [ColorTransfer] *)
Inductive color_transfer :=
| TLinear | TGamma22 | TGamma28 | TSRGB | TSDR | TBT2100PQ | TBT2100HLG.

(** src/color/primaries.rs:3-12 [ColorPrimaries] (the variant ST240 is [PrST240M] here) *)
Inductive color_primaries := PrST240M | PrBT709 | PrBT2020.

(** src/color/space.rs:7-24 [ColorSpace] *)
Inductive color_space := SpBT601 | SpBT709 | SpBT2020 | SpICtCpPQ | SpICtCpHLG.

(** src/color/mod.rs:9-32 [RgbColorInfo], [YuvColorInfo], [ColorInfo] *)
Record yuv_color_info := YuvCI {
  yc_transfer : color_transfer;
  yc_primaries : color_primaries;
  yc_space : color_space;
  yc_full_range : bool
}.
Inductive color_info :=
| CRGB (t : color_transfer) (p : color_primaries)
| CYUV (i : yuv_color_info).

(** derived [PartialEq] of [ColorInfo] *)
Definition color_info_eq_dec (a b : color_info) : {a = b} + {a <> b}.
Proof. repeat decide equality. Defined.
Definition color_info_eqb (a b : color_info) : bool :=
  if color_info_eq_dec a b then true else false.

(** derived [PartialEq] of [ColorTransfer] and [ColorPrimaries] *)
Definition color_transfer_eq_dec (a b : color_transfer) : {a = b} + {a <> b}.
Proof. decide equality. Defined.
Definition color_transfer_eqb (a b : color_transfer) : bool :=
  if color_transfer_eq_dec a b then true else false.
Definition color_primaries_eq_dec (a b : color_primaries) : {a = b} + {a <> b}.
Proof. decide equality. Defined.
Definition color_primaries_eqb (a b : color_primaries) : bool :=
  if color_primaries_eq_dec a b then true else false.

(** src/color/mod.rs:35-48 [ColorInfo::primaries], [ColorInfo::transfer] *)
Definition ci_transfer (c : color_info) : color_transfer :=
  match c with CRGB t _ => t | CYUV i => yc_transfer i end.
Definition ci_primaries (c : color_info) : color_primaries :=
  match c with CRGB _ p => p | CYUV i => yc_primaries i end.

(** src/pixel_format.rs:191-212 [BoundsCheckError] (the number-of-planes
    variant wraps src/planes.rs:13-16 [InvalidNumberOfPlanesError]) *)
Inductive bounds_error :=
| InvalidNumberOfPlanes (expected got : nat)
| InvalidStride (plane minimum got : nat)
| InvalidPlaneSize (plane minimum got : nat).

(** src/image.rs:23-29 [ImageError] *)
Inductive image_error :=
| InvalidDimensions
| ImgBoundsCheck (e : bounds_error).

(** src/lib.rs:50-67 [ConvertError].  The variant [InvalidNumberOfPlanes] is
    never reached separately because the bounds check reports it first; it is
    produced by the [?] on [read_planes] in the readers and writers. *)
Inductive convert_error :=
| OddImageDimensions
| MismatchedImageSize
| InvalidColorInfo
| CBoundsCheck (e : bounds_error)
| CInvalidNumberOfPlanes (expected got : nat).
