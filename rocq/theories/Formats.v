(** Readers, writers and per-format color conversion (src/formats, src/primitive.rs).

    A pixel source (traits RgbaSrc, I420Src, I422Src, I444Src) is a function of
    the vector implementation and the position of the block.  Readers read the
    memory as it was when the conversion started: [src] is a shared borrow and
    [dst] an exclusive one, so the stores of the conversion cannot change what
    is read (ExecProofs.v shows that interleaving reads and stores gives the
    same result when the buffers are disjoint). *)

From Coq Require Import List ZArith Bool Arith.
From Verif Require Import Base Types Planes ImageM F32 Vector Color.
Import ListNotations.

(** * src/primitive.rs *)

(** primitive.rs:3-15 [Primitive], with implementations for u8 (17-58) and u16 (60-101) *)
Inductive prim := U8 | U16.

Definition psize (p : prim) : nat := match p with U8 => 1 | U16 => 2 end.

(** primitive.rs:21-24, 64-67 [load] from [slice[off..]]; the debug assertion
    is left out, reading past the end is undefined behaviour *)
Definition load (vi : vimpl) (p : prim) (m : mem) (s : slice) (off : nat) : res noerr vec :=
  bytes <- raw_read m s off (vi_len vi * psize p) ;;
  Ok (match p with U8 => vi_load_u8 vi bytes | U16 => vi_load_u16 vi bytes end).

(** primitive.rs:27-30 [load_3x_interleaved_2x], u8 only *)
Definition load_3x (vi : vimpl) (m : mem) (s : slice) (off : nat)
    : res noerr ((vec * vec * vec) * (vec * vec * vec)) :=
  bytes <- raw_read m s off (vi_len vi * 3 * 2) ;; Ok (vi_load_u8_3x vi bytes).

(** primitive.rs:32-35 [load_4x_interleaved_2x], u8 only *)
Definition load_4x (vi : vimpl) (m : mem) (s : slice) (off : nat)
    : res noerr ((vec * vec * vec * vec) * (vec * vec * vec * vec)) :=
  bytes <- raw_read m s off (vi_len vi * 4 * 2) ;; Ok (vi_load_u8_4x vi bytes).

(** primitive.rs:38-41, 81-84 [write] *)
Definition write (vi : vimpl) (p : prim) (s : slice) (off : nat) (v : vec) : out noerr :=
  raw_write s off (match p with U8 => vi_write_u8 vi v | U16 => vi_write_u16 vi v end).

(** primitive.rs:43-46, 86-89 [write_2x] *)
Definition write_2x (vi : vimpl) (p : prim) (s : slice) (off : nat) (v0 v1 : vec) : out noerr :=
  raw_write s off (match p with U8 => vi_write_u8_2x vi v0 v1 | U16 => vi_write_u16_2x vi v0 v1 end).

(** primitive.rs:49-52 [write_interleaved_3x_2x], 54-57 [write_interleaved_4x_2x], u8 only *)
Definition write_3x (vi : vimpl) (s : slice) (off : nat) (v : (vec * vec * vec) * (vec * vec * vec)) : out noerr :=
  raw_write s off (vi_write_u8_3x vi v).
Definition write_4x (vi : vimpl) (s : slice) (off : nat)
    (v : (vec * vec * vec * vec) * (vec * vec * vec * vec)) : out noerr :=
  raw_write s off (vi_write_u8_4x vi v).

(** * Offsets *)

(** [row * stride + x * size] on usize *)
Definition offset (row stride x size : nat) : res noerr nat :=
  a <- umul row stride ;;
  b <- umul x size ;;
  uadd a b.

(** src/formats/mod.rs:25-27 [max_value_for_bits] *)
Definition max_value_for_bits (bits : nat) : f32 := f32_of_Z (2 ^ Z.of_nat bits - 1).

(** * Blocks *)

(** formats/rgba/mod.rs:9-15 [RgbaPixel], 28-34 [RgbaBlock] *)
Record rgba_pixel (V : Type) := RgbaPixel { px_r : V; px_g : V; px_b : V; px_a : V }.
Arguments RgbaPixel {V}. Arguments px_r {V}. Arguments px_g {V}. Arguments px_b {V}. Arguments px_a {V}.
Record rgba_block (V : Type) := RgbaBlock {
  px00 : rgba_pixel V; px01 : rgba_pixel V; px10 : rgba_pixel V; px11 : rgba_pixel V }.
Arguments RgbaBlock {V}. Arguments px00 {V}. Arguments px01 {V}. Arguments px10 {V}. Arguments px11 {V}.

(** formats/i420/mod.rs:13-21 [I420Block] *)
Record i420_block (V : Type) := I420Block {
  b0_y00 : V; b0_y01 : V; b0_y10 : V; b0_y11 : V; b0_u : V; b0_v : V }.
Arguments I420Block {V}. Arguments b0_y00 {V}. Arguments b0_y01 {V}. Arguments b0_y10 {V}.
Arguments b0_y11 {V}. Arguments b0_u {V}. Arguments b0_v {V}.

(** formats/i422/mod.rs:13-23 [I422Block] *)
Record i422_block (V : Type) := I422Block {
  b2_y00 : V; b2_y01 : V; b2_y10 : V; b2_y11 : V; b2_u0 : V; b2_u1 : V; b2_v0 : V; b2_v1 : V }.
Arguments I422Block {V}. Arguments b2_y00 {V}. Arguments b2_y01 {V}. Arguments b2_y10 {V}.
Arguments b2_y11 {V}. Arguments b2_u0 {V}. Arguments b2_u1 {V}. Arguments b2_v0 {V}. Arguments b2_v1 {V}.

(** formats/i444/mod.rs:20-24 [I444Pixel], 13-18 [I444Block] *)
Record i444_pixel (V : Type) := I444Pixel { p4_y : V; p4_u : V; p4_v : V }.
Arguments I444Pixel {V}. Arguments p4_y {V}. Arguments p4_u {V}. Arguments p4_v {V}.
Record i444_block (V : Type) := I444Block {
  b4_00 : i444_pixel V; b4_01 : i444_pixel V; b4_10 : i444_pixel V; b4_11 : i444_pixel V }.
Arguments I444Block {V}. Arguments b4_00 {V}. Arguments b4_01 {V}. Arguments b4_10 {V}. Arguments b4_11 {V}.

(** traits RgbaSrc (rgba/mod.rs:36-38), I420Src (i420/mod.rs:23-25), I422Src
    (i422/mod.rs:25-27), I444Src (i444/mod.rs:26-28) *)
Definition rgba_src := vimpl -> nat -> nat -> res noerr (rgba_block vec).
Definition i420_src := vimpl -> nat -> nat -> res noerr (i420_block vec).
Definition i422_src := vimpl -> nat -> nat -> res noerr (i422_block vec).
Definition i444_src := vimpl -> nat -> nat -> res noerr (i444_block vec).

(** A plane and its stride *)
Definition plane := (slice * nat)%type.

(** [?] on the errors of [bounds_check] and [read_planes] (lib.rs:62-66) *)
Definition of_bounds_error (e : bounds_error) : convert_error := CBoundsCheck e.
Definition of_planes_error (e : bounds_error) : convert_error :=
  match e with
  | InvalidNumberOfPlanes expected got => CInvalidNumberOfPlanes expected got
  | _ => CBoundsCheck e
  end.

(** First half of all [Reader::new] and [Writer::write]: bounds check, then the
    first [n] planes *)
Definition open_planes (n : nat) (im : image) : res convert_error (list plane) :=
  _ <- map_err of_bounds_error (image_bounds_check im) ;;
  planes <- lift (im_planes im) ;;
  map_err of_planes_error (read_planes n planes).

(** The max_value of a reader or writer *)
Definition im_max (im : image) : f32 := max_value_for_bits (bits_per_component (im_format im)).

(** Array patterns [let [(a, _), ...] = ...] on the list of planes.  The list
    always has the right length after [read_planes]. *)
Definition planes1 {E} (l : list plane) : res E plane :=
  match l with [a] => Ok a | _ => Panic PExplicit end.
Definition planes2 {E} (l : list plane) : res E (plane * plane) :=
  match l with [a; b] => Ok (a, b) | _ => Panic PExplicit end.
Definition planes3 {E} (l : list plane) : res E (plane * plane * plane) :=
  match l with [a; b; c] => Ok (a, b, c) | _ => Panic PExplicit end.

(** * Readers *)

(** formats/i420/read.rs:23-38 [I420Reader::new], 43-77 [read] *)
Definition i420_read (m : mem) (p : prim) (max : f32) (py pu pv : plane) : i420_src := fun vi x y =>
  let '(sy, y_stride) := py in
  let '(su, u_stride) := pu in
  let '(sv, v_stride) := pv in
  let VO := vec_ops vi in
  y1 <- uadd y 1 ;;
  y00_offset <- offset y y_stride x (psize p) ;;
  y10_offset <- offset y1 y_stride x (psize p) ;;
  u_offset <- offset (y / 2) u_stride (x / 2) (psize p) ;;
  v_offset <- offset (y / 2) v_stride (x / 2) (psize p) ;;
  y00 <- load vi p m sy y00_offset ;;
  y01_offset <- uadd y00_offset (vi_len vi * psize p) ;;
  y01 <- load vi p m sy y01_offset ;;
  y10 <- load vi p m sy y10_offset ;;
  y11_offset <- uadd y10_offset (vi_len vi * psize p) ;;
  y11 <- load vi p m sy y11_offset ;;
  u <- load vi p m su u_offset ;;
  v <- load vi p m sv v_offset ;;
  Ok (I420Block (vdivf y00 max) (vdivf y01 max) (vdivf y10 max) (vdivf y11 max)
                (vdivf u max) (vdivf v max)).

Definition i420_reader (m : mem) (p : prim) (src : image) : res convert_error i420_src :=
  planes <- open_planes 3 src ;;
  '(py, pu, pv) <- planes3 planes ;;
  Ok (i420_read m p (im_max src) py pu pv).

(** formats/i422/read.rs:23-38 [I422Reader::new], 43-87 [read] *)
Definition i422_read (m : mem) (p : prim) (max : f32) (py pu pv : plane) : i422_src := fun vi x y =>
  let '(sy, y_stride) := py in
  let '(su, u_stride) := pu in
  let '(sv, v_stride) := pv in
  let VO := vec_ops vi in
  y1 <- uadd y 1 ;;
  y00_offset <- offset y y_stride x (psize p) ;;
  y10_offset <- offset y1 y_stride x (psize p) ;;
  u0_offset <- offset y u_stride (x / 2) (psize p) ;;
  u1_offset <- offset y1 u_stride (x / 2) (psize p) ;;
  v0_offset <- offset y v_stride (x / 2) (psize p) ;;
  v1_offset <- offset y1 v_stride (x / 2) (psize p) ;;
  y00 <- load vi p m sy y00_offset ;;
  y01_offset <- uadd y00_offset (vi_len vi * psize p) ;;
  y01 <- load vi p m sy y01_offset ;;
  y10 <- load vi p m sy y10_offset ;;
  y11_offset <- uadd y10_offset (vi_len vi * psize p) ;;
  y11 <- load vi p m sy y11_offset ;;
  u0 <- load vi p m su u0_offset ;;
  u1 <- load vi p m su u1_offset ;;
  v0 <- load vi p m sv v0_offset ;;
  v1 <- load vi p m sv v1_offset ;;
  Ok (I422Block (vdivf y00 max) (vdivf y01 max) (vdivf y10 max) (vdivf y11 max)
                (vdivf u0 max) (vdivf u1 max) (vdivf v0 max) (vdivf v1 max)).

Definition i422_reader (m : mem) (p : prim) (src : image) : res convert_error i422_src :=
  planes <- open_planes 3 src ;;
  '(py, pu, pv) <- planes3 planes ;;
  Ok (i422_read m p (im_max src) py pu pv).

(** formats/i444/read.rs:23-38 [I444Reader::new], 43-109 [read]; lines 48 and
    51 really use [y_stride] for the second row of U and V *)
Definition i444_read (m : mem) (p : prim) (max : f32) (py pu pv : plane) : i444_src := fun vi x y =>
  let '(sy, y_stride) := py in
  let '(su, u_stride) := pu in
  let '(sv, v_stride) := pv in
  let VO := vec_ops vi in
  y1 <- uadd y 1 ;;
  y00_offset <- offset y y_stride x (psize p) ;;
  y10_offset <- offset y1 y_stride x (psize p) ;;
  u00_offset <- offset y u_stride x (psize p) ;;
  u10_offset <- offset y1 y_stride x (psize p) ;;
  v00_offset <- offset y v_stride x (psize p) ;;
  v10_offset <- offset y1 y_stride x (psize p) ;;
  y00 <- load vi p m sy y00_offset ;;
  y01_offset <- uadd y00_offset (vi_len vi * psize p) ;;
  y01 <- load vi p m sy y01_offset ;;
  y10 <- load vi p m sy y10_offset ;;
  y11_offset <- uadd y10_offset (vi_len vi * psize p) ;;
  y11 <- load vi p m sy y11_offset ;;
  u00 <- load vi p m su u00_offset ;;
  u01_offset <- uadd u00_offset (vi_len vi * psize p) ;;
  u01 <- load vi p m su u01_offset ;;
  u10 <- load vi p m su u10_offset ;;
  u11_offset <- uadd u10_offset (vi_len vi * psize p) ;;
  u11 <- load vi p m su u11_offset ;;
  v00 <- load vi p m sv v00_offset ;;
  v01_offset <- uadd v00_offset (vi_len vi * psize p) ;;
  v01 <- load vi p m sv v01_offset ;;
  v10 <- load vi p m sv v10_offset ;;
  v11_offset <- uadd v10_offset (vi_len vi * psize p) ;;
  v11 <- load vi p m sv v11_offset ;;
  Ok (I444Block (I444Pixel (vdivf y00 max) (vdivf u00 max) (vdivf v00 max))
                (I444Pixel (vdivf y01 max) (vdivf u01 max) (vdivf v01 max))
                (I444Pixel (vdivf y10 max) (vdivf u10 max) (vdivf v10 max))
                (I444Pixel (vdivf y11 max) (vdivf u11 max) (vdivf v11 max))).

Definition i444_reader (m : mem) (p : prim) (src : image) : res convert_error i444_src :=
  planes <- open_planes 3 src ;;
  '(py, pu, pv) <- planes3 planes ;;
  Ok (i444_read m p (im_max src) py pu pv).

(** formats/nv12/read.rs:21-34 [NV12Reader::new], 39-74 [read] *)
Definition nv12_read (m : mem) (p : prim) (max : f32) (py puv : plane) : i420_src := fun vi x y =>
  let '(sy, y_stride) := py in
  let '(suv, uv_stride) := puv in
  let VO := vec_ops vi in
  y1 <- uadd y 1 ;;
  y00_offset <- offset y y_stride x (psize p) ;;
  y10_offset <- offset y1 y_stride x (psize p) ;;
  uv_offset <- offset (y / 2) uv_stride x (psize p) ;;
  y00 <- load vi p m sy y00_offset ;;
  y01_offset <- uadd y00_offset (vi_len vi * psize p) ;;
  y01 <- load vi p m sy y01_offset ;;
  y10 <- load vi p m sy y10_offset ;;
  y11_offset <- uadd y10_offset (vi_len vi * psize p) ;;
  y11 <- load vi p m sy y11_offset ;;
  uv0 <- load vi p m suv uv_offset ;;
  uv1_offset <- uadd uv_offset (vi_len vi * psize p) ;;
  uv1 <- load vi p m suv uv1_offset ;;
  let '(u, v) := vunzip uv0 uv1 in
  Ok (I420Block (vdivf y00 max) (vdivf y01 max) (vdivf y10 max) (vdivf y11 max)
                (vdivf u max) (vdivf v max)).

Definition nv12_reader (m : mem) (p : prim) (src : image) : res convert_error i420_src :=
  planes <- open_planes 2 src ;;
  '(py, puv) <- planes2 planes ;;
  Ok (nv12_read m p (im_max src) py puv).

(** formats/yuyv/read.rs:31-36 [read_yuyv] *)
Definition read_yuyv (m : mem) (p : prim) (s : slice) (vi : vimpl) (off : nat) : res noerr (vec * vec) :=
  yuyv00 <- load vi p m s off ;;
  off1 <- uadd off (vi_len vi * psize p) ;;
  yuyv01 <- load vi p m s off1 ;;
  Ok (vunzip (VOps := vec_ops vi) yuyv00 yuyv01).

(** formats/yuyv/read.rs:18-29 [YUYVReader::new], 41-75 [read] *)
Definition yuyv_read (m : mem) (p : prim) (max : f32) (pl : plane) : i422_src := fun vi x y =>
  let '(s, stride) := pl in
  let VO := vec_ops vi in
  y1 <- uadd y 1 ;;
  offset0 <- offset y stride x (2 * psize p) ;;
  offset1 <- offset y1 stride x (2 * psize p) ;;
  '(y00, uv00) <- read_yuyv m p s vi offset0 ;;
  offset01 <- uadd offset0 (vi_len vi * 2 * psize p) ;;
  '(y01, uv01) <- read_yuyv m p s vi offset01 ;;
  '(y10, uv10) <- read_yuyv m p s vi offset1 ;;
  offset11 <- uadd offset1 (vi_len vi * 2 * psize p) ;;
  '(y11, uv11) <- read_yuyv m p s vi offset11 ;;
  let '(u0, v0) := vunzip uv00 uv01 in
  let '(u1, v1) := vunzip uv10 uv11 in
  Ok (I422Block (vdivf y00 max) (vdivf y01 max) (vdivf y10 max) (vdivf y11 max)
                (vdivf u0 max) (vdivf u1 max) (vdivf v0 max) (vdivf v1 max)).

Definition yuyv_reader (m : mem) (p : prim) (src : image) : res convert_error i422_src :=
  planes <- open_planes 1 src ;;
  pl <- planes1 planes ;;
  Ok (yuyv_read m p (im_max src) pl).

(** formats/rgba/mod.rs:18-24 [RgbaPixel::from_loaded] *)
Definition from_loaded (reverse : bool) (r g b a : vec) : rgba_pixel vec :=
  if reverse then RgbaPixel b g r a else RgbaPixel r g b a.

(** formats/rgba/read.rs:19-30 [RgbaReader::new], 35-75 [read], for u8 (the
    only instantiation) *)
Definition rgba_read (m : mem) (reverse : bool) (max : f32) (pl : plane) : rgba_src := fun vi x y =>
  let '(s, stride) := pl in
  let VO := vec_ops vi in
  y1 <- uadd y 1 ;;
  offset00 <- offset y stride x (4 * psize U8) ;;
  offset10 <- offset y1 stride x (4 * psize U8) ;;
  '((r00, g00, b00, a00), (r01, g01, b01, a01)) <- load_4x vi m s offset00 ;;
  '((r10, g10, b10, a10), (r11, g11, b11, a11)) <- load_4x vi m s offset10 ;;
  Ok (RgbaBlock
        (from_loaded reverse (vdivf r00 max) (vdivf g00 max) (vdivf b00 max) (vdivf a00 max))
        (from_loaded reverse (vdivf r01 max) (vdivf g01 max) (vdivf b01 max) (vdivf a01 max))
        (from_loaded reverse (vdivf r10 max) (vdivf g10 max) (vdivf b10 max) (vdivf a10 max))
        (from_loaded reverse (vdivf r11 max) (vdivf g11 max) (vdivf b11 max) (vdivf a11 max))).

Definition rgba_reader (m : mem) (reverse : bool) (src : image) : res convert_error rgba_src :=
  planes <- open_planes 1 src ;;
  pl <- planes1 planes ;;
  Ok (rgba_read m reverse (im_max src) pl).

(** formats/rgb/read.rs:19-30 [RgbReader::new], 35-71 [read], for u8 (the only
    instantiation) *)
Definition rgb_read (m : mem) (reverse : bool) (max : f32) (pl : plane) : rgba_src := fun vi x y =>
  let '(s, stride) := pl in
  let VO := vec_ops vi in
  y1 <- uadd y 1 ;;
  offset00 <- offset y stride x (3 * psize U8) ;;
  offset10 <- offset y1 stride x (3 * psize U8) ;;
  '((r00, g00, b00), (r01, g01, b01)) <- load_3x vi m s offset00 ;;
  '((r10, g10, b10), (r11, g11, b11)) <- load_3x vi m s offset10 ;;
  Ok (RgbaBlock
        (from_loaded reverse (vdivf r00 max) (vdivf g00 max) (vdivf b00 max) (splat lit1))
        (from_loaded reverse (vdivf r01 max) (vdivf g01 max) (vdivf b01 max) (splat lit1))
        (from_loaded reverse (vdivf r10 max) (vdivf g10 max) (vdivf b10 max) (splat lit1))
        (from_loaded reverse (vdivf r11 max) (vdivf g11 max) (vdivf b11 max) (splat lit1))).

Definition rgb_reader (m : mem) (reverse : bool) (src : image) : res convert_error rgba_src :=
  planes <- open_planes 1 src ;;
  pl <- planes1 planes ;;
  Ok (rgb_read m reverse (im_max src) pl).

(** * YUV to RGB *)

Definition lit16 : f32 := flit 16 0.
Definition lit255 : f32 := flit 255 0.
Definition lit219 : f32 := flit 219 0.
Definition lit224 : f32 := flit 224 0.

(** [let ColorInfo::YUV(yuv) = color else { return Err(InvalidColorInfo) }] *)
Definition yuv_info (c : color_info) : res convert_error yuv_color_info :=
  match c with
  | CYUV i => Ok i
  | CRGB _ _ => Err InvalidColorInfo
  end.

(** formats/i420/to_rgb.rs:16-28 [I420ToRgb::new], 33-101 [read] *)
Definition i420_to_rgb_read (yc : yuv_color_info) (src : i420_src) : rgba_src := fun vi x y =>
  let VO := vec_ops vi in
  blk <- src vi x y ;;
  let '(I420Block y00 y01 y10 y11 u v) := blk in
  let '(y00, y01, y10, y11, u, v) :=
    if negb (yc_full_range yc) then
      let v16 := splat (fdiv lit16 lit255) in
      let y_scale := splat (fdiv lit255 lit219) in
      let uv_scale := splat (fdiv lit255 lit224) in
      (vmul (vsub y00 v16) y_scale, vmul (vsub y01 v16) y_scale,
       vmul (vsub y10 v16) y_scale, vmul (vsub y11 v16) y_scale,
       vmul (vsub u v16) uv_scale, vmul (vsub v v16) uv_scale)
    else (y00, y01, y10, y11, u, v) in
  let u := vsubf u lit_half in
  let v := vsubf v lit_half in
  let '((r00, g00, b00), (r01, g01, b01), (r10, g10, b10), (r11, g11, b11)) :=
    yx4_uv_to_rgb (yc_space yc) (yc_transfer yc) (xyz_to_rgb_mat (yc_primaries yc)) y00 y01 y10 y11 u v in
  Ok (RgbaBlock (RgbaPixel r00 g00 b00 (splat lit1)) (RgbaPixel r01 g01 b01 (splat lit1))
                (RgbaPixel r10 g10 b10 (splat lit1)) (RgbaPixel r11 g11 b11 (splat lit1))).

Definition i420_to_rgb (c : color_info) (src : i420_src) : res convert_error rgba_src :=
  yc <- yuv_info c ;; Ok (i420_to_rgb_read yc src).

(** formats/i422/to_rgb.rs:16-28 [I422ToRgb::new], 33-127 [read] *)
Definition i422_to_rgb_read (yc : yuv_color_info) (src : i422_src) : rgba_src := fun vi x y =>
  let VO := vec_ops vi in
  blk <- src vi x y ;;
  let '(I422Block y00 y01 y10 y11 u0 u1 v0 v1) := blk in
  let '(y00, y01, y10, y11, u0, u1, v0, v1) :=
    if negb (yc_full_range yc) then
      let v16 := splat (fdiv lit16 lit255) in
      let y_scale := splat (fdiv lit255 lit219) in
      let uv_scale := splat (fdiv lit255 lit224) in
      (vmul (vsub y00 v16) y_scale, vmul (vsub y01 v16) y_scale,
       vmul (vsub y10 v16) y_scale, vmul (vsub y11 v16) y_scale,
       vmul (vsub u0 v16) uv_scale, vmul (vsub u1 v16) uv_scale,
       vmul (vsub v0 v16) uv_scale, vmul (vsub v1 v16) uv_scale)
    else (y00, y01, y10, y11, u0, u1, v0, v1) in
  let u0 := vsubf u0 lit_half in
  let u1 := vsubf u1 lit_half in
  let v0 := vsubf v0 lit_half in
  let v1 := vsubf v1 lit_half in
  let f := yuv_to_rgb (yc_space yc) (yc_transfer yc) (xyz_to_rgb_mat (yc_primaries yc)) in
  let '(u0_left, u0_right) := vzip u0 u0 in
  let '(v0_left, v0_right) := vzip v0 v0 in
  let '(r00, g00, b00) := f y00 u0_left v0_left in
  let '(r01, g01, b01) := f y01 u0_right v0_right in
  let '(u1_left, u1_right) := vzip u1 u1 in
  let '(v1_left, v1_right) := vzip v1 v1 in
  let '(r10, g10, b10) := f y10 u1_left v1_left in
  let '(r11, g11, b11) := f y11 u1_right v1_right in
  Ok (RgbaBlock (RgbaPixel r00 g00 b00 (splat lit1)) (RgbaPixel r01 g01 b01 (splat lit1))
                (RgbaPixel r10 g10 b10 (splat lit1)) (RgbaPixel r11 g11 b11 (splat lit1))).

Definition i422_to_rgb (c : color_info) (src : i422_src) : res convert_error rgba_src :=
  yc <- yuv_info c ;; Ok (i422_to_rgb_read yc src).

(** formats/i444/to_rgb.rs:32-70 [convert_yuv_to_rgb] *)
Definition i444_convert_yuv_to_rgb (yc : yuv_color_info) (vi : vimpl) (px : i444_pixel vec) : rgba_pixel vec :=
  let VO := vec_ops vi in
  let '(I444Pixel y u v) := px in
  let '(y, u, v) :=
    if negb (yc_full_range yc) then
      let v16 := splat (fdiv lit16 lit255) in
      let y_scale := splat (fdiv lit255 lit219) in
      let uv_scale := splat (fdiv lit255 lit224) in
      (vmul (vsub y v16) y_scale, vmul (vsub u v16) uv_scale, vmul (vsub v v16) uv_scale)
    else (y, u, v) in
  let u := vsubf u lit_half in
  let v := vsubf v lit_half in
  let '(r, g, b) := yuv_to_rgb (yc_space yc) (yc_transfer yc) (xyz_to_rgb_mat (yc_primaries yc)) y u v in
  RgbaPixel r g b (splat lit1).

(** formats/i444/to_rgb.rs:17-29 [I444ToRgb::new], 75-89 [read] *)
Definition i444_to_rgb_read (yc : yuv_color_info) (src : i444_src) : rgba_src := fun vi x y =>
  blk <- src vi x y ;;
  Ok (RgbaBlock (i444_convert_yuv_to_rgb yc vi (b4_00 blk)) (i444_convert_yuv_to_rgb yc vi (b4_01 blk))
                (i444_convert_yuv_to_rgb yc vi (b4_10 blk)) (i444_convert_yuv_to_rgb yc vi (b4_11 blk))).

Definition i444_to_rgb (c : color_info) (src : i444_src) : res convert_error rgba_src :=
  yc <- yuv_info c ;; Ok (i444_to_rgb_read yc src).

(** * RGB to YUV *)

(** formats/i420/from_rgb.rs:16-28 [RgbToI420::new], 33-80 [read] *)
Definition rgb_to_i420_read (yc : yuv_color_info) (src : rgba_src) : i420_src := fun vi x y =>
  let VO := vec_ops vi in
  blk <- src vi x y ;;
  let '(RgbaBlock p00 p01 p10 p11) := blk in
  let '((y00, y01, y10, y11), u, v) :=
    rgbx4_to_yx4_uv (yc_space yc) (yc_transfer yc) (rgb_to_xyz_mat (yc_primaries yc))
      (px_r p00, px_r p01, px_r p10, px_r p11)
      (px_g p00, px_g p01, px_g p10, px_g p11)
      (px_b p00, px_b p01, px_b p10, px_b p11) in
  let u := vaddf u lit_half in
  let v := vaddf v lit_half in
  Ok (if yc_full_range yc then I420Block y00 y01 y10 y11 u v
      else
        let v16 := splat (fdiv lit16 lit255) in
        let y_scale := splat (fdiv lit219 lit255) in
        let uv_scale := splat (fdiv lit224 lit255) in
        I420Block (vadd v16 (vmul y00 y_scale)) (vadd v16 (vmul y01 y_scale))
                  (vadd v16 (vmul y10 y_scale)) (vadd v16 (vmul y11 y_scale))
                  (vadd v16 (vmul u uv_scale)) (vadd v16 (vmul v uv_scale))).

Definition rgb_to_i420 (c : color_info) (src : rgba_src) : res convert_error i420_src :=
  yc <- yuv_info c ;; Ok (rgb_to_i420_read yc src).

(** formats/i422/from_rgb.rs:30-67 [convert_rgb_to_yuv] *)
Definition i422_convert_rgb_to_yuv (yc : yuv_color_info) (vi : vimpl) (p0 p1 : rgba_pixel vec)
    : (vec * vec) * vec * vec :=
  let VO := vec_ops vi in
  let f := rgb_to_yuv (yc_space yc) (yc_transfer yc) (rgb_to_xyz_mat (yc_primaries yc)) in
  let '(y0, u0, v0) := f (px_r p0) (px_g p0) (px_b p0) in
  let '(y1, u1, v1) := f (px_r p1) (px_g p1) (px_b p1) in
  let '(u0, u1) := vunzip u0 u1 in
  let '(v0, v1) := vunzip v0 v1 in
  let u := vdivf (vadd u0 u1) lit2 in
  let v := vdivf (vadd v0 v1) lit2 in
  let u := vaddf u lit_half in
  let v := vaddf v lit_half in
  if negb (yc_full_range yc) then
    let v16 := splat (fdiv lit16 lit255) in
    let y_scale := splat (fdiv lit219 lit255) in
    let uv_scale := splat (fdiv lit224 lit255) in
    ((vadd v16 (vmul y0 y_scale), vadd v16 (vmul y1 y_scale)),
     vadd v16 (vmul u uv_scale), vadd v16 (vmul v uv_scale))
  else ((y0, y1), u, v).

(** formats/i422/from_rgb.rs:15-27 [RgbToI422::new], 72-93 [read] *)
Definition rgb_to_i422_read (yc : yuv_color_info) (src : rgba_src) : i422_src := fun vi x y =>
  blk <- src vi x y ;;
  let '((y00, y01), u0, v0) := i422_convert_rgb_to_yuv yc vi (px00 blk) (px01 blk) in
  let '((y10, y11), u1, v1) := i422_convert_rgb_to_yuv yc vi (px10 blk) (px11 blk) in
  Ok (I422Block y00 y01 y10 y11 u0 u1 v0 v1).

Definition rgb_to_i422 (c : color_info) (src : rgba_src) : res convert_error i422_src :=
  yc <- yuv_info c ;; Ok (rgb_to_i422_read yc src).

(** formats/i444/from_rgb.rs:32-54 [convert_rgb_to_yuv] *)
Definition i444_convert_rgb_to_yuv (yc : yuv_color_info) (vi : vimpl) (px : rgba_pixel vec) : i444_pixel vec :=
  let VO := vec_ops vi in
  let '(y, u, v) := rgb_to_yuv (yc_space yc) (yc_transfer yc) (rgb_to_xyz_mat (yc_primaries yc))
                               (px_r px) (px_g px) (px_b px) in
  let u := vaddf u lit_half in
  let v := vaddf v lit_half in
  if negb (yc_full_range yc) then
    let v16 := splat (fdiv lit16 lit255) in
    let y_scale := splat (fdiv lit219 lit255) in
    let uv_scale := splat (fdiv lit224 lit255) in
    I444Pixel (vadd v16 (vmul y y_scale)) (vadd v16 (vmul u uv_scale)) (vadd v16 (vmul v uv_scale))
  else I444Pixel y u v.

(** formats/i444/from_rgb.rs:17-29 [RgbToI444::new], 59-68 [read] *)
Definition rgb_to_i444_read (yc : yuv_color_info) (src : rgba_src) : i444_src := fun vi x y =>
  blk <- src vi x y ;;
  Ok (I444Block (i444_convert_rgb_to_yuv yc vi (px00 blk)) (i444_convert_rgb_to_yuv yc vi (px01 blk))
                (i444_convert_rgb_to_yuv yc vi (px10 blk)) (i444_convert_rgb_to_yuv yc vi (px11 blk))).

Definition rgb_to_i444 (c : color_info) (src : rgba_src) : res convert_error i444_src :=
  yc <- yuv_info c ;; Ok (rgb_to_i444_read yc src).

(** * formats/transfer_and_primaries_convert.rs *)

(** 17-22 [need_transfer_and_primaries_convert] *)
Definition need_transfer_and_primaries_convert (src dst : color_info) : bool :=
  negb (color_transfer_eqb (ci_transfer src) (ci_transfer dst)) ||
  negb (color_primaries_eqb (ci_primaries src) (ci_primaries dst)).

(** 38-73 [read], for one pixel of the block *)
Definition tp_pixel (src dst : color_info) (vi : vimpl) (px : rgba_pixel vec) : rgba_pixel vec :=
  let VO := vec_ops vi in
  let r := scaled_to_linear (ci_transfer src) (px_r px) in
  let g := scaled_to_linear (ci_transfer src) (px_g px) in
  let b := scaled_to_linear (ci_transfer src) (px_b px) in
  let '(x, y, z) := rgb_to_xyz (rgb_to_xyz_mat (ci_primaries src)) r g b in
  let '(r, g, b) := xyz_to_rgb (xyz_to_rgb_mat (ci_primaries dst)) x y z in
  RgbaPixel (linear_to_scaled (ci_transfer dst) r) (linear_to_scaled (ci_transfer dst) g)
            (linear_to_scaled (ci_transfer dst) b) (px_a px).

(** 25-33 [TransferAndPrimariesConvert::new], 38-73 [read] *)
Definition tp_convert_read (src_color dst_color : color_info) (src : rgba_src) : rgba_src := fun vi x y =>
  blk <- src vi x y ;;
  Ok (RgbaBlock (tp_pixel src_color dst_color vi (px00 blk)) (tp_pixel src_color dst_color vi (px01 blk))
                (tp_pixel src_color dst_color vi (px10 blk)) (tp_pixel src_color dst_color vi (px11 blk))).

(** * Writers *)

(** formats/visit_2x2.rs:4-6 [Image2x2Visitor::visit] *)
Definition visitor := vimpl -> nat -> nat -> out noerr.

(** formats/i420/write.rs:67-96 [visit] *)
Definition i420_visit (p : prim) (max : f32) (py pu pv : plane) (src : i420_src) : visitor := fun vi x y =>
  let '(sy, y_stride) := py in
  let '(su, u_stride) := pu in
  let '(sv, v_stride) := pv in
  let VO := vec_ops vi in
  obind (src vi x y) (fun blk =>
  let '(I420Block y00 y01 y10 y11 u v) := blk in
  obind (
    y1 <- uadd y 1 ;;
    y00_offset <- offset y y_stride x (psize p) ;;
    y10_offset <- offset y1 y_stride x (psize p) ;;
    u_offset <- offset (y / 2) u_stride (x / 2) (psize p) ;;
    v_offset <- offset (y / 2) v_stride (x / 2) (psize p) ;;
    Ok (y00_offset, y10_offset, u_offset, v_offset))
  (fun '(y00_offset, y10_offset, u_offset, v_offset) =>
  run_all [write_2x vi p sy y00_offset (vmulf y00 max) (vmulf y01 max);
           write_2x vi p sy y10_offset (vmulf y10 max) (vmulf y11 max);
           write vi p su u_offset (vmulf u max);
           write vi p sv v_offset (vmulf v max)])).

(** formats/i422/write.rs:67-105 [visit] *)
Definition i422_visit (p : prim) (max : f32) (py pu pv : plane) (src : i422_src) : visitor := fun vi x y =>
  let '(sy, y_stride) := py in
  let '(su, u_stride) := pu in
  let '(sv, v_stride) := pv in
  let VO := vec_ops vi in
  obind (src vi x y) (fun blk =>
  let '(I422Block y00 y01 y10 y11 u0 u1 v0 v1) := blk in
  obind (
    y1 <- uadd y 1 ;;
    y00_offset <- offset y y_stride x (psize p) ;;
    y10_offset <- offset y1 y_stride x (psize p) ;;
    Ok (y1, y00_offset, y10_offset))
  (fun '(y1, y00_offset, y10_offset) =>
  run_all [write_2x vi p sy y00_offset (vmulf y00 max) (vmulf y01 max);
           write_2x vi p sy y10_offset (vmulf y10 max) (vmulf y11 max);
           obind (
             u0_offset <- offset y u_stride (x / 2) (psize p) ;;
             u1_offset <- offset y1 u_stride (x / 2) (psize p) ;;
             v0_offset <- offset y v_stride (x / 2) (psize p) ;;
             v1_offset <- offset y1 v_stride (x / 2) (psize p) ;;
             Ok (u0_offset, u1_offset, v0_offset, v1_offset))
           (fun '(u0_offset, u1_offset, v0_offset, v1_offset) =>
           run_all [write vi p su u0_offset (vmulf u0 max);
                    write vi p su u1_offset (vmulf u1 max);
                    write vi p sv v0_offset (vmulf v0 max);
                    write vi p sv v1_offset (vmulf v1 max)])])).

(** formats/i444/write.rs:67-109 [visit] *)
Definition i444_visit (p : prim) (max : f32) (py pu pv : plane) (src : i444_src) : visitor := fun vi x y =>
  let '(sy, y_stride) := py in
  let '(su, u_stride) := pu in
  let '(sv, v_stride) := pv in
  let VO := vec_ops vi in
  obind (src vi x y) (fun blk =>
  let '(I444Block p00 p01 p10 p11) := blk in
  obind (
    y1 <- uadd y 1 ;;
    y00_offset <- offset y y_stride x (psize p) ;;
    y10_offset <- offset y1 y_stride x (psize p) ;;
    u00_offset <- offset y u_stride x (psize p) ;;
    u10_offset <- offset y1 u_stride x (psize p) ;;
    v00_offset <- offset y v_stride x (psize p) ;;
    v10_offset <- offset y1 v_stride x (psize p) ;;
    Ok (y00_offset, y10_offset, u00_offset, u10_offset, v00_offset, v10_offset))
  (fun '(y00_offset, y10_offset, u00_offset, u10_offset, v00_offset, v10_offset) =>
  run_all [write_2x vi p sy y00_offset (vmulf (p4_y p00) max) (vmulf (p4_y p01) max);
           write_2x vi p sy y10_offset (vmulf (p4_y p10) max) (vmulf (p4_y p11) max);
           write_2x vi p su u00_offset (vmulf (p4_u p00) max) (vmulf (p4_u p01) max);
           write_2x vi p su u10_offset (vmulf (p4_u p10) max) (vmulf (p4_u p11) max);
           write_2x vi p sv v00_offset (vmulf (p4_v p00) max) (vmulf (p4_v p01) max);
           write_2x vi p sv v10_offset (vmulf (p4_v p10) max) (vmulf (p4_v p11) max)])).

(** formats/nv12/write.rs:62-91 [visit] *)
Definition nv12_visit (p : prim) (max : f32) (py puv : plane) (src : i420_src) : visitor := fun vi x y =>
  let '(sy, y_stride) := py in
  let '(suv, uv_stride) := puv in
  let VO := vec_ops vi in
  obind (src vi x y) (fun blk =>
  let '(I420Block y00 y01 y10 y11 u v) := blk in
  obind (
    y1 <- uadd y 1 ;;
    y00_offset <- offset y y_stride x (psize p) ;;
    y10_offset <- offset y1 y_stride x (psize p) ;;
    uv_offset <- offset (y / 2) uv_stride x (psize p) ;;
    Ok (y00_offset, y10_offset, uv_offset))
  (fun '(y00_offset, y10_offset, uv_offset) =>
  let '(uv0, uv1) := vzip (vmulf u max) (vmulf v max) in
  run_all [write_2x vi p sy y00_offset (vmulf y00 max) (vmulf y01 max);
           write_2x vi p sy y10_offset (vmulf y10 max) (vmulf y11 max);
           write_2x vi p suv uv_offset uv0 uv1])).

(** formats/yuyv/write.rs:51-58 [write_yuyv] *)
Definition write_yuyv (vi : vimpl) (p : prim) (s : slice) (y uv : vec) (off : nat) : out noerr :=
  let '(yuyv00, yuyv01) := vzip (VOps := vec_ops vi) y uv in
  write_2x vi p s off yuyv00 yuyv01.

(** formats/yuyv/write.rs:67-98 [visit] *)
Definition yuyv_visit (p : prim) (max : f32) (pl : plane) (src : i422_src) : visitor := fun vi x y =>
  let '(s, stride) := pl in
  let VO := vec_ops vi in
  obind (src vi x y) (fun blk =>
  let '(I422Block y00 y01 y10 y11 u0 u1 v0 v1) := blk in
  obind (
    y1 <- uadd y 1 ;;
    offset0 <- offset y stride x (2 * psize p) ;;
    offset1 <- offset y1 stride x (2 * psize p) ;;
    Ok (offset0, offset1))
  (fun '(offset0, offset1) =>
  let '(uv00, uv01) := vzip (vmulf u0 max) (vmulf v0 max) in
  let '(uv10, uv11) := vzip (vmulf u1 max) (vmulf v1 max) in
  run_all [write_yuyv vi p s (vmulf y00 max) uv00 offset0;
           obind (uadd offset0 (vi_len vi * 2 * psize p)) (write_yuyv vi p s (vmulf y01 max) uv01);
           write_yuyv vi p s (vmulf y10 max) uv10 offset1;
           obind (uadd offset1 (vi_len vi * 2 * psize p)) (write_yuyv vi p s (vmulf y11 max) uv11)])).

(** formats/rgba/write.rs:84-98 [multiply_and_reverse] *)
Definition rgba_multiply_and_reverse (reverse : bool) (vi : vimpl) (px : rgba_pixel vec) (max : f32)
    : vec * vec * vec * vec :=
  let VO := vec_ops vi in
  let r := vmulf (px_r px) max in
  let g := vmulf (px_g px) max in
  let b := vmulf (px_b px) max in
  let a := vmulf (px_a px) max in
  if reverse then (b, g, r, a) else (r, g, b, a).

(** formats/rgba/write.rs:59-80 [visit], for u8 (the only instantiation) *)
Definition rgba_visit (reverse : bool) (max : f32) (pl : plane) (src : rgba_src) : visitor := fun vi x y =>
  let '(s, stride) := pl in
  obind (src vi x y) (fun blk =>
  obind (
    y1 <- uadd y 1 ;;
    offset00 <- offset y stride x (4 * psize U8) ;;
    offset10 <- offset y1 stride x (4 * psize U8) ;;
    Ok (offset00, offset10))
  (fun '(offset00, offset10) =>
  run_all [write_4x vi s offset00 (rgba_multiply_and_reverse reverse vi (px00 blk) max,
                                   rgba_multiply_and_reverse reverse vi (px01 blk) max);
           write_4x vi s offset10 (rgba_multiply_and_reverse reverse vi (px10 blk) max,
                                   rgba_multiply_and_reverse reverse vi (px11 blk) max)])).

(** formats/rgb/write.rs:83-96 [multiply_and_reverse] *)
Definition rgb_multiply_and_reverse (reverse : bool) (vi : vimpl) (px : rgba_pixel vec) (max : f32)
    : vec * vec * vec :=
  let VO := vec_ops vi in
  let r := vmulf (px_r px) max in
  let g := vmulf (px_g px) max in
  let b := vmulf (px_b px) max in
  if reverse then (b, g, r) else (r, g, b).

(** formats/rgb/write.rs:58-79 [visit], for u8 (the only instantiation) *)
Definition rgb_visit (reverse : bool) (max : f32) (pl : plane) (src : rgba_src) : visitor := fun vi x y =>
  let '(s, stride) := pl in
  obind (src vi x y) (fun blk =>
  obind (
    y1 <- uadd y 1 ;;
    offset00 <- offset y stride x (3 * psize U8) ;;
    offset10 <- offset y1 stride x (3 * psize U8) ;;
    Ok (offset00, offset10))
  (fun '(offset00, offset10) =>
  run_all [write_3x vi s offset00 (rgb_multiply_and_reverse reverse vi (px00 blk) max,
                                   rgb_multiply_and_reverse reverse vi (px01 blk) max);
           write_3x vi s offset10 (rgb_multiply_and_reverse reverse vi (px10 blk) max,
                                   rgb_multiply_and_reverse reverse vi (px11 blk) max)])).
