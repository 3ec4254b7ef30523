(** [convert] (src/lib.rs) and the [write] functions of the writers. *)

From Coq Require Import List ZArith Bool Arith.
From Verif Require Import Base Types Planes ImageM F32 Vector Simd Formats Visit.
Import ListNotations.

(** The result of [visit] is never an error. *)
Definition olift {E} (o : out noerr) : out E := (fst o, lift (snd o)).

Section Convert.
  Variable lm : libm.
  Variable b : backend.

  (** formats/i420/write.rs:34-58 [I420Writer::write] *)
  Definition i420_write (p : prim) (dst : image) (src : i420_src) : out convert_error :=
    obind (planes <- open_planes 3 dst ;; planes3 planes) (fun '(py, pu, pv) =>
    olift (visit lm b (im_width dst) (im_height dst) (i420_visit p (im_max dst) py pu pv src))).

  (** formats/i422/write.rs:34-58 [I422Writer::write] *)
  Definition i422_write (p : prim) (dst : image) (src : i422_src) : out convert_error :=
    obind (planes <- open_planes 3 dst ;; planes3 planes) (fun '(py, pu, pv) =>
    olift (visit lm b (im_width dst) (im_height dst) (i422_visit p (im_max dst) py pu pv src))).

  (** formats/i444/write.rs:34-58 [I444Writer::write] *)
  Definition i444_write (p : prim) (dst : image) (src : i444_src) : out convert_error :=
    obind (planes <- open_planes 3 dst ;; planes3 planes) (fun '(py, pu, pv) =>
    olift (visit lm b (im_width dst) (im_height dst) (i444_visit p (im_max dst) py pu pv src))).

  (** formats/nv12/write.rs:32-53 [NV12Writer::write] *)
  Definition nv12_write (p : prim) (dst : image) (src : i420_src) : out convert_error :=
    obind (planes <- open_planes 2 dst ;; planes2 planes) (fun '(py, puv) =>
    olift (visit lm b (im_width dst) (im_height dst) (nv12_visit p (im_max dst) py puv src))).

  (** formats/yuyv/write.rs:29-49 [YUYVWriter::write] *)
  Definition yuyv_write (p : prim) (dst : image) (src : i422_src) : out convert_error :=
    obind (planes <- open_planes 1 dst ;; planes1 planes) (fun pl =>
    olift (visit lm b (im_width dst) (im_height dst) (yuyv_visit p (im_max dst) pl src))).

  (** formats/rgba/write.rs:30-50 [RgbaWriter::write] *)
  Definition rgba_write (reverse : bool) (dst : image) (src : rgba_src) : out convert_error :=
    obind (planes <- open_planes 1 dst ;; planes1 planes) (fun pl =>
    olift (visit lm b (im_width dst) (im_height dst) (rgba_visit reverse (im_max dst) pl src))).

  (** formats/rgb/write.rs:29-49 [RgbWriter::write] *)
  Definition rgb_write (reverse : bool) (dst : image) (src : rgba_src) : out convert_error :=
    obind (planes <- open_planes 1 dst ;; planes1 planes) (fun pl =>
    olift (visit lm b (im_width dst) (im_height dst) (rgb_visit reverse (im_max dst) pl src))).

  (** lib.rs:198-210 [verify_input_windows] *)
  Definition verify_input_windows (src dst : image) : res convert_error unit :=
    if negb (im_width src =? im_width dst) || negb (im_height src =? im_height dst)
    then Err MismatchedImageSize
    else if (im_width src mod 2 =? 1) || (im_height src mod 2 =? 1)
    then Err OddImageDimensions
    else Ok tt.

  (** lib.rs:95-120 [convert_same_color_and_pixel_format] *)
  Definition convert_same_color_and_pixel_format (m : mem) (src dst : image) : out convert_error :=
    if pixel_format_eqb (im_format src) (im_format dst) then
      match im_format src with
      | I420 => obind (i420_reader m U8 src) (i420_write U8 dst)
      | I422 => obind (i422_reader m U8 src) (i422_write U8 dst)
      | I444 => obind (i444_reader m U8 src) (i444_write U8 dst)
      | I010 | I012 => obind (i420_reader m U16 src) (i420_write U16 dst)
      | I210 | I212 => obind (i422_reader m U16 src) (i422_write U16 dst)
      | I410 | I412 => obind (i444_reader m U16 src) (i444_write U16 dst)
      | NV12 => obind (nv12_reader m U8 src) (nv12_write U8 dst)
      | YUYV => obind (yuyv_reader m U8 src) (yuyv_write U8 dst)
      | RGBA => obind (rgba_reader m false src) (rgba_write false dst)
      | BGRA => obind (rgba_reader m true src) (rgba_write true dst)
      | RGB => obind (rgb_reader m false src) (rgb_write false dst)
      | BGR => obind (rgb_reader m true src) (rgb_write true dst)
      end
    else ([], Panic PAssert).

  (** lib.rs:122-169 [read_any_to_rgba]; the boxed readers only forward to the
      generic [read] (formats/dyn_rgba_src.rs) *)
  Definition read_any_to_rgba (m : mem) (src : image) : res convert_error rgba_src :=
    match im_format src with
    | I420 => r <- i420_reader m U8 src ;; i420_to_rgb (im_color src) r
    | I422 => r <- i422_reader m U8 src ;; i422_to_rgb (im_color src) r
    | I444 => r <- i444_reader m U8 src ;; i444_to_rgb (im_color src) r
    | I010 | I012 => r <- i420_reader m U16 src ;; i420_to_rgb (im_color src) r
    | I210 | I212 => r <- i422_reader m U16 src ;; i422_to_rgb (im_color src) r
    | I410 | I412 => r <- i444_reader m U16 src ;; i444_to_rgb (im_color src) r
    | NV12 => r <- nv12_reader m U8 src ;; i420_to_rgb (im_color src) r
    | YUYV => r <- yuyv_reader m U8 src ;; i422_to_rgb (im_color src) r
    | RGBA => rgba_reader m false src
    | BGRA => rgba_reader m true src
    | RGB => rgb_reader m false src
    | BGR => rgb_reader m true src
    end.

  (** lib.rs:171-194 [rgba_to_any] *)
  Definition rgba_to_any (dst : image) (reader : rgba_src) : out convert_error :=
    let dst_color := im_color dst in
    match im_format dst with
    | I420 => obind (rgb_to_i420 dst_color reader) (i420_write U8 dst)
    | I422 => obind (rgb_to_i422 dst_color reader) (i422_write U8 dst)
    | I444 => obind (rgb_to_i444 dst_color reader) (i444_write U8 dst)
    | I010 | I012 => obind (rgb_to_i420 dst_color reader) (i420_write U16 dst)
    | I210 | I212 => obind (rgb_to_i422 dst_color reader) (i422_write U16 dst)
    | I410 | I412 => obind (rgb_to_i444 dst_color reader) (i444_write U16 dst)
    | NV12 => obind (rgb_to_i420 dst_color reader) (nv12_write U8 dst)
    | YUYV => obind (rgb_to_i422 dst_color reader) (yuyv_write U8 dst)
    | RGBA => rgba_write false dst reader
    | BGRA => rgba_write true dst reader
    | RGB => rgb_write false dst reader
    | BGR => rgb_write true dst reader
    end.

  (** lib.rs:69-93 [convert].  [m] is the memory at the call; the result is the
      list of stores performed and the outcome. *)
  Definition convert (m : mem) (src dst : image) : out convert_error :=
    obind (verify_input_windows src dst) (fun _ =>
    if pixel_format_eqb (im_format src) (im_format dst) && color_info_eqb (im_color src) (im_color dst)
    then convert_same_color_and_pixel_format m src dst
    else
      obind (read_any_to_rgba m src) (fun reader =>
      if need_transfer_and_primaries_convert (im_color src) (im_color dst)
      then rgba_to_any dst (tp_convert_read (im_color src) (im_color dst) reader)
      else rgba_to_any dst reader)).
End Convert.
