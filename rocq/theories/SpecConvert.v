(** Specification of [convert]: what every destination sample has to be, one
    sample at a time, in terms of the color formulas (SpecColor.v) and the
    memory layout (SpecGeom.v). *)

From Coq Require Import ZArith Bool List Arith.
From Verif Require Import Base Types F32 SpecGeom SpecVector SpecColor.
Import ListNotations.

(** Chroma sub-sampling of a format *)
Inductive sampling := S420 | S422 | S444 | SRGB.
Definition sampling_of (f : pixel_format) : sampling :=
  match f with
  | I420 | I010 | I012 | NV12 => S420
  | I422 | I210 | I212 | YUYV => S422
  | I444 | I410 | I412 => S444
  | RGBA | BGRA | RGB | BGR => SRGB
  end.

(** Largest nominal sample value of a format *)
Definition max_level (f : pixel_format) : Z :=
  match f with
  | I010 | I210 | I410 => 1023
  | I012 | I212 | I412 => 4095
  | _ => 255
  end.

(** The components a format stores *)
Definition has_comp (f : pixel_format) (c : comp) : bool :=
  match sampling_of f, c with
  | SRGB, (CR | CG | CB) => true
  | SRGB, CA => match f with RGBA | BGRA => true | _ => false end
  | (S420 | S422 | S444), (CY | CU | CV) => true
  | _, _ => false
  end.

(** A color: red, green, blue and alpha *)
Definition pixel : Type := (f32 * f32 * f32) * f32.

Definition fone : f32 := flit 1 0.

(** Sample of component [c] at pixel ([x], [y]), scaled to 0 .. 1; a component
    the format does not have (alpha) is 1 *)
Definition norm (m : mem) (f : pixel_format) (ps : list (slice * nat)) (c : comp) (x y : nat) : f32 :=
  match component m f ps c x y with
  | Some z => fdiv (f32_of_Z z) (f32_of_Z (max_level f))
  | None => fone
  end.

(** Color of a source pixel: stored RGB, or decoded YUV *)
Definition source_pixel (L : lane_ops f32) (m : mem) (f : pixel_format) (color : color_info)
    (ps : list (slice * nat)) (x y : nat) : pixel :=
  let s c := norm m f ps c x y in
  match sampling_of f, color with
  | SRGB, _ => ((s CR, s CG, s CB), s CA)
  | _, CYUV i => (decode_yuv L i (s CY) (s CU) (s CV), fone)
  | _, CRGB _ _ => ((fone, fone, fone), fone)       (* rejected by convert *)
  end.

(** The same color in the transfer function and primaries of the destination *)
Definition same_light (a b : color_info) : bool :=
  color_transfer_eqb (ci_transfer a) (ci_transfer b) && color_primaries_eqb (ci_primaries a) (ci_primaries b).

Definition recolored (L : lane_ops f32) (cs cd : color_info) (p : pixel) : pixel :=
  if same_light cs cd then p
  else (recolor L (ci_transfer cs) (ci_transfer cd) (ci_primaries cs) (ci_primaries cd) (fst p), snd p).

(** Mean color of four pixels, summed in column order *)
Definition mean4 (a b c d : f32 * f32 * f32) : f32 * f32 * f32 :=
  let m (f : f32 * f32 * f32 -> f32) := fmul (fadd (fadd (f a) (f b)) (fadd (f c) (f d))) (flit 25 2) in
  (m (fun p => fst (fst p)), m (fun p => snd (fst p)), m (fun p => snd p)).

Definition fst3 {A} (p : A * A * A) : A := fst (fst p).
Definition snd3 {A} (p : A * A * A) : A := snd (fst p).
Definition thd3 {A} (p : A * A * A) : A := snd p.

(** Value (0 .. 1) to be stored for component [c] of pixel ([x], [y]), when the
    pixels of the image have the colors [pix].  Sub-sampled chroma: for 4:2:2
    the mean of the chroma of the two pixels, for 4:2:0 the chroma of the mean
    color of the four pixels. *)
Definition target (L : lane_ops f32) (f : pixel_format) (color : color_info) (pix : nat -> nat -> pixel)
    (c : comp) (x y : nat) : f32 :=
  let rgb x y := fst (pix x y) in
  match sampling_of f, color with
  | SRGB, _ =>
      match c with
      | CR => fst3 (rgb x y)
      | CG => snd3 (rgb x y)
      | CB => thd3 (rgb x y)
      | _ => snd (pix x y)
      end
  | s, CYUV i =>
      let yuv := rgb_yuv L (yc_space i) (yc_transfer i) (yc_primaries i) in
      let x0 := 2 * (x / 2) in
      let y0 := 2 * (y / 2) in
      let chroma (sel : f32 * f32 * f32 -> f32) : f32 :=
        match s with
        | S420 => sel (yuv (mean4 (rgb x0 y0) (rgb x0 (y0 + 1)) (rgb (x0 + 1) y0) (rgb (x0 + 1) (y0 + 1))))
        | S422 => fdiv (fadd (sel (yuv (rgb x0 y))) (sel (yuv (rgb (x0 + 1) y)))) (flit 2 0)
        | _ => sel (yuv (rgb x y))
        end in
      match c with
      | CY => encode_y i (fst3 (yuv (rgb x y)))
      | CU => encode_c i (chroma snd3)
      | CV => encode_c i (chroma thd3)
      | _ => fone
      end
  | _, CRGB _ _ => fone                               (* rejected by convert *)
  end.

(** Integer stored for a value in 0 .. 1 *)
Definition quantise (q : quant) (f : pixel_format) (v : f32) : Z :=
  let v := fmul v (f32_of_Z (max_level f)) in
  match f with
  | I010 | I012 | I210 | I212 | I410 | I412 => q_u16 q v
  | RGBA | BGRA | RGB | BGR => q_u8i q v
  | _ => q_u8 q v
  end.

(** Columns processed with vectors of [n] elements, two at a time, in an image
    of width [w]; the rest is processed with scalar code *)
Definition vector_columns (n w : nat) : nat := w - w mod (n * 2).

(** The planes of a 4:4:4 planar source have one stride.  (The reader uses the
    Y stride for every second row of U and V.) *)
Definition strides_444 (f : pixel_format) (ps : list (slice * nat)) : Prop :=
  sampling_of f = S444 ->
  forall p q a b, p < 3 -> q < 3 -> nth_error ps p = Some a -> nth_error ps q = Some b -> snd a = snd b.

(** Bytes outside of all samples of the image *)
Definition sample_byte (f : pixel_format) (ps : list (slice * nat)) (w h : nat) (b i : nat) : Prop :=
  exists p pl r c, p < n_planes f /\ nth_error ps p = Some pl /\ r < plane_rows f p h /\ c < plane_cols f p w /\
    b = s_buf (fst pl) /\
    s_off (fst pl) + (r * snd pl + c * sample_bytes f) <= i
      < s_off (fst pl) + (r * snd pl + (c + 1) * sample_bytes f).
