(** Where the reader of 4:4:4 planar images finds U and V: the second row of
    every pair of rows is addressed with the stride of the Y plane. *)

From Coq Require Import Arith Bool List ZArith.
From Verif Require Import Base Types ImageM F32 SpecGeom SpecVector SpecColor SpecConvert SpecRun.
Import ListNotations.

(** Offset of row [y] in a plane of stride [stride] *)
Definition read_row (y_stride stride y : nat) : nat := if Nat.even y then y * stride else y * y_stride.

(** All rows of U and V, as they are addressed, lie inside their slices. *)
Definition chroma_inside (f : pixel_format) (ps : list (slice * nat)) (w h : nat) : Prop :=
  sampling_of f = S444 -> 0 < w ->
  forall p luma pl y, p = 1 \/ p = 2 -> nth_error ps 0 = Some luma -> nth_error ps p = Some pl -> y < h ->
  read_row (snd luma) (snd pl) y + w * sample_bytes f <= s_len (fst pl).

(** The samples that are read, gathered in an image of their own: three
    buffers, one stride *)
Definition as_read_planes (f : pixel_format) (ps : list (slice * nat)) (h : nat) : list (slice * nat) :=
  match sampling_of f, nth_error ps 0 with
  | S444, Some luma => map (fun b => (Slice b 0 (snd luma * h), snd luma)) [0; 1; 2]
  | _, _ => ps
  end.
Definition as_read_mem (f : pixel_format) (ps : list (slice * nat)) (m : mem) : mem := fun b i =>
  match sampling_of f, nth_error ps 0, nth_error ps b with
  | S444, Some luma, Some pl =>
      m (s_buf (fst pl)) (s_off (fst pl) + (read_row (snd luma) (snd pl) (i / snd luma) + i mod snd luma))
  | S444, _, _ => 0%Z
  | _, _, _ => m b i
  end.
Definition as_read (src : image) (ps : list (slice * nat)) : image :=
  Image (im_format src) (im_width src) (im_height src) (im_color src) (Ok (as_read_planes (im_format src) ps (im_height src))).

(** Which sample is read for a component: the one at the prescribed place, but
    for U and V of the odd rows of a 4:4:4 planar source, which are looked up
    with the stride of Y. *)
Definition read_component (m : mem) (f : pixel_format) (ps : list (slice * nat)) (c : comp) (x y : nat) : option Z :=
  match sampling_of f, layout f c x y with
  | S444, Some (p, _, _) =>
      match nth_error ps 0, nth_error ps p with
      | Some luma, Some pl => Some (sample_at m f (Slice (s_buf (fst pl)) (s_off (fst pl) + read_row (snd luma) (snd pl) y) 0, 0) 0 x)
      | _, _ => None
      end
  | _, _ => component m f ps c x y
  end.

(** The value a destination component has to get, when the samples of the
    source are given by [comps] *)
Definition expected_from (L : lane_ops f32) (src : image) (comps : comp -> nat -> nat -> option Z) (dst : image) (c : comp) (x y : nat) : f32 :=
  let f := im_format src in
  let norm c x y := match comps c x y with Some z => fdiv (f32_of_Z z) (f32_of_Z (max_level f)) | None => fone end in
  let pixel x y : pixel :=
    match sampling_of f, im_color src with
    | SRGB, _ => ((norm CR x y, norm CG x y, norm CB x y), norm CA x y)
    | _, CYUV i => (decode_yuv L i (norm CY x y) (norm CU x y) (norm CV x y), fone)
    | _, CRGB _ _ => ((fone, fone, fone), fone)
    end in
  if same_image_kind src dst then norm c x y
  else target L (im_format dst) (im_color dst) (fun x y => recolored L (im_color src) (im_color dst) (pixel x y)) c x y.
