(** What the conversions mean, in real numbers: the definitions of Recommendation
    ITU-R BT.601 / BT.709 and their limited (studio) and full range encodings. *)

From Coq Require Import ZArith Bool Reals List.
From Verif Require Import Base Types Simd SpecGeom SpecConvert.
Import ListNotations.
Local Open Scope R_scope.

(** Luma weights of red and blue; green has the rest *)
Record weights := Weights { w_r : R; w_b : R }.
Definition w_g (k : weights) : R := 1 - w_r k - w_b k.

Definition bt601 : weights := Weights (299 / 1000) (114 / 1000).
Definition bt709 : weights := Weights (2126 / 10000) (722 / 10000).
Definition bt2020 : weights := Weights (2627 / 10000) (593 / 10000).

Definition weights_of (s : color_space) : option weights :=
  match s with
  | SpBT601 => Some bt601
  | SpBT709 => Some bt709
  | SpBT2020 => Some bt2020
  | _ => None
  end.

(** Y, Cb, Cr of a color with components in 0 .. 1 *)
Definition luma (k : weights) (r g b : R) : R := w_r k * r + w_g k * g + w_b k * b.
Definition cb (k : weights) (r g b : R) : R := (b - luma k r g b) / (2 * (1 - w_b k)).
Definition cr (k : weights) (r g b : R) : R := (r - luma k r g b) / (2 * (1 - w_r k)).

(** The color with this Y, Cb, Cr *)
Definition red (k : weights) (y u v : R) : R := y + 2 * (1 - w_r k) * v.
Definition blue (k : weights) (y u v : R) : R := y + 2 * (1 - w_b k) * u.
Definition green (k : weights) (y u v : R) : R := (y - w_r k * red k y u v - w_b k * blue k y u v) / w_g k.

(** Levels: full range uses 0 .. M; limited range uses 16/255 M .. 235/255 M for
    luma and 16/255 M .. 240/255 M for chroma.  (For M = 255: 16 + 219 Y and
    128 + 224 C.) *)
Definition y_level (full : bool) (M : R) (y : R) : R := if full then M * y else M * ((16 + 219 * y) / 255).
Definition c_level (full : bool) (M : R) (c : R) : R := if full then M * (c + 1 / 2) else M * ((128 + 224 * c) / 255).

Definition level_y (full : bool) (M : R) (l : R) : R := if full then l / M else (255 * (l / M) - 16) / 219.
Definition level_c (full : bool) (M : R) (l : R) : R := if full then l / M - 1 / 2 else (255 * (l / M) - 128) / 224.

(** Nearest value in 0 .. hi *)
Definition clamp (hi x : R) : R := Rmax 0 (Rmin hi x).

(** Integer [z] stored for the level [t], up to [e]: truncated, or rounded *)
Definition truncated (e : R) (t : R) (z : Z) : Prop := t - 1 - e < IZR z <= t + e.
Definition rounded (e : R) (t : R) (z : Z) : Prop := Rabs (IZR z - t) <= 1 / 2 + e.

(** Integer stored by a back end for the level [t]: scalar and NEON code
    truncate, AVX2 and AVX-512 round *)
Definition stored_for (b : backend) (e t : R) (z : Z) : Prop :=
  match b with
  | Scalar | NEON => truncated e t z
  | AVX2 | AVX512 => rounded e t z
  end.

(** The pixels that share the chroma sample of pixel ([x], [y]) *)
Definition chroma_block (s : sampling) (x y : nat) : list (nat * nat) :=
  let x0 := (2 * (x / 2))%nat in
  let y0 := (2 * (y / 2))%nat in
  match s with
  | S420 => [(x0, y0); (x0, S y0); (S x0, y0); (S x0, S y0)]
  | S422 => [(x0, y); (S x0, y)]
  | _ => [(x, y)]
  end.

Definition mean (l : list R) : R := fold_right Rplus 0 l / INR (length l).

(** Mean of a quantity over the pixels that share a chroma sample *)
Definition chroma_mean (s : sampling) (q : nat -> nat -> R) (x y : nat) : R :=
  mean (map (fun p => q (fst p) (snd p)) (chroma_block s x y)).

(** Level stored for component [c] of an image whose pixels have the colors
    [r], [g], [b] (functions of the position, 0 .. 1) *)
Definition ideal_level (k : weights) (full : bool) (f : pixel_format) (r g b : nat -> nat -> R) (c : comp) (x y : nat) : R :=
  let M := IZR (max_level f) in
  let s := sampling_of f in
  let r' := chroma_mean s r x y in
  let g' := chroma_mean s g x y in
  let b' := chroma_mean s b x y in
  match c with
  | CU => c_level full M (cb k r' g' b')
  | CV => c_level full M (cr k r' g' b')
  | _ => y_level full M (luma k (r x y) (g x y) (b x y))
  end.

(** Stored level of a component, as a real number *)
Definition level (m : mem) (f : pixel_format) (ps : list (slice * nat)) (c : comp) (x y : nat) : R :=
  match component m f ps c x y with
  | Some z => IZR z
  | None => 0
  end.
