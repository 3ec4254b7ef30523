(** Specification of image geometry, written from the documentation of the
    pixel formats and independent of the model's tables and functions. *)

From Coq Require Import List ZArith Bool Arith.
From Verif Require Import Base Types ImageM.
Import ListNotations.

(** Number of planes of a format. *)
Definition n_planes (f : pixel_format) : nat :=
  match f with
  | I420 | I422 | I444 | I010 | I012 | I210 | I212 | I410 | I412 => 3
  | NV12 => 2
  | YUYV | RGBA | BGRA | RGB | BGR => 1
  end.

(** Bytes of one stored sample: 10 and 12 bit formats use 16 bit words. *)
Definition sample_bytes (f : pixel_format) : nat :=
  match f with
  | I010 | I012 | I210 | I212 | I410 | I412 => 2
  | _ => 1
  end.

(** Samples per row of plane [p] for an image of width [w]. *)
Definition plane_cols (f : pixel_format) (p w : nat) : nat :=
  match f with
  | I420 | I010 | I012 | I422 | I210 | I212 => if p =? 0 then w else w / 2
  | I444 | I410 | I412 => w
  | NV12 => w                       (* Y, and (U,V) pairs for every two pixels *)
  | YUYV => w * 2                   (* four bytes for every two pixels *)
  | RGBA | BGRA => w * 4
  | RGB | BGR => w * 3
  end.

(** Rows of plane [p] for an image of height [h]. *)
Definition plane_rows (f : pixel_format) (p h : nat) : nat :=
  match f with
  | I420 | I010 | I012 | NV12 => if p =? 0 then h else h / 2
  | _ => h
  end.

(** Bytes of a row of plane [p] without padding. *)
Definition row_bytes (f : pixel_format) (p w : nat) : nat := plane_cols f p w * sample_bytes f.

(** Planes [ps] (slice and stride) are sufficient for a [w] x [h] image. *)
Definition plane_fits (f : pixel_format) (w h p : nat) (pl : slice * nat) : Prop :=
  row_bytes f p w <= snd pl /\ snd pl * plane_rows f p h <= s_len (fst pl).

Definition planes_fit (f : pixel_format) (ps : list (slice * nat)) (w h : nat) : Prop :=
  n_planes f <= length ps /\
  forall p pl, p < n_planes f -> nth_error ps p = Some pl -> plane_fits f w h p pl.

(** What Rust guarantees about any slice and stride: they are usizes. *)
Definition usize (n : nat) : Prop := (Z.of_nat n <= usize_max)%Z.
Definition wf_planes (ps : list (slice * nat)) : Prop :=
  Forall (fun pl => usize (s_len (fst pl)) /\ usize (snd pl)) ps.

(** Color components. *)
Inductive comp := CY | CU | CV | CR | CG | CB | CA.

(** Memory layout: plane, row and column (counted in samples) that holds
    component [c] of pixel ([x], [y]). *)
Definition layout (f : pixel_format) (c : comp) (x y : nat) : option (nat * nat * nat) :=
  match f, c with
  | (I420 | I010 | I012), CY => Some (0, y, x)
  | (I420 | I010 | I012), CU => Some (1, y / 2, x / 2)
  | (I420 | I010 | I012), CV => Some (2, y / 2, x / 2)
  | (I422 | I210 | I212), CY => Some (0, y, x)
  | (I422 | I210 | I212), CU => Some (1, y, x / 2)
  | (I422 | I210 | I212), CV => Some (2, y, x / 2)
  | (I444 | I410 | I412), CY => Some (0, y, x)
  | (I444 | I410 | I412), CU => Some (1, y, x)
  | (I444 | I410 | I412), CV => Some (2, y, x)
  | NV12, CY => Some (0, y, x)
  | NV12, CU => Some (1, y / 2, 2 * (x / 2))
  | NV12, CV => Some (1, y / 2, 2 * (x / 2) + 1)
  | YUYV, CY => Some (0, y, 2 * x)
  | YUYV, CU => Some (0, y, 4 * (x / 2) + 1)
  | YUYV, CV => Some (0, y, 4 * (x / 2) + 3)
  | RGBA, CR => Some (0, y, 4 * x)
  | RGBA, CG => Some (0, y, 4 * x + 1)
  | RGBA, CB => Some (0, y, 4 * x + 2)
  | RGBA, CA => Some (0, y, 4 * x + 3)
  | BGRA, CB => Some (0, y, 4 * x)
  | BGRA, CG => Some (0, y, 4 * x + 1)
  | BGRA, CR => Some (0, y, 4 * x + 2)
  | BGRA, CA => Some (0, y, 4 * x + 3)
  | RGB, CR => Some (0, y, 3 * x)
  | RGB, CG => Some (0, y, 3 * x + 1)
  | RGB, CB => Some (0, y, 3 * x + 2)
  | BGR, CB => Some (0, y, 3 * x)
  | BGR, CG => Some (0, y, 3 * x + 1)
  | BGR, CR => Some (0, y, 3 * x + 2)
  | _, _ => None
  end.

(** Byte address (buffer, index) of the sample in row [r], column [c] of a
    plane with the given slice and stride. *)
Definition sample_addr (f : pixel_format) (pl : slice * nat) (r c : nat) : nat * nat :=
  (s_buf (fst pl), s_off (fst pl) + (r * snd pl + c * sample_bytes f)).

(** Value of that sample (little endian for 16 bit words). *)
Definition sample_at (m : mem) (f : pixel_format) (pl : slice * nat) (r c : nat) : Z :=
  let (b, i) := sample_addr f pl r c in
  if sample_bytes f =? 2 then (m b i + 256 * m b (S i))%Z else m b i.

(** Value of component [c] of pixel ([x], [y]) of an image stored in planes [ps]. *)
Definition component (m : mem) (f : pixel_format) (ps : list (slice * nat)) (c : comp) (x y : nat)
    : option Z :=
  match layout f c x y with
  | Some (p, r, col) =>
      match nth_error ps p with
      | Some pl => Some (sample_at m f pl r col)
      | None => None
      end
  | None => None
  end.

(** Two slices have no byte in common. *)
Definition disjoint_slices (a b : slice) : Prop :=
  forall i, ~ (s_buf a = s_buf b /\ s_off a <= i < s_off a + s_len a /\ s_off b <= i < s_off b + s_len b).

(** Exclusive (mutable) access: the slices of a destination are pairwise disjoint. *)
Definition planes_disjoint (ps : list (slice * nat)) : Prop :=
  forall i j a b, i <> j -> nth_error ps i = Some a -> nth_error ps j = Some b ->
    disjoint_slices (fst a) (fst b).

(** Consecutive slices of the given sizes, starting at [off] of buffer [b]. *)
Fixpoint consecutive (b off : nat) (sizes : list nat) : list slice :=
  match sizes with
  | [] => []
  | n :: rest => Slice b off n :: consecutive b (off + n) rest
  end.

Definition total (l : list nat) : nat := fold_right Nat.add 0 l.

(** Bytes occupied by each plane when the rows are [strides] bytes apart. *)
Definition plane_sizes (f : pixel_format) (strides : list nat) (h : nat) : list nat :=
  map (fun p => nth p strides 0 * plane_rows f p h) (seq 0 (n_planes f)).

(** Strides and total size of an image without padding. *)
Definition tight_strides (f : pixel_format) (w : nat) : list nat :=
  map (fun p => row_bytes f p w) (seq 0 (n_planes f)).
Definition tight_size (f : pixel_format) (w h : nat) : nat :=
  total (map (fun p => row_bytes f p w * plane_rows f p h) (seq 0 (n_planes f))).

(** A byte of a slice. *)
Definition in_slice (s : slice) (b i : nat) : Prop := b = s_buf s /\ s_off s <= i < s_off s + s_len s.

(** The slices cover the buffer exactly and are pairwise disjoint. *)
Definition tiles (buf : slice) (ps : list slice) : Prop :=
  (forall b i, in_slice buf b i <-> exists p s, nth_error ps p = Some s /\ in_slice s b i) /\
  (forall p q a c, p <> q -> nth_error ps p = Some a -> nth_error ps q = Some c -> disjoint_slices a c).
