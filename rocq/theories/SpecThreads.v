(** Specification of the horizontal bands an image is divided into, and of the
    memory left behind by stores in any order. *)

From Coq Require Import Arith Bool List ZArith.
From Verif Require Import Base Types SpecGeom SpecRun.
Import ListNotations.

(** The part of plane [p] that holds the image rows [r0 .. r0 + h) *)
Definition plane_band (f : pixel_format) (p r0 h : nat) (pl : slice * nat) : slice * nat :=
  (Slice (s_buf (fst pl)) (s_off (fst pl) + snd pl * plane_rows f p r0) (snd pl * plane_rows f p h), snd pl).

(** [band] are the planes of the image rows [r0 .. r0 + h) *)
Definition is_band (f : pixel_format) (ps : list (slice * nat)) (r0 h : nat) (band : list (slice * nat)) : Prop :=
  length band = n_planes f /\
  forall p pl, p < n_planes f -> nth_error ps p = Some pl -> nth_error band p = Some (plane_band f p r0 h pl).

(** First row of band [k] when the bands have the heights [hs] *)
Definition band_start (hs : list nat) (k : nat) : nat := total (firstn k hs).

(** The bands have even positive heights that differ by at most 2 and sum up to
    [h], and band [k] is the part of the planes that starts where the previous
    bands end. *)
Definition bands_partition (f : pixel_format) (ps : list (slice * nat)) (h : nat)
    (bands : list (nat * list (slice * nat))) : Prop :=
  let hs := map fst bands in
  total hs = h /\
  (forall hk, In hk hs -> 0 < hk /\ hk mod 2 = 0) /\
  (forall hj hk, In hj hs -> In hk hs -> hj <= hk + 2) /\
  (forall k hk band, nth_error bands k = Some (hk, band) -> is_band f ps (band_start hs k) hk band).

(** Same contents of all buffers *)
Definition same_memory (m m' : mem) : Prop := forall b i, m b i = m' b i.
