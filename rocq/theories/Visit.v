(** The 2x2 block walk over the destination (src/formats/visit_2x2.rs). *)

From Coq Require Import List ZArith Bool Arith.
From Verif Require Import Base Types F32 Vector Simd Formats.
Import ListNotations.

(** [(0..n).step_by(s)] *)
Definition step_by (n s : nat) : list nat := map (fun k => k * s) (seq 0 ((n + s - 1) / s)).

(** visit_2x2.rs:75-94 [visit_impl]: the positions visited, in order, each with
    the vector implementation used there; [scalar] is [f32] *)
Definition visit_positions (vi scalar : vimpl) (width height : nat) : list (vimpl * nat * nat) :=
  let non_vectored_pixels_per_row := width mod (vi_len vi * 2) in
  let vectored_pixels_per_row := width - non_vectored_pixels_per_row in
  flat_map (fun y =>
    map (fun x => (vi, x, y)) (step_by vectored_pixels_per_row (vi_len vi * 2)) ++
    map (fun x => (scalar, x + vectored_pixels_per_row, y)) (step_by non_vectored_pixels_per_row 2))
  (step_by height 2).

Definition visit_impl (vi scalar : vimpl) (width height : nat) (v : visitor) : out noerr :=
  run_all (map (fun '(i, x, y) => v i x y) (visit_positions vi scalar width height)).

(** visit_2x2.rs:9-72 [visit].  Which back end the feature checks choose is the
    parameter [b]: AVX512 (cargo feature "unstable") or AVX2 on x86, NEON on
    aarch64, otherwise the scalar fallback. *)
Definition visit (lm : libm) (b : backend) (width height : nat) (v : visitor) : out noerr :=
  if (width mod 2 =? 0) && (height mod 2 =? 0)
  then visit_impl (impl_of lm b) (scalar_impl lm) width height v
  else ([], Panic PAssert).
