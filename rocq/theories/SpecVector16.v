(** Specification of the 16-bit interleaved loads and stores: component [c] of
    pixel [k] is the little-endian word number [n * k + c]. *)

From Coq Require Import ZArith Bool List Lia Arith.
From Verif Require Import F32 Vector Simd16 SpecVector.
Import ListNotations.

(** [len] is the number of lanes of a vector, [q] the number stored for a float *)
Record vector16_spec (len : nat) (vi : vimpl16) (q : f32 -> Z) : Prop := {
  v16s_load_3x : forall l k c, k < 2 * len -> c < 3 ->
    ch3 len (v16_load_3x vi l) c k = f32_of_Z (word_at l (2 * (3 * k + c)));
  v16s_load_4x : forall l k c, k < 2 * len -> c < 4 ->
    ch4 len (v16_load_4x vi l) c k = f32_of_Z (word_at l (2 * (4 * k + c)));
  v16s_write_3x_len : forall p, length (v16_write_3x vi p) = 12 * len;
  v16s_write_3x : forall p k c, k < 2 * len -> c < 3 ->
    word_at (v16_write_3x vi p) (2 * (3 * k + c)) = q (ch3 len p c k);
  v16s_write_4x_len : forall p, length (v16_write_4x vi p) = 16 * len;
  v16s_write_4x : forall p k c, k < 2 * len -> c < 4 ->
    word_at (v16_write_4x vi p) (2 * (4 * k + c)) = q (ch4 len p c k)
}.
