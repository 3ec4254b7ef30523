(** Specification of the [Vector] interface, independent of any instruction set:
    which lane of the result holds which lane of the input or which byte, and
    which number is stored for a float. *)

From Coq Require Import ZArith Bool List Lia Arith.
From Coq Require Import Floats.SpecFloat.
From Verif Require Import F32 Vector.
Import ListNotations.

(** Two vectors seen as one stream of [2 * n] elements *)
Definition stream (n : nat) (p : vec * vec) (k : nat) : f32 :=
  if k <? n then fst p k else snd p (k - n).

(** Value of byte [i] / of the little-endian word at byte [i] *)
Definition byte_at (l : list Z) (i : nat) : Z := nth i l 0%Z.
Definition word_at (l : list Z) (i : nat) : Z := (byte_at l i + 256 * byte_at l (S i))%Z.

(** Channel [c] of a pair of 3-channel / 4-channel blocks, as one stream *)
Definition ch3 (n : nat) (p : (vec * vec * vec) * (vec * vec * vec)) (c : nat) : nat -> f32 :=
  let '((a0, b0, c0), (a1, b1, c1)) := p in
  match c with
  | 0 => stream n (a0, a1)
  | 1 => stream n (b0, b1)
  | _ => stream n (c0, c1)
  end.
Definition ch4 (n : nat) (p : (vec * vec * vec * vec) * (vec * vec * vec * vec)) (c : nat) : nat -> f32 :=
  let '((a0, b0, c0, d0), (a1, b1, c1, d1)) := p in
  match c with
  | 0 => stream n (a0, a1)
  | 1 => stream n (b0, b1)
  | 2 => stream n (c0, c1)
  | _ => stream n (d0, d1)
  end.

(** Integer stored for a float: planar 8-bit, interleaved 8-bit, 16-bit *)
Record quant := Quant { q_u8 : f32 -> Z; q_u8i : f32 -> Z; q_u16 : f32 -> Z }.

(** The documented behaviour of the trait. *)
Record vector_spec (vi : vimpl) (q : quant) : Prop := {
  vs_len : 0 < vi_len vi;
  vs_zip : forall a b k, k < 2 * vi_len vi ->
    stream (vi_len vi) (vi_zip vi a b) k = (if Nat.even k then a else b) (k / 2);
  vs_unzip : forall a b k, k < vi_len vi ->
    fst (vi_unzip vi a b) k = stream (vi_len vi) (a, b) (2 * k) /\
    snd (vi_unzip vi a b) k = stream (vi_len vi) (a, b) (2 * k + 1);
  vs_load_u8 : forall l k, k < vi_len vi -> vi_load_u8 vi l k = f32_of_Z (byte_at l k);
  vs_load_u16 : forall l k, k < vi_len vi -> vi_load_u16 vi l k = f32_of_Z (word_at l (2 * k));
  vs_load_3x : forall l k c, k < 2 * vi_len vi -> c < 3 ->
    ch3 (vi_len vi) (vi_load_u8_3x vi l) c k = f32_of_Z (byte_at l (3 * k + c));
  vs_load_4x : forall l k c, k < 2 * vi_len vi -> c < 4 ->
    ch4 (vi_len vi) (vi_load_u8_4x vi l) c k = f32_of_Z (byte_at l (4 * k + c));
  vs_write_u8_len : forall v, length (vi_write_u8 vi v) = vi_len vi;
  vs_write_u8 : forall v k, k < vi_len vi -> byte_at (vi_write_u8 vi v) k = q_u8 q (v k);
  vs_write_u8_2x_len : forall a b, length (vi_write_u8_2x vi a b) = 2 * vi_len vi;
  vs_write_u8_2x : forall a b k, k < 2 * vi_len vi ->
    byte_at (vi_write_u8_2x vi a b) k = q_u8 q (stream (vi_len vi) (a, b) k);
  vs_write_u16_len : forall v, length (vi_write_u16 vi v) = 2 * vi_len vi;
  vs_write_u16 : forall v k, k < vi_len vi -> word_at (vi_write_u16 vi v) (2 * k) = q_u16 q (v k);
  vs_write_u16_2x_len : forall a b, length (vi_write_u16_2x vi a b) = 4 * vi_len vi;
  vs_write_u16_2x : forall a b k, k < 2 * vi_len vi ->
    word_at (vi_write_u16_2x vi a b) (2 * k) = q_u16 q (stream (vi_len vi) (a, b) k);
  vs_write_3x_len : forall p, length (vi_write_u8_3x vi p) = 6 * vi_len vi;
  vs_write_3x : forall p k c, k < 2 * vi_len vi -> c < 3 ->
    byte_at (vi_write_u8_3x vi p) (3 * k + c) = q_u8i q (ch3 (vi_len vi) p c k);
  vs_write_4x_len : forall p, length (vi_write_u8_4x vi p) = 8 * vi_len vi;
  vs_write_4x : forall p k c, k < 2 * vi_len vi -> c < 4 ->
    byte_at (vi_write_u8_4x vi p) (4 * k + c) = q_u8i q (ch4 (vi_len vi) p c k);
  (* stored bytes are bytes *)
  vs_q_u8 : forall x, (0 <= q_u8 q x < 256)%Z;
  vs_q_u8i : forall x, (0 <= q_u8i q x < 256)%Z;
  vs_q_u16 : forall x, (0 <= q_u16 q x < 65536)%Z;
  vs_bytes_u16 : forall v i, (0 <= byte_at (vi_write_u16 vi v) i < 256)%Z;
  vs_bytes_u16_2x : forall a b i, (0 <= byte_at (vi_write_u16_2x vi a b) i < 256)%Z
}.

(** * Numbers *)

(** The rational value of a finite float is [num / den]. *)
Definition num_den (s : bool) (m : positive) (e : Z) : Z * Z :=
  let m := if s then Z.neg m else Z.pos m in
  match e with
  | Zneg d => (m, 2 ^ Z.pos d)%Z
  | _ => (m * 2 ^ e, 1)%Z
  end.

(** Truncating, saturating conversion of [x] to [0 .. hi]; NaN gives 0. *)
Definition is_trunc_sat (hi : Z) (x : f32) (z : Z) : Prop :=
  match x with
  | S754_nan => z = 0%Z
  | S754_zero _ => z = 0%Z
  | S754_infinity s => z = (if s then 0 else hi)%Z
  | S754_finite s m e =>
      let '(n, d) := num_den s m e in
      if (n <=? 0)%Z then z = 0%Z                          (* below zero: 0 *)
      else if (hi * d <=? n)%Z then z = hi                 (* at or above the maximum *)
      else (z * d <= n < (z + 1) * d)%Z                    (* floor *)
  end.

(** Conversion of [x] to the nearest integer, ties to even, clamped to [0 .. hi]. *)
Definition is_round_sat (hi : Z) (x : f32) (z : Z) : Prop :=
  match x with
  | S754_nan => z = 0%Z
  | S754_zero _ => z = 0%Z
  | S754_infinity s => z = (if s then 0 else hi)%Z
  | S754_finite s m e =>
      let '(n, d) := num_den s m e in
      exists r, (2 * Z.abs (r * d - n) <= d)%Z /\            (* a nearest integer *)
                (2 * Z.abs (r * d - n) = d -> Z.even r = true)%Z /\
                z = Z.max 0 (Z.min hi r)
  end.

(** [|x| < b] *)
Definition f32_abs_below (b : Z) (x : f32) : Prop :=
  match x with
  | S754_zero _ => True
  | S754_finite s m e => let '(n, d) := num_den s m e in (Z.abs n < b * d)%Z
  | _ => False
  end.

(** [-1/2 < x < hi + 1/2], the nearest integer is one of [0 .. hi] *)
Definition f32_in_range (hi : Z) (x : f32) : Prop :=
  match x with
  | S754_zero _ => True
  | S754_finite s m e => let '(n, d) := num_den s m e in (- d < 2 * n < (2 * hi + 1) * d)%Z
  | _ => False
  end.
