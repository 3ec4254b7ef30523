(** binary32 arithmetic, bit exact, and the scalar operations the color code is
    generic over.

    Rust's [f32] is IEEE-754 binary32 with round to nearest even.  The model
    uses Coq.Floats.SpecFloat with 24 bits of precision and emax = 128: these
    are executable functions, no axiom is involved.  NaN payloads are not
    modelled (they can never reach an integer store). *)

From Coq Require Import ZArith Bool List Lia.
From Coq Require Import Floats.SpecFloat.
Import ListNotations.
Local Open Scope Z_scope.

Definition f32 := spec_float.

Definition f32_prec : Z := 24.
Definition f32_emax : Z := 128.

(** IEEE operations: [+ - * / sqrt], as used by src/vector/mod.rs:139-154,179-182 and by
    the SIMD instructions of the same name *)
Definition f32_add : f32 -> f32 -> f32 := SFadd f32_prec f32_emax.
Definition f32_sub : f32 -> f32 -> f32 := SFsub f32_prec f32_emax.
Definition f32_mul : f32 -> f32 -> f32 := SFmul f32_prec f32_emax.
Definition f32_div : f32 -> f32 -> f32 := SFdiv f32_prec f32_emax.
Definition f32_sqrt : f32 -> f32 := SFsqrt f32_prec f32_emax.
Definition f32_neg : f32 -> f32 := SFopp.
Definition f32_abs : f32 -> f32 := SFabs.

(** [a < b], [a <= b]: false on NaN *)
Definition f32_lt (a b : f32) : bool := SFltb a b.
Definition f32_le (a b : f32) : bool := SFleb a b.
Definition f32_is_nan (a : f32) : bool := match a with S754_nan => true | _ => false end.

(** [f32::max] (src/vector/mod.rs:156-159): the other operand if one is NaN *)
Definition f32_max (a b : f32) : f32 :=
  if f32_is_nan a then b else if f32_is_nan b then a else if f32_lt a b then b else a.

(** Conversion of an integer: round to nearest even (exact below 2^24) *)
Definition f32_of_Z (z : Z) : f32 := binary_normalize f32_prec f32_emax z 0 false.

(** A decimal literal [m * 10^-k]: the correctly rounded quotient of the two
    exact integers *)
Definition f32_lit (m k : Z) : f32 :=
  match m with
  | Z0 => S754_zero false
  | Zpos p => SFdiv f32_prec f32_emax (S754_finite false p 0) (S754_finite false (Z.to_pos (10 ^ k)) 0)
  | Zneg p => SFdiv f32_prec f32_emax (S754_finite true p 0) (S754_finite false (Z.to_pos (10 ^ k)) 0)
  end.

(** Truncation toward zero of a finite number *)
Definition f32_trunc (s : bool) (m : positive) (e : Z) : Z :=
  let a := match e with
           | Zneg d => Z.pos m / 2 ^ Z.pos d
           | _ => Z.pos m * 2 ^ e
           end
  in if s then - a else a.

(** Round to nearest even of a finite number *)
Definition f32_rne (s : bool) (m : positive) (e : Z) : Z :=
  let a := match e with
           | Zneg d =>
               let q := Z.pos m / 2 ^ Z.pos d in
               let r := Z.pos m mod 2 ^ Z.pos d in
               match 2 * r ?= 2 ^ Z.pos d with
               | Lt => q
               | Gt => q + 1
               | Eq => if Z.even q then q else q + 1
               end
           | _ => Z.pos m * 2 ^ e
           end
  in if s then - a else a.

Definition clampZ (lo hi z : Z) : Z := Z.max lo (Z.min hi z).

(** Rust [f as u8] / [f as u16] with maximum [hi]: saturating truncation, NaN
    becomes 0 (src/vector/mod.rs:239-276) *)
Definition f32_as (hi : Z) (x : f32) : Z :=
  match x with
  | S754_nan => 0
  | S754_zero _ => 0
  | S754_infinity s => if s then 0 else hi
  | S754_finite s m e => clampZ 0 hi (f32_trunc s m e)
  end.

(** [_mm256_cvtps_epi32] / [_mm512_cvtps_epi32] per lane: round to nearest
    even; NaN and values outside of i32 give i32::MIN *)
Definition cvtps_epi32 (x : f32) : Z :=
  match x with
  | S754_zero _ => 0
  | S754_finite s m e =>
      let z := f32_rne s m e in
      if (- 2 ^ 31 <=? z) && (z <=? 2 ^ 31 - 1) then z else - 2 ^ 31
  | _ => - 2 ^ 31
  end.

(** * Scalar operations *)

(** The arithmetic the color code is generic over.  Instances: [f32] here and
    [R] (exact arithmetic) in ColorR.v. *)
Class FOps (F : Type) := {
  fadd : F -> F -> F;
  fsub : F -> F -> F;
  fmul : F -> F -> F;
  fdiv : F -> F -> F;
  fneg : F -> F;
  fsqrt : F -> F;
  flit : Z -> Z -> F       (* decimal literal: digits, number of decimals *)
}.

#[global] Instance f32_ops : FOps f32 := {
  fadd := f32_add;
  fsub := f32_sub;
  fmul := f32_mul;
  fdiv := f32_div;
  fneg := f32_neg;
  fsqrt := f32_sqrt;
  flit := f32_lit
}.

(** Operations whose result depends on the back end. *)
Record lane_ops (F : Type) := LaneOps {
  l_lt : F -> F -> bool;
  l_le : F -> F -> bool;
  l_max : F -> F -> F;
  l_pow : F -> F -> F;
  l_ln : F -> F
}.
Arguments l_lt {F} _.
Arguments l_le {F} _.
Arguments l_max {F} _.
Arguments l_pow {F} _.
Arguments l_ln {F} _.
