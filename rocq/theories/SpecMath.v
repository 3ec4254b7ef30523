(** Specification: what "an accurate power function" and "an accurate
    logarithm" in binary32 means.  [is_num x]: [x] is a finite float, [fval x]
    the real number it stands for, [approx x v e]: [x] is finite and within [e]
    of [v]. *)

From Coq Require Import ZArith Bool Reals.
From Coq Require Import Floats.SpecFloat.
From Flocq Require Import Core.
From Verif Require Import Types F32 FloatProofs SpecTransfer.
Local Open Scope R_scope.

(** Smallest normal number, 2^-126 *)
Definition tiny : R := bpow radix2 (-126).

(** Relative error of a power [x]^[y]: 3e-7, and more for large exponents and
    for results far away from 1, because [y ln x] is rounded *)
Definition pow_error (x y : R) : R := 3 / 10000000 + Rabs y / 10000000 + 125 / 1000000000 * Rabs (y * ln x).

(** [p x y] is close to [x]^[y] for non-negative [x]: within the relative error
    above if [x] is a normal number and the result neither under- nor overflows;
    next to nothing if it underflows; and at most the power of the smallest normal
    number if [x] is smaller than that (zero, of either sign, included) *)
Definition pow_accurate (p : f32 -> f32 -> f32) : Prop := forall x y,
  is_num x -> is_num y -> 0 <= fval x -> Rabs (fval y) <= 1000 ->
  (tiny <= fval x -> -85 <= fval y * ln (fval x) <= 86 ->
     approx (p x y) (Rpower (fval x) (fval y)) (pow_error (fval x) (fval y) * Rpower (fval x) (fval y))) /\
  (tiny <= fval x -> fval y * ln (fval x) <= -85 -> is_num (p x y) /\ 0 <= fval (p x y) <= bpow radix2 (-122)) /\
  (fval x < tiny -> 0 < fval y ->
     is_num (p x y) /\ 0 <= fval (p x y) <= 1001 / 1000 * Rpower tiny (fval y) + bpow radix2 (-122)).

(** Roots of negative numbers are NaN, or (NEON) next to nothing *)
Definition pow_negative (p : f32 -> f32 -> f32) : Prop := forall x y,
  is_num x -> fval x < 0 -> is_num y -> 1 / 3 <= fval y <= 1 / 2 ->
  p x y = S754_nan \/ (is_num (p x y) /\ 0 <= fval (p x y) <= 1 / 1000000).

(** [f x] is close to the natural logarithm of [x], for positive normal [x] *)
Definition ln_accurate (f : f32 -> f32) : Prop := forall x,
  is_num x -> tiny <= fval x -> approx (f x) (ln (fval x)) (9 / 100000000 + Rabs (ln (fval x)) / 16777216).

(** A back end whose comparisons and maximum are right for non-negative numbers
    and whose power and logarithm are accurate *)
Record accurate (L : lane_ops f32) : Prop := Accurate {
  acc_lt : forall x y, is_num x -> is_num y -> 0 <= fval x -> 0 <= fval y -> (l_lt L x y = true <-> fval x < fval y);
  acc_le : forall x y, is_num x -> is_num y -> 0 <= fval x -> 0 <= fval y -> (l_le L x y = true <-> fval x <= fval y);
  acc_max : forall x y, is_num x -> is_num y -> is_num (l_max L x y) /\ fval (l_max L x y) = Rmax (fval x) (fval y);
  acc_pow : pow_accurate (l_pow L);
  acc_ln : ln_accurate (l_ln L)
}.

(** * The transfer functions of the standards, by name *)

Definition encoded (t : color_transfer) (x : R) : R :=
  match t with
  | TLinear => x
  | TGamma22 => power x (10 / 22)
  | TGamma28 => power x (10 / 28)
  | TSRGB => srgb_encode x
  | TSDR => sdr_encode x
  | TBT2100PQ => pq_encode x
  | TBT2100HLG => hlg_encode x
  end.

Definition decoded (t : color_transfer) (x : R) : R :=
  match t with
  | TLinear => x
  | TGamma22 => power x (22 / 10)
  | TGamma28 => power x (28 / 10)
  | TSRGB => srgb_decode x
  | TSDR => sdr_decode x
  | TBT2100PQ => pq_decode x
  | TBT2100HLG => hlg_decode x
  end.
