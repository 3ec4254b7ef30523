(** The color code over exact arithmetic: the same definitions (Color.v),
    instantiated with the real numbers.  This is what src/color computes if
    rounding is ignored. *)

From Coq Require Import ZArith Bool Reals.
From Verif Require Import Types F32 Vector Color.
Local Open Scope R_scope.

(** A decimal literal *)
Definition R_lit (m k : Z) : R := IZR m / IZR (10 ^ k).

#[global] Instance R_ops : FOps R := {
  fadd := Rplus;
  fsub := Rminus;
  fmul := Rmult;
  fdiv := Rdiv;
  fneg := Ropp;
  fsqrt := sqrt;
  flit := R_lit
}.

(** [powf] (src/vector/mod.rs:184-187) of a number that is not negative, with a
    positive exponent; the NaN of a negative base has no counterpart here, it
    is 0 *)
Definition R_pow (x y : R) : R := if Rle_dec x 0 then 0 else Rpower x y.

Definition R_lane : lane_ops R :=
  LaneOps R (fun a b => if Rlt_dec a b then true else false) (fun a b => if Rle_dec a b then true else false)
    Rmax R_pow ln.

#[global] Instance R_vops : VOps R R bool := lane_vops R_lane.
