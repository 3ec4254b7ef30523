(** Specification of RGB color spaces by the chromaticities of their primaries
    and of their white, as the standards define them. *)

From Coq Require Import Reals.
From Verif Require Import Types.
Local Open Scope R_scope.

(** CIE 1931 x, y *)
Definition chroma := (R * R)%type.

(** The color with a chromaticity and luminance [l]: X, Y or Z *)
Definition xyz_of (c : chroma) (l : R) (j : nat) : R :=
  let (x, y) := c in
  match j with 0%nat => l * x / y | 1%nat => l | _ => l * (1 - x - y) / y end.

(** [m] i j: share of channel i (red, green, blue) in X, Y, Z *)
Definition xyz_matrix (red green blue white : chroma) (m : nat -> nat -> R) : Prop :=
  (exists lr lg lb, forall j, (j < 3)%nat -> m 0%nat j = xyz_of red lr j /\ m 1%nat j = xyz_of green lg j /\ m 2%nat j = xyz_of blue lb j) /\
  (forall j, (j < 3)%nat -> m 0%nat j + m 1%nat j + m 2%nat j = xyz_of white 1 j).

(** [n] is the inverse of [m] *)
Definition inverse_matrix (m n : nat -> nat -> R) : Prop :=
  forall i j, (i < 3)%nat -> (j < 3)%nat ->
    m i 0%nat * n 0%nat j + m i 1%nat * n 1%nat j + m i 2%nat * n 2%nat j = if Nat.eqb i j then 1 else 0.

(** Illuminant D65, the white of all three standards *)
Definition d65 : chroma := (3127 / 10000, 329 / 1000).

(** ITU-R BT.709-6 item 1.3, BT.2020-2 table 3, SMPTE ST 240:1999 clause 4.1 *)
Definition primaries_of (p : color_primaries) : chroma * chroma * chroma :=
  match p with
  | PrBT709 => ((64 / 100, 33 / 100), (30 / 100, 60 / 100), (15 / 100, 6 / 100))
  | PrBT2020 => ((708 / 1000, 292 / 1000), (170 / 1000, 797 / 1000), (131 / 1000, 46 / 1000))
  | PrST240M => ((630 / 1000, 340 / 1000), (310 / 1000, 595 / 1000), (155 / 1000, 70 / 1000))
  end.

Definition standard_matrix (p : color_primaries) (m : nat -> nat -> R) : Prop :=
  let '(r, g, b) := primaries_of p in xyz_matrix r g b d65 m.
