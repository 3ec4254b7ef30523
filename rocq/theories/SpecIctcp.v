(** Specification of ICtCp: Recommendation ITU-R BT.2100-2, table 7. *)

From Coq Require Import Reals.
From Verif Require Import Types SpecGeom SpecConvert SpecReal SpecTransfer.
Local Open Scope R_scope.

(** Cone responses of a linear color with the primaries of BT.2020 *)
Definition bt2100_l (r g b : R) : R := (1688 * r + 2146 * g + 262 * b) / 4096.
Definition bt2100_m (r g b : R) : R := (683 * r + 2951 * g + 462 * b) / 4096.
Definition bt2100_s (r g b : R) : R := (99 * r + 309 * g + 3688 * b) / 4096.

(** I, Ct, Cp of encoded cone responses *)
Definition ictcp_pq (l m s : R) : R * R * R :=
  ((l + m) / 2, (6610 * l - 13613 * m + 7003 * s) / 4096, (17933 * l - 17390 * m - 543 * s) / 4096).
Definition ictcp_hlg (l m s : R) : R * R * R :=
  ((l + m) / 2, (3625 * l - 7465 * m + 3840 * s) / 4096, (9500 * l - 9212 * m - 288 * s) / 4096).

(** PQ's linear light is in cd/m2, up to 10000; HLG's is relative, up to 1 *)
Definition ictcp_peak (s : color_space) : R := match s with SpICtCpPQ => 10000 | _ => 1 end.

Definition ictcp_curve (s : color_space) : R -> R := match s with SpICtCpPQ => pq_encode | _ => hlg_encode end.
Definition ictcp_matrix (s : color_space) : R -> R -> R -> R * R * R :=
  match s with SpICtCpPQ => ictcp_pq | _ => ictcp_hlg end.

(** Each component of two triples differs by at most [e] *)
Definition within3 (e : R) (a b : R * R * R) : Prop :=
  let '(x, y, z) := a in let '(x', y', z') := b in
  Rabs (x - x') <= e /\ Rabs (y - y') <= e /\ Rabs (z - z') <= e.

(** Level stored for component [c] of an image with the cone responses [l], [m],
    [s] (functions of the position); sub-sampled chroma is the mean of the
    chroma of the pixels that share it *)
Definition ictcp_level (sp : color_space) (full : bool) (f : pixel_format) (l m s : nat -> nat -> R) (c : comp) (x y : nat) : R :=
  let M := IZR (max_level f) in
  let i x y := ictcp_matrix sp (ictcp_curve sp (l x y)) (ictcp_curve sp (m x y)) (ictcp_curve sp (s x y)) in
  match c with
  | CU => c_level full M (chroma_mean (sampling_of f) (fun x y => snd3 (i x y)) x y)
  | CV => c_level full M (chroma_mean (sampling_of f) (fun x y => thd3 (i x y)) x y)
  | _ => y_level full M (fst3 (i x y))
  end.
