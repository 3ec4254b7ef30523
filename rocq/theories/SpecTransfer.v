(** Specification: the transfer functions as formulas over the reals.
    Encoding goes from linear light to the stored (non-linear) value. *)

From Coq Require Import Reals.
Local Open Scope R_scope.

(** [x] to the power [y]; 0 for [x <= 0] *)
Definition power (x y : R) : R := if Rle_dec x 0 then 0 else Rpower x y.

(** IEC 61966-2-1 *)
Definition srgb_encode (x : R) : R :=
  if Rle_dec x (31308 / 10000000) then 1292 / 100 * x else 1055 / 1000 * power x (5 / 12) - 55 / 1000.
Definition srgb_decode (x : R) : R :=
  if Rle_dec x (4045 / 100000) then x / (1292 / 100) else power ((x + 55 / 1000) / (1055 / 1000)) (12 / 5).

(** BT.709, BT.2020; the code has 0.0993 instead of 0.099 in one place *)
Definition sdr_encode (x : R) : R :=
  if Rlt_dec x (1805397 / 100000000) then 9 / 2 * x else 1099 / 1000 * power x (9 / 20) - 99 / 1000.
Definition sdr_decode (x : R) : R :=
  if Rlt_dec x (81490956 / 1000000000) then x / (9 / 2) else power ((x + 993 / 10000) / (1099 / 1000)) (20 / 9).

(** SMPTE ST 2084 with m1 = 2610/16384, m2 = 2523/32, c1 = 107/128,
    c3 = 299/16 to eight digits; c2 is 2413/128 = 18.8515625 in the standard *)
Definition m1 : R := 15930176 / 100000000.
Definition m2 : R := 7884375 / 100000.
Definition c1 : R := 8359375 / 10000000.
Definition c2 : R := 18851563 / 1000000.
Definition c3 : R := 186875 / 10000.
Definition pq_encode (x : R) : R :=
  let y := power (x / 10000) m1 in power ((c1 + c2 * y) / (1 + c3 * y)) m2.
Definition pq_decode (x : R) : R :=
  let e := power x (1 / m2) in 10000 * power (Rmax (e - c1) 0 / (c2 - c3 * e)) (1 / m1).

(** BT.2100 HLG; [e'] is e to 21 digits *)
Definition ha : R := 17883277 / 100000000.
Definition hb : R := 28466892 / 100000000.
Definition hc : R := 5599107 / 10000000.
Definition e' : R := 271828182845904523536 / 100000000000000000000.
Definition hlg_encode (x : R) : R :=
  if Rle_dec x (1 / 12) then sqrt (3 * x) else ha * ln (12 * x - hb) + hc.
Definition hlg_decode (x : R) : R :=
  if Rle_dec x (1 / 2) then x * x / 3 else (power e' ((x - hc) / ha) + hb) / 12.
