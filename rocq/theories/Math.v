(** The logarithm, exponential and power functions of the SIMD back ends
    (src/vector/avx2.rs:409-560, avx512.rs:433-564, neon.rs:311-476), lane by
    lane and bit exact: every intrinsic used there works on the lanes
    independently. *)

From Coq Require Import ZArith Bool.
From Coq Require Import Floats.SpecFloat.
From Verif Require Import F32 Simd.
Local Open Scope Z_scope.

(** * Bit patterns and integers *)

(** [_mm256_castps_si256], [vreinterpretq_s32_f32]: the bits of a float.  The
    payload of a NaN is not modelled (no result depends on it). *)
Definition f32_bits (x : f32) : Z :=
  match x with
  | S754_zero s => if s then 2 ^ 31 else 0
  | S754_infinity s => (if s then 2 ^ 31 else 0) + 255 * 2 ^ 23
  | S754_nan => 255 * 2 ^ 23 + 2 ^ 22
  | S754_finite s m e =>
      (if s then 2 ^ 31 else 0) +
      (if Z.pos m <? 2 ^ 23 then Z.pos m else (e + 150) * 2 ^ 23 + (Z.pos m - 2 ^ 23))
  end.

(** [_mm256_castsi256_ps], [vreinterpretq_f32_s32]: the float with the given
    bits (0 .. 2^32 - 1) *)
Definition f32_of_bits (b : Z) : f32 :=
  let s := 2 ^ 31 <=? b in
  let ex := (b mod 2 ^ 31) / 2 ^ 23 in
  let fr := b mod 2 ^ 23 in
  if ex =? 255 then (if fr =? 0 then S754_infinity s else S754_nan)
  else if ex =? 0 then (if fr =? 0 then S754_zero s else S754_finite s (Z.to_pos fr) (-149))
  else S754_finite s (Z.to_pos (fr + 2 ^ 23)) (ex - 150).

(** Wrapping 32 bit integers, as signed values *)
Definition i32_wrap (z : Z) : Z := (z + 2 ^ 31) mod 2 ^ 32 - 2 ^ 31.
(** ... and as bits *)
Definition u32_wrap (z : Z) : Z := z mod 2 ^ 32.

(** [_mm256_cvttps_epi32]: truncation; NaN and values outside of i32 give
    i32::MIN *)
Definition cvttps_epi32 (x : f32) : Z :=
  match x with
  | S754_zero _ => 0
  | S754_finite s m e => let z := f32_trunc s m e in if (- 2 ^ 31 <=? z) && (z <=? 2 ^ 31 - 1) then z else - 2 ^ 31
  | _ => - 2 ^ 31
  end.

(** [vcvtq_s32_f32]: saturating truncation, NaN gives 0 *)
Definition neon_cvt_s32 (x : f32) : Z :=
  match x with
  | S754_nan => 0
  | S754_zero _ => 0
  | S754_infinity s => if s then - 2 ^ 31 else 2 ^ 31 - 1
  | S754_finite s m e => clampZ (- 2 ^ 31) (2 ^ 31 - 1) (f32_trunc s m e)
  end.

(** * Further float instructions *)

(** [_mm256_floor_ps], [_mm512_roundscale_ps(_, TO_NEG_INF)] *)
Definition f32_floor (x : f32) : f32 :=
  match x with
  | S754_finite s m (Zneg d) =>
      let z := (if s then Z.neg m else Z.pos m) / 2 ^ Z.pos d in
      if z =? 0 then S754_zero s else f32_of_Z z
  | _ => x
  end.

(** [_mm256_fmadd_ps]: [x * y + z], rounded once *)
Definition f32_fma (x y z : f32) : f32 :=
  match x, y, z with
  | S754_finite sx mx ex, S754_finite sy my ey, S754_finite sz mz ez =>
      let p := (if xorb sx sy then Z.neg (mx * my) else Z.pos (mx * my)) in
      let q := (if sz then Z.neg mz else Z.pos mz) in
      let e := Z.min (ex + ey) ez in
      binary_normalize f32_prec f32_emax (p * 2 ^ (ex + ey - e) + q * 2 ^ (ez - e)) e false
  | S754_finite _ _ _, S754_finite _ _ _, S754_zero _ => f32_mul x y
  | S754_finite _ _ _, S754_finite _ _ _, _ => z
  | _, _, _ => f32_add (f32_mul x y) z
  end.

(** [vminq_f32]: NaN if an operand is NaN, and -0 < +0 *)
Definition neon_min (a b : f32) : f32 :=
  if f32_is_nan a || f32_is_nan b then S754_nan
  else if f32_lt a b then a else if f32_lt b a then b
  else match a with S754_zero false => b | _ => a end.

(** * Constants *)

(** avx2.rs:418-419 *)
Definition m_one : f32 := f32_lit 1 0.
Definition m_half : f32 := f32_lit 5 1.
Definition m_zero : f32 := S754_zero false.
(** [mask & constant]: the constant where the mask is set, else 0 *)
Definition masked (m : bool) (c : f32) : f32 := if m then c else m_zero.

(** avx2.rs:427-439, neon.rs:327-339 *)
Definition EXP_HI : f32 := f32_lit 8837626 5.
Definition EXP_LO : f32 := f32_lit (-8837626) 5.
Definition L2E : f32 := f32_lit 144269504088896340735992468100189214 35.
Definition EXP_C1 : f32 := f32_lit 6933594 7.
Definition EXP_C2 : f32 := f32_lit (-21219444) 11.
Definition EXP_P0 : f32 := f32_lit 19875691 11.
Definition EXP_P1 : f32 := f32_lit 13981999 10.
Definition EXP_P2 : f32 := f32_lit 8333452 9.
Definition EXP_P3 : f32 := f32_lit 41665796 9.
Definition EXP_P4 : f32 := f32_lit 16666666 8.
Definition EXP_P5 : f32 := f32_lit 5 1.

(** avx2.rs:480-492, neon.rs:389-401 *)
Definition INV_MANT_MASK : Z := 2 ^ 32 - 1 - 255 * 2 ^ 23.
Definition SQRT_HF : f32 := f32_lit 70710677 8.
Definition LOG_P0 : f32 := f32_lit 70376836 9.
Definition LOG_P1 : f32 := f32_lit (-1151461) 7.
Definition LOG_P2 : f32 := f32_lit 116769984 9.
Definition LOG_P3 : f32 := f32_lit (-12420141) 8.
Definition LOG_P4 : f32 := f32_lit 14249323 8.
Definition LOG_P5 : f32 := f32_lit (-16668057) 8.
Definition LOG_P6 : f32 := f32_lit 20000714 8.
Definition LOG_P7 : f32 := f32_lit (-24999994) 8.
Definition LOG_P8 : f32 := f32_lit 3333333 7.
Definition LOG_Q1 : f32 := f32_lit (-21219444) 11.
Definition LOG_Q2 : f32 := f32_lit 6933594 7.

(** * AVX2 and AVX-512 *)

(** avx2.rs:426-476, avx512.rs:445-492 [exp] (the same operations; in avx512.rs
    masks are bit masks, [_mm512_maskz_expand_ps] of a splatted 1 places it in
    the lanes of the mask) *)
Definition avx_exp (x : f32) : f32 :=
  let x := x86_min EXP_HI x in
  let x := x86_max EXP_LO x in
  let fx := f32_mul x L2E in
  let fx := f32_add fx m_half in
  let tmp := f32_floor fx in
  let mask := masked (f32_lt fx tmp) m_one in
  let fx := f32_sub tmp mask in
  let tmp := f32_mul fx EXP_C1 in
  let z := f32_mul fx EXP_C2 in
  let x := f32_sub x tmp in
  let x := f32_sub x z in
  let z := f32_mul x x in
  let y := EXP_P0 in
  let y := f32_fma y x EXP_P1 in
  let y := f32_fma y x EXP_P2 in
  let y := f32_fma y x EXP_P3 in
  let y := f32_fma y x EXP_P4 in
  let y := f32_fma y x EXP_P5 in
  let y := f32_fma y z x in
  let y := f32_add y m_one in
  let imm0 := cvttps_epi32 fx in
  let imm0 := i32_wrap (imm0 + 127) in
  let imm0 := u32_wrap (imm0 * 2 ^ 23) in
  let pow2n := f32_of_bits imm0 in
  f32_mul y pow2n.

(** avx2.rs:478-544, avx512.rs:494-559 [log]; the comparison _CMP_NGE_UQ is
    "not (x >= 0)", true for NaN *)
Definition avx_log (x : f32) : f32 :=
  let nan_mask := negb (f32_le m_zero x) in
  let x := x86_max m_zero x in
  let imm0 := f32_bits x / 2 ^ 23 in
  let x := f32_of_bits (Z.lor (f32_bits m_half) (Z.land INV_MANT_MASK (f32_bits x))) in
  let imm0 := i32_wrap (imm0 - 127) in
  let e := f32_of_Z imm0 in
  let e := f32_add e m_one in
  let mask := f32_lt x SQRT_HF in
  let tmp := masked mask x in
  let x := f32_sub x m_one in
  let e := f32_sub e (masked mask m_one) in
  let x := f32_add x tmp in
  let z := f32_mul x x in
  let y := LOG_P0 in
  let y := f32_fma y x LOG_P1 in
  let y := f32_fma y x LOG_P2 in
  let y := f32_fma y x LOG_P3 in
  let y := f32_fma y x LOG_P4 in
  let y := f32_fma y x LOG_P5 in
  let y := f32_fma y x LOG_P6 in
  let y := f32_fma y x LOG_P7 in
  let y := f32_fma y x LOG_P8 in
  let y := f32_mul y x in
  let y := f32_mul y z in
  let tmp := f32_mul e LOG_Q1 in
  let y := f32_add y tmp in
  let tmp := f32_mul z m_half in
  let y := f32_sub y tmp in
  let tmp := f32_mul e LOG_Q2 in
  let x := f32_add x y in
  let x := f32_add x tmp in
  if nan_mask then S754_nan else x.

(** avx2.rs:546-549, avx512.rs:561-564 [pow] *)
Definition avx_pow (x y : f32) : f32 := avx_exp (f32_mul y (avx_log x)).

(** * NEON *)

(** neon.rs:325-384 [exp]; [vmlaq_f32(a, b, c)] is [a + b * c], rounded twice *)
Definition neon_exp (x : f32) : f32 :=
  let x := neon_min x EXP_HI in
  let x := neon_max x EXP_LO in
  let fx := f32_add m_half (f32_mul x L2E) in
  let tmp := f32_of_Z (neon_cvt_s32 fx) in
  let mask := masked (f32_lt fx tmp) m_one in
  let fx := f32_sub tmp mask in
  let tmp := f32_mul fx EXP_C1 in
  let z := f32_mul fx EXP_C2 in
  let x := f32_sub x tmp in
  let x := f32_sub x z in
  let y := EXP_P0 in
  let y := f32_mul y x in
  let z := f32_mul x x in
  let y := f32_add y EXP_P1 in
  let y := f32_mul y x in
  let y := f32_add y EXP_P2 in
  let y := f32_mul y x in
  let y := f32_add y EXP_P3 in
  let y := f32_mul y x in
  let y := f32_add y EXP_P4 in
  let y := f32_mul y x in
  let y := f32_add y EXP_P5 in
  let y := f32_mul y z in
  let y := f32_add y x in
  let y := f32_add y m_one in
  let mm := neon_cvt_s32 fx in
  let mm := i32_wrap (mm + 127) in
  let mm := u32_wrap (mm * 2 ^ 23) in
  let pow2n := f32_of_bits mm in
  f32_mul y pow2n.

(** neon.rs:387-471 [log]; [vshrq_n_s32] is an arithmetic shift, so the sign of
    a negative number ends up in the exponent *)
Definition neon_log (x : f32) : f32 :=
  let valid := negb (f32_is_nan x) in
  let ux := f32_bits x in
  let emm0 := i32_wrap ux / 2 ^ 23 in
  let ux := Z.land ux INV_MANT_MASK in
  let ux := Z.lor ux (f32_bits m_half) in
  let x := f32_of_bits ux in
  let emm0 := i32_wrap (emm0 - 127) in
  let e := f32_of_Z emm0 in
  let e := f32_add e m_one in
  let mask := f32_lt x SQRT_HF in
  let tmp := masked mask x in
  let x := f32_sub x m_one in
  let e := f32_sub e (masked mask m_one) in
  let x := f32_add x tmp in
  let z := f32_mul x x in
  let y := f32_mul LOG_P0 x in
  let y := f32_add y LOG_P1 in
  let y := f32_mul y x in
  let y := f32_add y LOG_P2 in
  let y := f32_mul y x in
  let y := f32_add y LOG_P3 in
  let y := f32_mul y x in
  let y := f32_add y LOG_P4 in
  let y := f32_mul y x in
  let y := f32_add y LOG_P5 in
  let y := f32_mul y x in
  let y := f32_add y LOG_P6 in
  let y := f32_mul y x in
  let y := f32_add y LOG_P7 in
  let y := f32_mul y x in
  let y := f32_add y LOG_P8 in
  let y := f32_mul y x in
  let y := f32_mul y z in
  let tmp := f32_mul e LOG_Q1 in
  let y := f32_add y tmp in
  let tmp := f32_mul z m_half in
  let y := f32_sub y tmp in
  let tmp := f32_mul e LOG_Q2 in
  let x := f32_add x y in
  let x := f32_add x tmp in
  if valid then x else S754_nan.

(** neon.rs:473-476 [pow] *)
Definition neon_pow (x y : f32) : f32 := neon_exp (f32_mul y (neon_log x)).

(** * The back ends *)

(** vpow and vln of every back end: avx2.rs:54-64, avx512.rs:56-64,
    neon.rs:54-61.  The scalar back end uses [f32::powf] and [f32::ln]
    (mod.rs:184-192), which Rust does not specify: they stay parameters. *)
Definition libm_of (scalar_pow : f32 -> f32 -> f32) (scalar_ln : f32 -> f32) : libm :=
  Libm (fun b => match b with Scalar => scalar_pow | NEON => neon_pow | AVX2 | AVX512 => avx_pow end)
       (fun b => match b with Scalar => scalar_ln | NEON => neon_log | AVX2 | AVX512 => avx_log end).
