(** SIMD instructions used by src/vector/{avx2,avx512,neon}.rs, as functions on
    lists of elements (lowest element first), and the three SIMD back ends and
    the scalar back end of the [Vector] trait built from them.

    The semantics of the instructions is part of the trusted base; it follows
    the vendors' manuals.  Registers are lists; the element width is implied by
    the instruction, and a register is regrouped ([chunks], [concat]) when the
    code reinterprets it at another width. *)

From Coq Require Import ZArith Bool List Lia.
From Coq Require Import Floats.SpecFloat.
From Verif Require Import F32 Vector.
Import ListNotations.

(** * Memory operands *)

(** Byte [i] behind a pointer; [ptr_add] is [ptr.add(n)]. *)
Definition byte (l : list Z) (i : nat) : Z := nth i l 0%Z.
Definition ptr_add (n : nat) (l : list Z) : list Z := skipn n l.

Definition u16_of (lo hi : Z) : Z := (lo + 256 * hi)%Z.

(** Little endian bytes of a list of u16 *)
Definition u16_bytes (l : list Z) : list Z := flat_map (fun z => [(z mod 256)%Z; (z / 256)%Z]) l.

(** A register as a list and back *)
Definition regn (n : nat) (v : vec) : list f32 := map v (seq 0 n).
Definition vec_of (l : list f32) : vec := fun k => nth k l S754_nan.

(** [k] consecutive groups of [n] elements *)
Fixpoint chunks {A} (n k : nat) (l : list A) : list (list A) :=
  match k with
  | O => []
  | S k' => firstn n l :: chunks n k' (skipn n l)
  end.

Definition interleave {A} (a b : list A) : list A :=
  flat_map (fun p => [fst p; snd p]) (combine a b).

(** * x86 instructions; [L] is the number of 128-bit lanes, [w] the number of
      elements in one of them *)

(** unpacklo / unpackhi (ps, epi32, epi16): interleave the low / high halves of each lane *)
Definition unpacklo {A} (L w : nat) (a b : list A) : list A :=
  flat_map (fun p => interleave (firstn (w / 2) (fst p)) (firstn (w / 2) (snd p)))
           (combine (chunks w L a) (chunks w L b)).
Definition unpackhi {A} (L w : nat) (a b : list A) : list A :=
  flat_map (fun p => interleave (skipn (w / 2) (fst p)) (skipn (w / 2) (snd p)))
           (combine (chunks w L a) (chunks w L b)).

(** packus: narrow with saturation, lane by lane *)
Definition packus {A B} (sat : A -> B) (L w : nat) (a b : list A) : list B :=
  flat_map (fun p => map sat (fst p) ++ map sat (snd p))
           (combine (chunks w L a) (chunks w L b)).

(** signed 32-bit to unsigned 16-bit saturation *)
Definition sat_u16 (z : Z) : Z := clampZ 0 65535 z.
(** [packus_epi16] reads its 16-bit input as signed *)
Definition sat_u8 (z : Z) : Z := clampZ 0 255 (if (z <? 32768)%Z then z else (z - 65536)%Z).

(** [_mm256_permute2f128_ps] (zeroing bits of the selector are not used) *)
Definition permute2f128 {A} (imm : nat) (a b : list A) : list A :=
  let lanes := chunks 4 2 a ++ chunks 4 2 b in
  nth (imm mod 4) lanes [] ++ nth ((imm / 16) mod 4) lanes [].

(** [_mm256_shuffle_ps] *)
Definition shuffle_ps {A} (d : A) (imm : nat) (a b : list A) : list A :=
  flat_map (fun p => [nth (imm mod 4) (fst p) d; nth ((imm / 4) mod 4) (fst p) d;
                      nth ((imm / 16) mod 4) (snd p) d; nth ((imm / 64) mod 4) (snd p) d])
           (combine (chunks 4 2 a) (chunks 4 2 b)).

(** [_mm256_permute4x64_epi64] on a register seen as 8 dwords *)
Definition permute4x64 {A} (imm : nat) (a : list A) : list A :=
  let q := chunks 2 4 a in
  nth (imm mod 4) q [] ++ nth ((imm / 4) mod 4) q [] ++
  nth ((imm / 16) mod 4) q [] ++ nth ((imm / 64) mod 4) q [].

(** [permutevar8x32] / [permutexvar]; with [a ++ b] as table: [permutex2var] *)
Definition permutevar {A} (d : A) (l : list A) (idx : list nat) : list A :=
  map (fun i => nth i l d) idx.

(** [shuffle_epi8]: per 128-bit lane; a negative index gives zero *)
Definition shuffle_epi8 (L : nat) (l : list Z) (idx : list Z) : list Z :=
  flat_map (fun p => map (fun i => if (i <? 0)%Z then 0%Z else nth (Z.to_nat i mod 16) (fst p) 0%Z) (snd p))
           (combine (chunks 16 L l) (chunks 16 L idx)).

(** dword [k] of a register of bytes *)
Definition dword (k : nat) (n : nat) (l : list Z) : list Z := nth k (chunks 4 n l) [].

(** x86 [max_ps(a, b)]: the second operand unless a > b *)
Definition x86_max (a b : f32) : f32 := if f32_lt b a then a else b.
(** x86 [min_ps(a, b)]: the second operand unless a < b *)
Definition x86_min (a b : f32) : f32 := if f32_lt a b then a else b.

(** [vmaxq_f32]: NaN if an operand is NaN, and +0 > -0 *)
Definition neon_max (a b : f32) : f32 :=
  if f32_is_nan a || f32_is_nan b then S754_nan
  else if f32_lt a b then b else if f32_lt b a then a
  else match a with S754_zero true => b | _ => a end.

(** Transcendental functions of each back end.  They are parameters: the
    theorems hold for any.  (Rust does not specify [powf] and [ln] of f32.) *)
Inductive backend := Scalar | AVX2 | AVX512 | NEON.

Record libm := Libm {
  lm_pow : backend -> f32 -> f32 -> f32;
  lm_ln : backend -> f32 -> f32
}.

(** * src/vector/mod.rs:130-287: [impl Vector for f32] *)

(** mod.rs:156-192.  [f32::max] of zeros of different sign is unspecified in
    Rust; the model returns the first. *)
Definition scalar_lane (lm : libm) : lane_ops f32 :=
  LaneOps f32 f32_lt f32_le f32_max (lm_pow lm Scalar) (lm_ln lm Scalar).

Definition cst (f : f32) : vec := fun _ => f.

(** mod.rs:239,243,258,270 [as u8]; 247,252 [as u16] *)
Definition as_u8 : f32 -> Z := f32_as 255.
Definition as_u16 : f32 -> Z := f32_as 65535.

(** mod.rs:131-277 *)
Definition scalar_impl (lm : libm) : vimpl := {|
  vi_len := 1;
  vi_lane := scalar_lane lm;
  vi_zip a b := (a, b);
  vi_unzip a b := (a, b);
  vi_load_u8 l := cst (f32_of_Z (byte l 0));
  vi_load_u16 l := cst (f32_of_Z (u16_of (byte l 0) (byte l 1)));
  vi_load_u8_3x l :=
    ((cst (f32_of_Z (byte l 0)), cst (f32_of_Z (byte l 1)), cst (f32_of_Z (byte l 2))),
     (cst (f32_of_Z (byte l 3)), cst (f32_of_Z (byte l 4)), cst (f32_of_Z (byte l 5))));
  vi_load_u8_4x l :=
    ((cst (f32_of_Z (byte l 0)), cst (f32_of_Z (byte l 1)), cst (f32_of_Z (byte l 2)), cst (f32_of_Z (byte l 3))),
     (cst (f32_of_Z (byte l 4)), cst (f32_of_Z (byte l 5)), cst (f32_of_Z (byte l 6)), cst (f32_of_Z (byte l 7))));
  vi_write_u8 v := [as_u8 (v 0)];
  vi_write_u8_2x a b := [as_u8 (a 0); as_u8 (b 0)];
  vi_write_u16 v := u16_bytes [as_u16 (v 0)];
  vi_write_u16_2x a b := u16_bytes [as_u16 (a 0); as_u16 (b 0)];
  vi_write_u8_3x p :=
    let '((a0, b0, c0), (a1, b1, c1)) := p in
    map (fun v => as_u8 (v 0)) [a0; b0; c0; a1; b1; c1];
  vi_write_u8_4x p :=
    let '((a0, b0, c0, d0), (a1, b1, c1, d1)) := p in
    map (fun v => as_u8 (v 0)) [a0; b0; c0; d0; a1; b1; c1; d1]
|}.

(** * src/vector/avx2.rs *)

(** avx2.rs:35-64 *)
Definition avx2_lane (lm : libm) : lane_ops f32 :=
  LaneOps f32 f32_lt f32_le x86_max (lm_pow lm AVX2) (lm_ln lm AVX2).

(** avx2.rs:66-75 [zip]: selectors 0b10_00_00 = 32, 0b11_00_01 = 49 *)
Definition avx2_zip (a b : vec) : vec * vec :=
  let lo := unpacklo 2 4 (regn 8 a) (regn 8 b) in
  let hi := unpackhi 2 4 (regn 8 a) (regn 8 b) in
  (vec_of (permute2f128 32 lo hi), vec_of (permute2f128 49 lo hi)).

(** avx2.rs:77-86 [unzip]: 0b10_00_10_00 = 136, 0b11_01_11_01 = 221, 0b11_01_10_00 = 216 *)
Definition avx2_unzip (a b : vec) : vec * vec :=
  let lo := shuffle_ps S754_nan 136 (regn 8 a) (regn 8 b) in
  let lo := permute4x64 216 lo in
  let hi := shuffle_ps S754_nan 221 (regn 8 a) (regn 8 b) in
  let hi := permute4x64 216 hi in
  (vec_of lo, vec_of hi).

(** avx2.rs:88-93 [load_u8]: the low 8 bytes, zero extended, converted *)
Definition avx2_load_u8 (l : list Z) : vec := fun k => f32_of_Z (byte l k).
(** avx2.rs:95-100 [load_u16] *)
Definition avx2_load_u16 (l : list Z) : vec := fun k => f32_of_Z (u16_of (byte l (2 * k)) (byte l (2 * k + 1))).

(** avx2.rs:236-250 [deinterleave_3x] *)
Definition avx2_deinterleave_3x (m1 m2 m3 : vec) : vec * vec * vec :=
  let v := regn 8 m1 ++ regn 8 m2 ++ regn 8 m3 in
  (vec_of (permutevar S754_nan v [0; 3; 6; 9; 12; 15; 18; 21]),
   vec_of (permutevar S754_nan v [1; 4; 7; 10; 13; 16; 19; 22]),
   vec_of (permutevar S754_nan v [2; 5; 8; 11; 14; 17; 20; 23])).

(** avx2.rs:252-281 [deinterleave_4x]; [_mm256_set_epi32] lists the highest element first *)
Definition avx2_deinterleave_4x (m1 m2 m3 m4 : vec) : vec * vec * vec * vec :=
  let m1 := regn 8 m1 in let m2 := regn 8 m2 in let m3 := regn 8 m3 in let m4 := regn 8 m4 in
  let v1 := unpacklo 2 4 m1 m2 in
  let v2 := unpacklo 2 4 m3 m4 in
  let v3 := unpackhi 2 4 m1 m2 in
  let v4 := unpackhi 2 4 m3 m4 in
  let a := unpacklo 2 4 v1 v2 in
  let b := unpackhi 2 4 v1 v2 in
  let c := unpacklo 2 4 v3 v4 in
  let d := unpackhi 2 4 v3 v4 in
  let idx := rev [7; 3; 5; 1; 6; 2; 4; 0] in
  (vec_of (permutevar S754_nan a idx), vec_of (permutevar S754_nan b idx),
   vec_of (permutevar S754_nan c idx), vec_of (permutevar S754_nan d idx)).

(** avx2.rs:102-117 [load_u8_3x_interleaved_2x] *)
Definition avx2_load_3x_inner (p : list Z) : vec * vec * vec :=
  avx2_deinterleave_3x (avx2_load_u8 p) (avx2_load_u8 (ptr_add 8 p)) (avx2_load_u8 (ptr_add 16 p)).
Definition avx2_load_u8_3x (p : list Z) : (vec * vec * vec) * (vec * vec * vec) :=
  (avx2_load_3x_inner p, avx2_load_3x_inner (ptr_add 24 p)).

(** avx2.rs:136-152 [load_u8_4x_interleaved_2x] *)
Definition avx2_load_4x_inner (p : list Z) : vec * vec * vec * vec :=
  avx2_deinterleave_4x (avx2_load_u8 p) (avx2_load_u8 (ptr_add 8 p))
                       (avx2_load_u8 (ptr_add 16 p)) (avx2_load_u8 (ptr_add 24 p)).
Definition avx2_load_u8_4x (p : list Z) : (vec * vec * vec * vec) * (vec * vec * vec * vec) :=
  (avx2_load_4x_inner p, avx2_load_4x_inner (ptr_add 32 p)).

(** avx2.rs:283-294 [f32x8x2_to_u8x16] *)
Definition avx2_f32x8x2_to_u8x16 (l h : vec) : list Z :=
  let l := map cvtps_epi32 (regn 8 l) in
  let h := map cvtps_epi32 (regn 8 h) in
  let v := packus sat_u16 2 4 l h in
  let v := packus sat_u8 2 8 v v in
  let v := concat (permutevar [] (chunks 4 8 v) [0; 4; 3; 5; 0; 4; 3; 5]) in
  firstn 16 v.

(** avx2.rs:296-305 [f32x8x2_to_u16x16] *)
Definition avx2_f32x8x2_to_u16x16 (l h : vec) : list Z :=
  let l := map cvtps_epi32 (regn 8 l) in
  let h := map cvtps_epi32 (regn 8 h) in
  let v := packus sat_u16 2 4 l h in
  concat (permutevar [] (chunks 2 8 v) [0; 1; 4; 5; 2; 3; 6; 7]).

(** avx2.rs:307-317 [f32x8_to_u8x8] *)
Definition avx2_f32x8_to_u8x8 (v : vec) : list Z :=
  let v := map cvtps_epi32 (regn 8 v) in
  let v := packus sat_u16 2 4 v v in
  let v := packus sat_u8 2 8 v v in
  dword 0 8 v ++ dword 4 8 v.

(** avx2.rs:319-330 [f32x8_to_u16x8]: quadwords 0 and 2, each 4 u16 *)
Definition avx2_f32x8_to_u16x8 (v : vec) : list Z :=
  let v := map cvtps_epi32 (regn 8 v) in
  let v := packus sat_u16 2 4 v v in
  nth 0 (chunks 4 4 v) [] ++ nth 2 (chunks 4 4 v) [].

(** avx2.rs:339-358 [interleave_f32x8x4_to_u16x32] *)
Definition avx2_interleave_4x_u16 (r g b a : vec) : list Z * list Z :=
  let r := map cvtps_epi32 (regn 8 r) in
  let g := map cvtps_epi32 (regn 8 g) in
  let b := map cvtps_epi32 (regn 8 b) in
  let a := map cvtps_epi32 (regn 8 a) in
  let rb := packus sat_u16 2 4 r b in
  let ga := packus sat_u16 2 4 g a in
  let rgba_lo := unpacklo 2 8 rb ga in
  let rgba_hi := unpackhi 2 8 rb ga in
  (concat (unpacklo 2 4 (chunks 2 8 rgba_lo) (chunks 2 8 rgba_hi)),
   concat (unpackhi 2 4 (chunks 2 8 rgba_lo) (chunks 2 8 rgba_hi))).

(** avx2.rs:332-337 [interleave_f32x8x4_to_u8x32] *)
Definition avx2_interleave_4x_u8 (r g b a : vec) : list Z :=
  let '(lo, hi) := avx2_interleave_4x_u16 r g b a in
  packus sat_u8 2 8 lo hi.

(** avx2.rs:360-384 [interleave_f32x8x3_to_u8x24] *)
Definition avx2_interleave_3x_u8 (r g b : vec) : list Z :=
  let rgb := avx2_interleave_4x_u8 r g b (cst (S754_zero false)) in
  let idx := [0; 1; 2; 4; 5; 6; 8; 9; 10; 12; 13; 14; -128; -128; -128; -128;
              0; 1; 2; 4; 5; 6; 8; 9; 10; 12; 13; 14; -128; -128; -128; -128]%Z in
  let rgb := shuffle_epi8 2 rgb idx in
  dword 0 8 rgb ++ dword 1 8 rgb ++ dword 2 8 rgb ++
  dword 4 8 rgb ++ dword 5 8 rgb ++ dword 6 8 rgb.

(** avx2.rs:5-234 [impl Vector for __m256] *)
Definition avx2_impl (lm : libm) : vimpl := {|
  vi_len := 8;
  vi_lane := avx2_lane lm;
  vi_zip := avx2_zip;
  vi_unzip := avx2_unzip;
  vi_load_u8 := avx2_load_u8;
  vi_load_u16 := avx2_load_u16;
  vi_load_u8_3x := avx2_load_u8_3x;
  vi_load_u8_4x := avx2_load_u8_4x;
  vi_write_u8 := avx2_f32x8_to_u8x8;
  vi_write_u8_2x := avx2_f32x8x2_to_u8x16;
  vi_write_u16 v := u16_bytes (avx2_f32x8_to_u16x8 v);
  vi_write_u16_2x a b := u16_bytes (avx2_f32x8x2_to_u16x16 a b);
  vi_write_u8_3x p :=
    let '((a0, b0, c0), (a1, b1, c1)) := p in
    avx2_interleave_3x_u8 a0 b0 c0 ++ avx2_interleave_3x_u8 a1 b1 c1;
  vi_write_u8_4x p :=
    let '((a0, b0, c0, d0), (a1, b1, c1, d1)) := p in
    avx2_interleave_4x_u8 a0 b0 c0 d0 ++ avx2_interleave_4x_u8 a1 b1 c1 d1
|}.

(** * src/vector/avx512.rs (cargo feature "unstable") *)

(** avx512.rs:35-64 *)
Definition avx512_lane (lm : libm) : lane_ops f32 :=
  LaneOps f32 f32_lt f32_le x86_max (lm_pow lm AVX512) (lm_ln lm AVX512).

(** [_mm512_permutex2var_ps(a, i, b)] *)
Definition permutex2var (a : list f32) (idx : list nat) (b : list f32) : list f32 :=
  permutevar S754_nan (a ++ b) idx.

(** avx512.rs:66-75 [zip] *)
Definition avx512_zip (a b : vec) : vec * vec :=
  (vec_of (permutex2var (regn 16 a) [0; 16; 1; 17; 2; 18; 3; 19; 4; 20; 5; 21; 6; 22; 7; 23] (regn 16 b)),
   vec_of (permutex2var (regn 16 a) [8; 24; 9; 25; 10; 26; 11; 27; 12; 28; 13; 29; 14; 30; 15; 31] (regn 16 b))).

(** avx512.rs:77-86 [unzip] *)
Definition avx512_unzip (a b : vec) : vec * vec :=
  (vec_of (permutex2var (regn 16 a) [0; 2; 4; 6; 8; 10; 12; 14; 16; 18; 20; 22; 24; 26; 28; 30] (regn 16 b)),
   vec_of (permutex2var (regn 16 a) [1; 3; 5; 7; 9; 11; 13; 15; 17; 19; 21; 23; 25; 27; 29; 31] (regn 16 b))).

(** avx512.rs:88-100 [load_u8], [load_u16] *)
Definition avx512_load_u8 (l : list Z) : vec := fun k => f32_of_Z (byte l k).
Definition avx512_load_u16 (l : list Z) : vec := fun k => f32_of_Z (u16_of (byte l (2 * k)) (byte l (2 * k + 1))).

(** avx512.rs:238-268 [deinterleave_3x] *)
Definition avx512_deinterleave_3x (m1 m2 m3 : vec) : vec * vec * vec :=
  let m1 := regn 16 m1 in let m2 := regn 16 m2 in let m3 := regn 16 m3 in
  let r := permutex2var m1 [0; 3; 6; 9; 12; 15; 18; 21; 24; 27; 30; 0; 0; 0; 0; 0] m2 in
  let r := permutex2var r [0; 1; 2; 3; 4; 5; 6; 7; 8; 9; 10; 17; 20; 23; 26; 29] m3 in
  let g := permutex2var m1 [1; 4; 7; 10; 13; 16; 19; 22; 25; 28; 31; 0; 0; 0; 0; 0] m2 in
  let g := permutex2var g [0; 1; 2; 3; 4; 5; 6; 7; 8; 9; 10; 18; 21; 24; 27; 30] m3 in
  let b := permutex2var m1 [2; 5; 8; 11; 14; 17; 20; 23; 26; 29; 0; 0; 0; 0; 0; 0] m2 in
  let b := permutex2var b [0; 1; 2; 3; 4; 5; 6; 7; 8; 9; 16; 19; 22; 25; 28; 31] m3 in
  (vec_of r, vec_of g, vec_of b).

(** avx512.rs:270-295 [deinterleave_4x] *)
Definition avx512_deinterleave_4x (m1 m2 m3 m4 : vec) : vec * vec * vec * vec :=
  let m1 := regn 16 m1 in let m2 := regn 16 m2 in let m3 := regn 16 m3 in let m4 := regn 16 m4 in
  let v1 := unpacklo 4 4 m1 m2 in
  let v2 := unpacklo 4 4 m3 m4 in
  let v3 := unpackhi 4 4 m1 m2 in
  let v4 := unpackhi 4 4 m3 m4 in
  let r := unpacklo 4 4 v1 v2 in
  let g := unpackhi 4 4 v1 v2 in
  let b := unpacklo 4 4 v3 v4 in
  let a := unpackhi 4 4 v3 v4 in
  let idx := [0; 4; 8; 12; 2; 6; 10; 14; 1; 5; 9; 13; 3; 7; 11; 15] in
  (vec_of (permutevar S754_nan r idx), vec_of (permutevar S754_nan g idx),
   vec_of (permutevar S754_nan b idx), vec_of (permutevar S754_nan a idx)).

(** avx512.rs:102-117 [load_u8_3x_interleaved_2x] *)
Definition avx512_load_3x_inner (p : list Z) : vec * vec * vec :=
  avx512_deinterleave_3x (avx512_load_u8 p) (avx512_load_u8 (ptr_add 16 p)) (avx512_load_u8 (ptr_add 32 p)).
Definition avx512_load_u8_3x (p : list Z) : (vec * vec * vec) * (vec * vec * vec) :=
  (avx512_load_3x_inner p, avx512_load_3x_inner (ptr_add 48 p)).

(** avx512.rs:136-152 [load_u8_4x_interleaved_2x] *)
Definition avx512_load_4x_inner (p : list Z) : vec * vec * vec * vec :=
  avx512_deinterleave_4x (avx512_load_u8 p) (avx512_load_u8 (ptr_add 16 p))
                         (avx512_load_u8 (ptr_add 32 p)) (avx512_load_u8 (ptr_add 48 p)).
Definition avx512_load_u8_4x (p : list Z) : (vec * vec * vec * vec) * (vec * vec * vec * vec) :=
  (avx512_load_4x_inner p, avx512_load_4x_inner (ptr_add 64 p)).

(** [_mm512_cvtepi32_epi8] / [_epi16]: truncation to the low bits *)
Definition low_u8 (z : Z) : Z := (z mod 256)%Z.
Definition low_u16 (z : Z) : Z := (z mod 65536)%Z.

(** avx512.rs:297-327 [f32x16x2_to_u8x32], [f32x16x2_to_u16x32], [f32x16_to_u8x16], [f32x16_to_u16x16] *)
Definition avx512_f32x16_to_u8x16 (v : vec) : list Z := map low_u8 (map cvtps_epi32 (regn 16 v)).
Definition avx512_f32x16_to_u16x16 (v : vec) : list Z := map low_u16 (map cvtps_epi32 (regn 16 v)).
Definition avx512_f32x16x2_to_u8x32 (l h : vec) : list Z :=
  map low_u8 (map cvtps_epi32 (regn 16 l)) ++ map low_u8 (map cvtps_epi32 (regn 16 h)).
Definition avx512_f32x16x2_to_u16x32 (l h : vec) : list Z :=
  map low_u16 (map cvtps_epi32 (regn 16 l)) ++ map low_u16 (map cvtps_epi32 (regn 16 h)).

(** avx512.rs:341-365 [interleave_f32x16x4_to_u16x64] *)
Definition avx512_interleave_4x_u16 (r g b a : vec) : list Z * list Z :=
  let r := map cvtps_epi32 (regn 16 r) in
  let g := map cvtps_epi32 (regn 16 g) in
  let b := map cvtps_epi32 (regn 16 b) in
  let a := map cvtps_epi32 (regn 16 a) in
  let rb := packus sat_u16 4 4 r b in
  let ga := packus sat_u16 4 4 g a in
  let rgba_lo := unpacklo 4 8 rb ga in
  let rgba_hi := unpackhi 4 8 rb ga in
  (concat (unpacklo 4 4 (chunks 2 16 rgba_lo) (chunks 2 16 rgba_hi)),
   concat (unpackhi 4 4 (chunks 2 16 rgba_lo) (chunks 2 16 rgba_hi))).

(** avx512.rs:329-339 [interleave_f32x16x4_to_u8x64] *)
Definition avx512_interleave_4x_u8 (r g b a : vec) : list Z :=
  let '(lo, hi) := avx512_interleave_4x_u16 r g b a in
  packus sat_u8 4 8 lo hi.

(** avx512.rs:367-400 [interleave_f32x16x3_to_u8x48]; [_mm512_set_epi8] lists the highest byte first *)
Definition avx512_interleave_3x_u8 (r g b : vec) : list Z :=
  let rgb := avx512_interleave_4x_u8 r g b (cst (S754_zero false)) in
  let idx := rev ([-128; -128; -128; -128; 14; 13; 12; 10; 9; 8; 6; 5; 4; 2; 1; 0;
                   -128; -128; -128; -128; 14; 13; 12; 10; 9; 8; 6; 5; 4; 2; 1; 0;
                   -128; -128; -128; -128; 14; 13; 12; 10; 9; 8; 6; 5; 4; 2; 1; 0;
                   -128; -128; -128; -128; 14; 13; 12; 10; 9; 8; 6; 5; 4; 2; 1; 0]%Z) in
  let rgb := shuffle_epi8 4 rgb idx in
  dword 0 16 rgb ++ dword 1 16 rgb ++ dword 2 16 rgb ++
  dword 4 16 rgb ++ dword 5 16 rgb ++ dword 6 16 rgb ++
  dword 8 16 rgb ++ dword 9 16 rgb ++ dword 10 16 rgb ++
  dword 12 16 rgb ++ dword 13 16 rgb ++ dword 14 16 rgb.

(** avx512.rs:5-235 [impl Vector for __m512] *)
Definition avx512_impl (lm : libm) : vimpl := {|
  vi_len := 16;
  vi_lane := avx512_lane lm;
  vi_zip := avx512_zip;
  vi_unzip := avx512_unzip;
  vi_load_u8 := avx512_load_u8;
  vi_load_u16 := avx512_load_u16;
  vi_load_u8_3x := avx512_load_u8_3x;
  vi_load_u8_4x := avx512_load_u8_4x;
  vi_write_u8 := avx512_f32x16_to_u8x16;
  vi_write_u8_2x := avx512_f32x16x2_to_u8x32;
  vi_write_u16 v := u16_bytes (avx512_f32x16_to_u16x16 v);
  vi_write_u16_2x a b := u16_bytes (avx512_f32x16x2_to_u16x32 a b);
  vi_write_u8_3x p :=
    let '((a0, b0, c0), (a1, b1, c1)) := p in
    avx512_interleave_3x_u8 a0 b0 c0 ++ avx512_interleave_3x_u8 a1 b1 c1;
  vi_write_u8_4x p :=
    let '((a0, b0, c0, d0), (a1, b1, c1, d1)) := p in
    avx512_interleave_4x_u8 a0 b0 c0 d0 ++ avx512_interleave_4x_u8 a1 b1 c1 d1
|}.

(** * src/vector/neon.rs *)

(** neon.rs:36-43: [vcaltq_f32] and [vcaleq_f32] compare absolute values *)
Definition neon_lt (a b : f32) : bool := f32_lt (f32_abs a) (f32_abs b).
Definition neon_le (a b : f32) : bool := f32_le (f32_abs a) (f32_abs b).

(** neon.rs:31-61 *)
Definition neon_lane (lm : libm) : lane_ops f32 :=
  LaneOps f32 neon_lt neon_le neon_max (lm_pow lm NEON) (lm_ln lm NEON).

(** neon.rs:63-69 [zip]: vzip1q / vzip2q *)
Definition neon_zip (a b : vec) : vec * vec :=
  (vec_of (firstn 4 (interleave (regn 4 a) (regn 4 b))),
   vec_of (skipn 4 (interleave (regn 4 a) (regn 4 b)))).

(** neon.rs:71-77 [unzip]: vuzp1q / vuzp2q take the even / odd elements of the concatenation *)
Definition neon_unzip (a b : vec) : vec * vec :=
  (vec_of (permutevar S754_nan (regn 4 a ++ regn 4 b) [0; 2; 4; 6]),
   vec_of (permutevar S754_nan (regn 4 a ++ regn 4 b) [1; 3; 5; 7])).

(** [vcvtq_f32_u32] of a widened list *)
Definition cvt_list (l : list Z) : vec := vec_of (map f32_of_Z l).
Definition bytes_at (l : list Z) (idx : list nat) : list Z := map (byte l) idx.

(** neon.rs:79-86 [load_u8]: the four bytes twice, widened, the high half *)
Definition neon_load_u8 (l : list Z) : vec :=
  let v := bytes_at l [0; 1; 2; 3] in
  cvt_list (skipn 4 (v ++ v)).
(** neon.rs:88-94 [load_u16] *)
Definition neon_load_u16 (l : list Z) : vec :=
  cvt_list (map (fun k => u16_of (byte l (2 * k)) (byte l (2 * k + 1))) [0; 1; 2; 3]).

(** [vld3_u8] / [vld4_u8]: lane [c] of [n] interleaved streams of 8 bytes *)
Definition vld (n c : nat) (l : list Z) : list Z := bytes_at l (map (fun k => n * k + c) (seq 0 8)).
(** [vst3_u8] / [vst4_u8] *)
Definition vst (streams : list (list Z)) : list Z :=
  flat_map (fun k => map (fun s => nth k s 0%Z) streams) (seq 0 8).

(** neon.rs:96-115 [load_u8_3x_interleaved_2x] *)
Definition neon_load_u8_3x (l : list Z) : (vec * vec * vec) * (vec * vec * vec) :=
  let r := vld 3 0 l in let g := vld 3 1 l in let b := vld 3 2 l in
  ((cvt_list (firstn 4 r), cvt_list (firstn 4 g), cvt_list (firstn 4 b)),
   (cvt_list (skipn 4 r), cvt_list (skipn 4 g), cvt_list (skipn 4 b))).

(** neon.rs:135-158 [load_u8_4x_interleaved_2x] *)
Definition neon_load_u8_4x (l : list Z) : (vec * vec * vec * vec) * (vec * vec * vec * vec) :=
  let r := vld 4 0 l in let g := vld 4 1 l in let b := vld 4 2 l in let a := vld 4 3 l in
  ((cvt_list (firstn 4 r), cvt_list (firstn 4 g), cvt_list (firstn 4 b), cvt_list (firstn 4 a)),
   (cvt_list (skipn 4 r), cvt_list (skipn 4 g), cvt_list (skipn 4 b), cvt_list (skipn 4 a))).

(** [vcvtq_u32_f32]: truncation saturating to u32, NaN to 0 *)
Definition vcvt_u32 : f32 -> Z := f32_as 4294967295.
(** [vminq_u32(_, 255)] then [vmovn_u32], [vmovn_u16]; [vminq_u32(_, 65535)] then [vmovn_u32] *)
Definition neon_narrow_u8 (x : f32) : Z := ((Z.min (vcvt_u32 x) 255) mod 65536 mod 256)%Z.
Definition neon_narrow_u16 (x : f32) : Z := ((Z.min (vcvt_u32 x) 65535) mod 65536)%Z.

(** neon.rs:261-309 [float32x4x2_to_u8x8], [float32x4x2_to_u16x8], [float32x4_to_u8x4], [float32x4_to_u16x4] *)
Definition neon_f32x4x2_to_u8x8 (l h : vec) : list Z :=
  map neon_narrow_u8 (regn 4 l) ++ map neon_narrow_u8 (regn 4 h).
Definition neon_f32x4x2_to_u16x8 (l h : vec) : list Z :=
  map neon_narrow_u16 (regn 4 l) ++ map neon_narrow_u16 (regn 4 h).
Definition neon_f32x4_to_u8x4 (v : vec) : list Z :=
  let i := map neon_narrow_u8 (regn 4 v) in firstn 4 (i ++ i).
Definition neon_f32x4_to_u16x4 (v : vec) : list Z := map neon_narrow_u16 (regn 4 v).

(** neon.rs:6-259 [impl Vector for float32x4_t] *)
Definition neon_impl (lm : libm) : vimpl := {|
  vi_len := 4;
  vi_lane := neon_lane lm;
  vi_zip := neon_zip;
  vi_unzip := neon_unzip;
  vi_load_u8 := neon_load_u8;
  vi_load_u16 := neon_load_u16;
  vi_load_u8_3x := neon_load_u8_3x;
  vi_load_u8_4x := neon_load_u8_4x;
  vi_write_u8 := neon_f32x4_to_u8x4;
  vi_write_u8_2x := neon_f32x4x2_to_u8x8;
  vi_write_u16 v := u16_bytes (neon_f32x4_to_u16x4 v);
  vi_write_u16_2x a b := u16_bytes (neon_f32x4x2_to_u16x8 a b);
  vi_write_u8_3x p :=
    let '((a0, b0, c0), (a1, b1, c1)) := p in
    vst [neon_f32x4x2_to_u8x8 a0 a1; neon_f32x4x2_to_u8x8 b0 b1; neon_f32x4x2_to_u8x8 c0 c1];
  vi_write_u8_4x p :=
    let '((a0, b0, c0, d0), (a1, b1, c1, d1)) := p in
    vst [neon_f32x4x2_to_u8x8 a0 a1; neon_f32x4x2_to_u8x8 b0 b1;
         neon_f32x4x2_to_u8x8 c0 c1; neon_f32x4x2_to_u8x8 d0 d1]
|}.

(** The back end [visit] dispatches to; see Visit.v *)
Definition impl_of (lm : libm) (b : backend) : vimpl :=
  match b with
  | Scalar => scalar_impl lm
  | AVX2 => avx2_impl lm
  | AVX512 => avx512_impl lm
  | NEON => neon_impl lm
  end.
