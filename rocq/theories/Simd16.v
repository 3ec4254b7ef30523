(** The loads and stores of packed 16-bit RGB and RGBA pixels of the [Vector]
    trait.  No pixel format has such samples, so no conversion calls them; they
    are part of the vector interface only (src/primitive.rs:69-100 hands them
    to the RGB and RGBA readers and writers). *)

From Coq Require Import ZArith Bool List Lia.
From Coq Require Import Floats.SpecFloat.
From Verif Require Import F32 Vector Simd.
Import ListNotations.

(** The four operations; a load is given the bytes behind the pointer, a store
    gives the bytes it writes (src/vector/mod.rs:106, 109, 118, 121) *)
Record vimpl16 := {
  v16_load_3x : list Z -> (vec * vec * vec) * (vec * vec * vec);
  v16_load_4x : list Z -> (vec * vec * vec * vec) * (vec * vec * vec * vec);
  v16_write_3x : (vec * vec * vec) * (vec * vec * vec) -> list Z;
  v16_write_4x : (vec * vec * vec * vec) * (vec * vec * vec * vec) -> list Z
}.

(** u16 number [i] behind a pointer *)
Definition word (l : list Z) (i : nat) : Z := u16_of (byte l (2 * i)) (byte l (2 * i + 1)).

(** src/vector/mod.rs:220-223, 232-235, 262-265, 274-277 [impl Vector for f32] *)
Definition scalar_impl16 : vimpl16 := {|
  v16_load_3x l :=
    let f i := cst (f32_of_Z (word l i)) in ((f 0, f 1, f 2), (f 3, f 4, f 5));
  v16_load_4x l :=
    let f i := cst (f32_of_Z (word l i)) in ((f 0, f 1, f 2, f 3), (f 4, f 5, f 6, f 7));
  v16_write_3x p :=
    let '((a0, b0, c0), (a1, b1, c1)) := p in
    u16_bytes (map (fun v => as_u16 (v 0)) [a0; b0; c0; a1; b1; c1]);
  v16_write_4x p :=
    let '((a0, b0, c0, d0), (a1, b1, c1, d1)) := p in
    u16_bytes (map (fun v => as_u16 (v 0)) [a0; b0; c0; d0; a1; b1; c1; d1])
|}.

(** src/vector/avx2.rs:119-134 [load_u16_3x_interleaved_2x]: the offsets are
    those of the 8-bit load *)
Definition avx2_load16_3x_inner (p : list Z) : vec * vec * vec :=
  avx2_deinterleave_3x (avx2_load_u16 p) (avx2_load_u16 (ptr_add 8 p)) (avx2_load_u16 (ptr_add 16 p)).
Definition avx2_load_u16_3x (p : list Z) : (vec * vec * vec) * (vec * vec * vec) :=
  (avx2_load16_3x_inner p, avx2_load16_3x_inner (ptr_add 24 p)).

(** src/vector/avx2.rs:154-170 [load_u16_4x_interleaved_2x]: likewise *)
Definition avx2_load16_4x_inner (p : list Z) : vec * vec * vec * vec :=
  avx2_deinterleave_4x (avx2_load_u16 p) (avx2_load_u16 (ptr_add 8 p))
                       (avx2_load_u16 (ptr_add 16 p)) (avx2_load_u16 (ptr_add 24 p)).
Definition avx2_load_u16_4x (p : list Z) : (vec * vec * vec * vec) * (vec * vec * vec * vec) :=
  (avx2_load16_4x_inner p, avx2_load16_4x_inner (ptr_add 32 p)).

(** src/vector/avx2.rs:386-407 [interleave_f32x8x3_to_u16x24], as bytes *)
Definition avx2_interleave_3x_u16 (r g b : vec) : list Z :=
  let '(lo, hi) := avx2_interleave_4x_u16 r g b (cst (S754_zero false)) in
  let idx := [0; 1; 2; 3; 4; 5; 8; 9; 10; 11; 12; 13;
              16; 17; 18; 19; 20; 21; 24; 25; 26; 27; 28; 29;
              -128; -128; -128; -128; -128; -128; -128; -128]%Z in
  let lo := shuffle_epi8 2 (u16_bytes lo) idx in
  let hi := shuffle_epi8 2 (u16_bytes hi) idx in
  flat_map (fun k => dword k 8 lo) [0; 1; 2; 3; 4; 5] ++
  flat_map (fun k => dword k 8 hi) [0; 1; 2; 3; 4; 5].

(** src/vector/avx2.rs:339-358 [interleave_f32x8x4_to_u16x32], as bytes *)
Definition avx2_store16_4x (r g b a : vec) : list Z :=
  let '(lo, hi) := avx2_interleave_4x_u16 r g b a in u16_bytes (lo ++ hi).

(** src/vector/avx2.rs:202-208, 218-224 *)
Definition avx2_impl16 : vimpl16 := {|
  v16_load_3x := avx2_load_u16_3x;
  v16_load_4x := avx2_load_u16_4x;
  v16_write_3x p :=
    let '((a0, b0, c0), (a1, b1, c1)) := p in
    avx2_interleave_3x_u16 a0 b0 c0 ++ avx2_interleave_3x_u16 a1 b1 c1;
  v16_write_4x p :=
    let '((a0, b0, c0, d0), (a1, b1, c1, d1)) := p in
    avx2_store16_4x a0 b0 c0 d0 ++ avx2_store16_4x a1 b1 c1 d1
|}.

(** src/vector/avx512.rs:119-134 [load_u16_3x_interleaved_2x] *)
Definition avx512_load16_3x_inner (p : list Z) : vec * vec * vec :=
  avx512_deinterleave_3x (avx512_load_u16 p) (avx512_load_u16 (ptr_add 16 p)) (avx512_load_u16 (ptr_add 32 p)).
Definition avx512_load_u16_3x (p : list Z) : (vec * vec * vec) * (vec * vec * vec) :=
  (avx512_load16_3x_inner p, avx512_load16_3x_inner (ptr_add 48 p)).

(** src/vector/avx512.rs:154-170 [load_u16_4x_interleaved_2x] *)
Definition avx512_load16_4x_inner (p : list Z) : vec * vec * vec * vec :=
  avx512_deinterleave_4x (avx512_load_u16 p) (avx512_load_u16 (ptr_add 16 p))
                         (avx512_load_u16 (ptr_add 32 p)) (avx512_load_u16 (ptr_add 48 p)).
Definition avx512_load_u16_4x (p : list Z) : (vec * vec * vec * vec) * (vec * vec * vec * vec) :=
  (avx512_load16_4x_inner p, avx512_load16_4x_inner (ptr_add 64 p)).

(** src/vector/avx512.rs:402-426 [interleave_f32x16x3_to_u16x48], as bytes;
    [_mm512_set_epi8] lists the highest byte first *)
Definition avx512_interleave_3x_u16 (r g b : vec) : list Z :=
  let '(lo, hi) := avx512_interleave_4x_u16 r g b (cst (S754_zero false)) in
  let idx := rev ([-128; -128; -128; -128; -128; -128; -128; -128;
                   29; 28; 27; 26; 25; 24; 21; 20; 19; 18; 17;
                   16; 13; 12; 11; 10; 9; 8; 5; 4; 3; 2; 1; 0;
                   -128; -128; -128; -128; -128; -128; -128; -128;
                   29; 28; 27; 26; 25; 24; 21; 20; 19; 18; 17;
                   16; 13; 12; 11; 10; 9; 8; 5; 4; 3; 2; 1; 0]%Z) in
  let lo := shuffle_epi8 4 (u16_bytes lo) idx in
  let hi := shuffle_epi8 4 (u16_bytes hi) idx in
  flat_map (fun k => dword k 16 lo) [0; 1; 2; 3; 4; 5; 8; 9; 10; 11; 12; 13] ++
  flat_map (fun k => dword k 16 hi) [0; 1; 2; 3; 4; 5; 8; 9; 10; 11; 12; 13].

(** src/vector/avx512.rs:341-365 [interleave_f32x16x4_to_u16x64], as bytes *)
Definition avx512_store16_4x (r g b a : vec) : list Z :=
  let '(lo, hi) := avx512_interleave_4x_u16 r g b a in u16_bytes (lo ++ hi).

(** src/vector/avx512.rs:204-210, 220-226 *)
Definition avx512_impl16 : vimpl16 := {|
  v16_load_3x := avx512_load_u16_3x;
  v16_load_4x := avx512_load_u16_4x;
  v16_write_3x p :=
    let '((a0, b0, c0), (a1, b1, c1)) := p in
    avx512_interleave_3x_u16 a0 b0 c0 ++ avx512_interleave_3x_u16 a1 b1 c1;
  v16_write_4x p :=
    let '((a0, b0, c0, d0), (a1, b1, c1, d1)) := p in
    avx512_store16_4x a0 b0 c0 d0 ++ avx512_store16_4x a1 b1 c1 d1
|}.

(** [vld3q_u16] / [vld4q_u16]: lane [c] of [n] interleaved streams of 8 words *)
Definition vldq (n c : nat) (l : list Z) : list Z := map (fun k => word l (n * k + c)) (seq 0 8).

(** src/vector/neon.rs:117-133 [load_u16_3x_interleaved_2x], 160-179
    [load_u16_4x_interleaved_2x], 216-225, 239-249 (stores, [vst3q_u16] and
    [vst4q_u16]) *)
Definition neon_impl16 : vimpl16 := {|
  v16_load_3x l :=
    let r := vldq 3 0 l in let g := vldq 3 1 l in let b := vldq 3 2 l in
    ((cvt_list (firstn 4 r), cvt_list (firstn 4 g), cvt_list (firstn 4 b)),
     (cvt_list (skipn 4 r), cvt_list (skipn 4 g), cvt_list (skipn 4 b)));
  v16_load_4x l :=
    let r := vldq 4 0 l in let g := vldq 4 1 l in let b := vldq 4 2 l in let a := vldq 4 3 l in
    ((cvt_list (firstn 4 r), cvt_list (firstn 4 g), cvt_list (firstn 4 b), cvt_list (firstn 4 a)),
     (cvt_list (skipn 4 r), cvt_list (skipn 4 g), cvt_list (skipn 4 b), cvt_list (skipn 4 a)));
  v16_write_3x p :=
    let '((a0, b0, c0), (a1, b1, c1)) := p in
    u16_bytes (vst [neon_f32x4x2_to_u16x8 a0 a1; neon_f32x4x2_to_u16x8 b0 b1; neon_f32x4x2_to_u16x8 c0 c1]);
  v16_write_4x p :=
    let '((a0, b0, c0, d0), (a1, b1, c1, d1)) := p in
    u16_bytes (vst [neon_f32x4x2_to_u16x8 a0 a1; neon_f32x4x2_to_u16x8 b0 b1;
                    neon_f32x4x2_to_u16x8 c0 c1; neon_f32x4x2_to_u16x8 d0 d1])
|}.

(** The same back ends as [impl_of] *)
Definition impl16_of (b : backend) : vimpl16 :=
  match b with
  | Scalar => scalar_impl16
  | AVX2 => avx2_impl16
  | AVX512 => avx512_impl16
  | NEON => neon_impl16
  end.
