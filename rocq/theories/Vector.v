(** The [Vector] trait. *)

From Coq Require Import ZArith Bool List.
From Verif Require Import F32.
Import ListNotations.

(** src/vector/mod.rs:22-88 [trait Vector], the arithmetic part.  [V] is the
    vector type, [M] its mask type, [F] the element type. *)
Class VOps (F V M : Type) := {
  splat : F -> V;
  vadd : V -> V -> V;
  vsub : V -> V -> V;
  vmul : V -> V -> V;
  vdiv : V -> V -> V;
  vmax : V -> V -> V;
  vlt : V -> V -> M;
  vle : V -> V -> M;
  select : V -> V -> M -> V;
  vsqrt : V -> V;
  vpow : V -> V -> V;
  vln : V -> V;
  vzip : V -> V -> V * V;
  vunzip : V -> V -> V * V
}.

Section Derived.
  Context {F V M : Type} {VO : VOps F V M}.

  (** src/vector/mod.rs:31-33 [vaddf], 36-38 [vsubf], 41-43 [vmulf], 46-48
      [vdivf], 51-53 [vmaxf], 57-59 [ltf], 63-65 [lef], 74-76 [vpowf] *)
  Definition vaddf (a : V) (f : F) : V := vadd a (splat f).
  Definition vsubf (a : V) (f : F) : V := vsub a (splat f).
  Definition vmulf (a : V) (f : F) : V := vmul a (splat f).
  Definition vdivf (a : V) (f : F) : V := vdiv a (splat f).
  Definition vmaxf (a : V) (f : F) : V := vmax a (splat f).
  Definition vltf (a : V) (f : F) : M := vlt a (splat f).
  Definition vlef (a : V) (f : F) : M := vle a (splat f).
  Definition vpowf (a : V) (f : F) : V := vpow a (splat f).
End Derived.

(** A vector register: lane index to value.  Lanes at or beyond the vector
    length carry no meaning; the theorems only speak about lanes below it. *)
Definition vec := nat -> f32.

(** src/vector/mod.rs:22-128 [trait Vector]: one implementation (back end).
    Loads take exactly the bytes they read, stores give exactly the bytes they
    write.  Two-element arrays [[V; n]; 2] are pairs of tuples.  The u16
    interleaved loads and stores are not instantiated by any pixel format and
    are left out. *)
Record vimpl := VImpl {
  vi_len : nat;                                          (* LEN *)
  vi_lane : lane_ops f32;
  vi_zip : vec -> vec -> vec * vec;
  vi_unzip : vec -> vec -> vec * vec;
  vi_load_u8 : list Z -> vec;
  vi_load_u16 : list Z -> vec;
  vi_load_u8_3x : list Z -> (vec * vec * vec) * (vec * vec * vec);
  vi_load_u8_4x : list Z -> (vec * vec * vec * vec) * (vec * vec * vec * vec);
  vi_write_u8 : vec -> list Z;
  vi_write_u8_2x : vec -> vec -> list Z;
  vi_write_u16 : vec -> list Z;
  vi_write_u16_2x : vec -> vec -> list Z;
  vi_write_u8_3x : (vec * vec * vec) * (vec * vec * vec) -> list Z;
  vi_write_u8_4x : (vec * vec * vec * vec) * (vec * vec * vec * vec) -> list Z
}.

(** The arithmetic of a back end: elementwise, except zip and unzip. *)
Definition vec_ops (vi : vimpl) : VOps f32 vec (nat -> bool) := {|
  splat f := fun _ => f;
  vadd a b := fun k => fadd (a k) (b k);
  vsub a b := fun k => fsub (a k) (b k);
  vmul a b := fun k => fmul (a k) (b k);
  vdiv a b := fun k => fdiv (a k) (b k);
  vmax a b := fun k => l_max (vi_lane vi) (a k) (b k);
  vlt a b := fun k => l_lt (vi_lane vi) (a k) (b k);
  vle a b := fun k => l_le (vi_lane vi) (a k) (b k);
  select a b m := fun k => if m k then a k else b k;
  vsqrt a := fun k => fsqrt (a k);
  vpow a b := fun k => l_pow (vi_lane vi) (a k) (b k);
  vln a := fun k => l_ln (vi_lane vi) (a k);
  vzip := vi_zip vi;
  vunzip := vi_unzip vi
|}.

(** A single element as a vector of length one, for exact and lane-level
    reasoning; zip and unzip are those of src/vector/mod.rs:194-202. *)
Definition lane_vops {F} {FO : FOps F} (L : lane_ops F) : VOps F F bool := {|
  splat f := f;
  vadd := fadd;
  vsub := fsub;
  vmul := fmul;
  vdiv := fdiv;
  vmax := l_max L;
  vlt := l_lt L;
  vle := l_le L;
  select a b m := if m then a else b;
  vsqrt := fsqrt;
  vpow := l_pow L;
  vln := l_ln L;
  vzip a b := (a, b);
  vunzip a b := (a, b)
|}.
