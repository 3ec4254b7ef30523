(** Base vocabulary of the model: results, machine integers, memory, slices, store traces.

    Nothing here is specific to ezk-image; it is the semantics of the Rust
    fragment that the code uses. *)

From Coq Require Import List ZArith Lia Bool Arith.
Import ListNotations.

(** * Results *)

(** Reasons for a Rust panic. *)
Inductive panic :=
| POverflow      (* strict_mul_ / strict_add_ (lib.rs:212-228), or arithmetic overflow in a debug build *)
| PSplitAt       (* slice::split_at(mid) with mid > len *)
| PIndex         (* slice indexing / range out of bounds *)
| PUnwrap        (* Result::unwrap / expect on Err *)
| PAssert        (* assert! / assert_eq! *)
| PDivZero       (* division or remainder by zero; chunks_exact(0); step_by(0) *)
| PExplicit.     (* panic!() *)

(** Outcome of running a piece of Rust code: normal value, a returned [Err],
    a panic, or undefined behaviour (an out-of-bounds raw pointer access). *)
Inductive res (E A : Type) :=
| Ok (a : A)
| Err (e : E)
| Panic (p : panic)
| UB.
Arguments Ok {E A} a.
Arguments Err {E A} e.
Arguments Panic {E A} p.
Arguments UB {E A}.

Definition bind {E A B} (r : res E A) (f : A -> res E B) : res E B :=
  match r with
  | Ok a => f a
  | Err e => Err e
  | Panic p => Panic p
  | UB => UB
  end.

Notation "x <- e1 ;; e2" := (bind e1 (fun x => e2))
  (at level 61, e1 at next level, right associativity).
Notation "' p <- e1 ;; e2" := (bind e1 (fun p => e2))
  (at level 61, p pattern, e1 at next level, right associativity).

(** The [?] operator converting the error with [From]. *)
Definition map_err {E1 E2 A} (f : E1 -> E2) (r : res E1 A) : res E2 A :=
  match r with
  | Ok a => Ok a
  | Err e => Err (f e)
  | Panic p => Panic p
  | UB => UB
  end.

(** [Result::unwrap] / [expect]: an [Err] becomes a panic. *)
Definition unwrap {E1 E2 A} (r : res E1 A) : res E2 A :=
  match r with
  | Ok a => Ok a
  | Err _ => Panic PUnwrap
  | Panic p => Panic p
  | UB => UB
  end.

(** Run a fallible computation for each element, left to right. *)
Fixpoint mapM {E A B} (f : A -> res E B) (l : list A) : res E (list B) :=
  match l with
  | [] => Ok []
  | a :: t => b <- f a ;; bs <- mapM f t ;; Ok (b :: bs)
  end.

Definition is_ok {E A} (r : res E A) : bool :=
  match r with Ok _ => true | _ => false end.

(** The empty error type: code that cannot return [Err]. *)
Definition noerr := Empty_set.
Definition lift {E A} (r : res noerr A) : res E A :=
  match r with
  | Ok a => Ok a
  | Err e => match e with end
  | Panic p => Panic p
  | UB => UB
  end.

(** * usize *)

(** 64-bit target.  Sizes are [nat]; the guard is evaluated on [Z] so that
    large values never have to be built in unary. *)
Definition usize_max : Z := (2 ^ 64 - 1)%Z.

Definition fits (z : Z) : bool := (z <=? usize_max)%Z.

(** src/lib.rs:212-228 [strict_mul_], [strict_add_]: panic on overflow. *)
Definition strict_mul {E} (a b : nat) : res E nat :=
  if fits (Z.of_nat a * Z.of_nat b) then Ok (a * b) else Panic POverflow.
Definition strict_add {E} (a b : nat) : res E nat :=
  if fits (Z.of_nat a + Z.of_nat b) then Ok (a + b) else Panic POverflow.

(** Ordinary [*] and [+] on usize: overflow panics in a debug build and wraps
    in a release build; the model reports it as a panic, and the theorems show
    where it cannot happen. *)
Definition umul {E} (a b : nat) : res E nat :=
  if fits (Z.of_nat a * Z.of_nat b) then Ok (a * b) else Panic POverflow.
Definition uadd {E} (a b : nat) : res E nat :=
  if fits (Z.of_nat a + Z.of_nat b) then Ok (a + b) else Panic POverflow.

(** [usize::checked_add] *)
Definition checked_add (a b : nat) : option nat :=
  if fits (Z.of_nat a + Z.of_nat b) then Some (a + b) else None.

(** * Memory *)

(** Contents of all byte buffers: buffer id, index, byte value. *)
Definition mem := nat -> nat -> Z.

(** [&[u8]] / [&mut [u8]]: a range of a buffer. *)
Record slice := Slice { s_buf : nat; s_off : nat; s_len : nat }.

(** [slice.split_at(mid)] *)
Definition split_at {E} (s : slice) (mid : nat) : res E (slice * slice) :=
  if mid <=? s_len s
  then Ok (Slice (s_buf s) (s_off s) mid,
           Slice (s_buf s) (s_off s + mid) (s_len s - mid))
  else Panic PSplitAt.

(** [slice[lo..hi]] *)
Definition index_range {E} (s : slice) (lo hi : nat) : res E slice :=
  if (lo <=? hi) && (hi <=? s_len s)
  then Ok (Slice (s_buf s) (s_off s + lo) (hi - lo))
  else Panic PIndex.

(** Bytes [off .. off+n) of buffer [b]. *)
Definition read_bytes (m : mem) (b off n : nat) : list Z :=
  map (fun k => m b (off + k)) (seq 0 n).

(** Raw pointer read of [n] bytes at [slice[off..].as_ptr()]:
    [slice[off..]] panics if [off > len]; reading past the end is UB. *)
Definition raw_read {E} (m : mem) (s : slice) (off n : nat) : res E (list Z) :=
  if off <=? s_len s
  then if off + n <=? s_len s
       then Ok (read_bytes m (s_buf s) (s_off s + off) n)
       else UB
  else Panic PIndex.

(** * Store traces *)

(** One store of consecutive bytes. *)
Record wev := Wev { w_buf : nat; w_off : nat; w_bytes : list Z }.

Definition apply_wev (m : mem) (e : wev) : mem :=
  fun b i =>
    if (b =? w_buf e) && (w_off e <=? i) && (i <? w_off e + length (w_bytes e))
    then nth (i - w_off e) (w_bytes e) 0%Z
    else m b i.

Definition apply_all (m : mem) (es : list wev) : mem := fold_left apply_wev es m.

(** A computation that stores: the stores performed so far and the outcome. *)
Definition out (E : Type) : Type := list wev * res E unit.

(** Run computations in order, stopping at the first that does not end normally. *)
Fixpoint run_all {E} (l : list (out E)) : out E :=
  match l with
  | [] => ([], Ok tt)
  | (ev, Ok _) :: t => let (ev', r) := run_all t in (ev ++ ev', r)
  | (ev, r) :: _ => (ev, r)
  end.

(** A pure computation followed by a storing one. *)
Definition obind {E A} (r : res E A) (f : A -> out E) : out E :=
  match r with
  | Ok a => f a
  | Err e => ([], Err e)
  | Panic p => ([], Panic p)
  | UB => ([], UB)
  end.

(** Raw pointer store of [bytes] at [slice[off..].as_mut_ptr()]. *)
Definition raw_write {E} (s : slice) (off : nat) (bytes : list Z) : out E :=
  if off <=? s_len s
  then if off + length bytes <=? s_len s
       then ([Wev (s_buf s) (s_off s + off) bytes], Ok tt)
       else ([], UB)
  else ([], Panic PIndex).
