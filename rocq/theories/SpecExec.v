(** Execution with loads and stores taking turns: the memory a conversion reads
    while it runs. *)

From Coq Require Import Arith Bool List ZArith.
From Verif Require Import Base Types ImageM SpecGeom SpecConvert SpecRun.
Import ListNotations.

(** The memories hold the same samples of the image. *)
Definition same_samples (f : pixel_format) (ps : list (slice * nat)) (w h : nat) (m m' : mem) : Prop :=
  forall b i, sample_byte f ps w h b i -> m b i = m' b i.

(** Shared and exclusive borrows do not overlap: no sample of the source is
    in a plane of the destination. *)
Definition no_alias (f : pixel_format) (sps : list (slice * nat)) (w h : nat) (dps : list (slice * nat)) : Prop :=
  forall b i, sample_byte f sps w h b i -> ~ exists pl, In pl dps /\ in_slice (fst pl) b i.

Fixpoint set_nth {A} (l : list A) (j : nat) (a : A) : list A :=
  match l, j with
  | [], _ => []
  | _ :: t, 0 => a :: t
  | x :: t, S j => x :: set_nth t j a
  end.

(** Threads that run at the same time on one memory.  [cs] are the threads:
    the list of stores a thread performs, as a function of the memory it loads
    from.  [ks] counts the stores each thread has performed.  In one step some
    thread performs its next store, with the value it computes from the memory
    as it is at that moment, with all earlier stores of all threads done.
    [live cs m ks evs ks']: from memory [m] and counts [ks], the stores [evs] in
    this order lead to the counts [ks']. *)
Inductive live (cs : list (mem -> list wev)) : mem -> list nat -> list wev -> list nat -> Prop :=
| live_stop : forall m ks, live cs m ks [] ks
| live_step : forall m ks j c k e evs ks',
    nth_error cs j = Some c -> nth_error ks j = Some k -> nth_error (c m) k = Some e ->
    live cs (apply_wev m e) (set_nth ks j (S k)) evs ks' ->
    live cs m ks (e :: evs) ks'.

(** All threads have performed all their stores. *)
Definition finished (cs : list (mem -> list wev)) (m : mem) (ks : list nat) : Prop :=
  length ks = length cs /\
  forall j c k, nth_error cs j = Some c -> nth_error ks j = Some k -> k = length (c m).
