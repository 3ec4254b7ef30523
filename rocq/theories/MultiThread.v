(** src/multi_thread.rs: splitting an image into horizontal bands and
    converting the bands in parallel. *)

From Coq Require Import Arith Bool List ZArith.
From Verif Require Import Base Types Planes ImageM F32 Vector Simd Formats Visit Convert.
Import ListNotations.

(** src/multi_thread.rs:107-115, the inner loop of [split_planes]: cut the
    first [h] rows of the image off every plane.  Returns the planes of the
    band and what is left of the planes.  A format with fewer planes than the
    list leaves the remaining planes alone ([zip]). *)
Fixpoint split_band {E} (descs : list plane_desc) (planes : list (slice * nat)) (h : nat)
    : res E (list (slice * nat) * list (slice * nat)) :=
  match descs, planes with
  | d :: ds, (s, stride) :: ps =>
      rows <- op_apply (height_op d) h ;;
      mid <- strict_mul stride rows ;;
      '(prev, rem) <- split_at s mid ;;
      '(o, rest) <- split_band ds ps h ;;
      Ok ((prev, stride) :: o, (rem, stride) :: rest)
  | _, _ => Ok ([], planes)
  end.

(** src/multi_thread.rs:96-118, the outer loop of [split_planes], [n] more
    iterations with [remainder] extra pairs of rows left to hand out *)
Fixpoint split_loop {E} (descs : list plane_desc) (planes : list (slice * nat)) (parts remainder n : nat)
    : res E (list (nat * list (slice * nat))) :=
  match n with
  | 0 => Ok []
  | S n =>
      let extra := if 0 <? remainder then 1 else 0 in
      sum <- uadd parts extra ;;
      h <- strict_mul sum 2 ;;
      '(band, rest) <- split_band descs planes h ;;
      bands <- split_loop descs rest parts (remainder - extra) n ;;
      Ok ((h, band) :: bands)
  end.

(** src/multi_thread.rs:82-121 [split_planes] *)
Definition split_planes {E} (descs : list plane_desc) (planes : list (slice * nat)) (height threads : nat)
    : res E (list (nat * list (slice * nat))) :=
  let sections := height / 2 in
  let threads := Nat.min threads sections in
  if threads =? 0 then Panic PDivZero
  else split_loop descs planes (sections / threads) (sections mod threads) threads.

Section MultiThread.
  Variable lm : libm.
  Variable b : backend.

  (** src/multi_thread.rs:49-79, the closure: convert one band *)
  Definition convert_band (m : mem) (src dst : image)
      (bands : (nat * list (slice * nat)) * (nat * list (slice * nat))) : out convert_error :=
    let '((h, sps), (_, dps)) := bands in
    obind (si <- unwrap (from_planes (im_format src) (map fst sps) (Some (map snd sps)) (im_width src) h (im_color src)) ;;
           di <- unwrap (from_planes (im_format dst) (map fst dps) (Some (map snd dps)) (im_width src) h (im_color dst)) ;;
           Ok (si, di))
      (fun '(si, di) => convert lm b m (image_of si) (image_of di)).

  (** src/multi_thread.rs:36-47: the pairs of bands *)
  Definition band_pairs (src dst : image) (threads : nat)
      : res convert_error (list ((nat * list (slice * nat)) * (nat * list (slice * nat)))) :=
    sps <- lift (im_planes src) ;;
    ss <- split_planes (plane_descs (im_format src)) sps (im_height src) threads ;;
    dps <- lift (im_planes dst) ;;
    ds <- split_planes (plane_descs (im_format dst)) dps (im_height src) threads ;;
    Ok (combine ss ds).
End MultiThread.

(** Any order of the stores of several threads that keeps the order of the
    stores of each thread *)
Inductive interleaving : list (list wev) -> list wev -> Prop :=
| il_done : forall ts, Forall (eq []) ts -> interleaving ts []
| il_step : forall before e t after evs,
    interleaving (before ++ t :: after) evs ->
    interleaving (before ++ (e :: t) :: after) (e :: evs).

(** Beginning of a list of stores *)
Definition prefix (a c : list wev) : Prop := exists rest, c = a ++ rest.

(** rayon's [try_for_each] (external): the closures run in parallel, in any
    order and interleaving.  If all of them return [Ok], each of them has run to
    its end.  If one returns an error or panics, the call returns an outcome of
    that kind, and the others may have been started or not.  Each closure is
    given by its stores and its outcome, as it runs on the memory before the
    call: the closures share no mutable memory (their slices come from
    [split_at]), so that none sees the stores of another. *)
Definition try_for_each (closures : list (out convert_error)) (o : out convert_error) : Prop :=
  exists ts, interleaving ts (fst o) /\
    ((ts = map fst closures /\ Forall (fun c => snd c = Ok tt) closures /\ snd o = Ok tt) \/
     (Forall2 prefix ts (map fst closures) /\ exists c, In c closures /\ snd c <> Ok tt /\ snd o = snd c)).

(** src/multi_thread.rs:11-80 [convert_multi_thread]: the possible runs.
    [threads] is the number of CPUs, [num_cpus::get()] (external). *)
Definition convert_multi_thread (lm : libm) (b : backend) (threads : nat) (m : mem) (src dst : image)
    (o : out convert_error) : Prop :=
  match verify_input_windows src dst with
  | Ok _ =>
      if pixel_format_eqb (im_format src) (im_format dst) && color_info_eqb (im_color src) (im_color dst)
      then o = convert_same_color_and_pixel_format lm b m src dst
      else if threads =? 1 then o = convert lm b m src dst
      else
        match band_pairs src dst threads with
        | Ok bands => try_for_each (map (convert_band lm b m src dst) bands) o
        | Err e => o = ([], Err e)
        | Panic p => o = ([], Panic p)
        | UB => o = ([], UB)
        end
  | Err e => o = ([], Err e)
  | Panic p => o = ([], Panic p)
  | UB => o = ([], UB)
  end.
