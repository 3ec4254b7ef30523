(** src/resize.rs: handing the planes of an image to the external resampler. *)

From Coq Require Import List ZArith Bool Arith.
From Verif Require Import Base Types Planes ImageM Copy MultiThread.
Import ListNotations.

(** src/resize.rs:12-15 [ResizeError] *)
Inductive resize_error := DifferentFormats (src dst : pixel_format).

(** fir [PixelType::size], external: bytes of a pixel *)
Definition pixel_size (t : pixel_type) : nat :=
  match t with PT_U8 => 1 | PT_U8x2 => 2 | PT_U8x3 => 3 | PT_U8x4 => 4 | PT_U16 => 2 end.

(** src/resize.rs:137-143 [FirAdapterIntoImageView] and 185-191
    [FirAdapterImageView], which has the same fields *)
Record adapter := Adapter {
  ad_type : pixel_type;
  ad_width : nat;
  ad_height : nat;
  ad_stride : nat;
  ad_plane : slice
}.

(** src/resize.rs:150-156, 198-204 [width], [height]: the cast to u32 keeps the
    lower 32 bits *)
Definition as_u32 (n : nat) : Z := (Z.of_nat n mod 2 ^ 32)%Z.
Definition view_width (v : adapter) : Z := as_u32 (ad_width v).
Definition view_height (v : adapter) : Z := as_u32 (ad_height v).

(** Number of rows that [iter_rows(0)] yields, src/resize.rs:206-211 *)
Definition view_rows {E} (v : adapter) : res E nat :=
  rows <- chunks_exact (ad_plane v) (ad_stride v) ;; Ok (length rows).

(** src/resize.rs:206-223 [iter_rows], 229-246 [iter_rows_mut]: row [r],
    if there is one.  [addr] is the address of each buffer.  [align_to] leaves a prefix if the
    first byte is not aligned; the pixel types have the alignment of their
    components, 2 for U16 and else 1. *)
Definition view_row {E} (addr : nat -> Z) (v : adapter) (r : nat) : res E (option slice) :=
  rows <- chunks_exact (ad_plane v) (ad_stride v) ;;
  match nth_error rows r with
  | None => Ok None
  | Some row =>
      n <- umul (ad_width v) (pixel_size (ad_type v)) ;;
      row <- index_range row 0 n ;;
      match ad_type v with
      | PT_U16 =>
          if Z.even (addr (s_buf row) + Z.of_nat (s_off row)) || (s_len row =? 0) then Ok (Some row) else Panic PAssert
      | _ => Ok (Some row)
      end
  end.

(** fir's [Resizer] (external): its state, the state after [Resizer::new], the
    type of algorithms ([ResizeAlg]), and what [resize] does with the state, the
    source and the destination view when it is called with the options of
    src/resize.rs:98-102.  The result [Err] stands for fir's error, which is only
    returned for views of different pixel types. *)
Record fir := Fir {
  fir_alg : Type;
  fir_state : Type;
  fir_new : fir_state;
  fir_resize : fir_state -> fir_alg -> mem -> adapter -> adapter -> fir_state * out unit
}.

Section Resize.
  Variable F : fir.

  (** src/resize.rs:31-35 [Resizer] *)
  Record resizer := Resizer { rz_alg : fir_alg F; rz_fir : list (fir_state F) }.

  (** src/resize.rs:38-40 [Resizer::new] *)
  Definition resizer_new (alg : fir_alg F) : resizer := Resizer alg [].

  (** std [Vec::resize_with] with a size that is not below the length *)
  Definition resize_with {A} (l : list A) (n : nat) (a : A) : list A := l ++ repeat a (n - length l).

  (** src/resize.rs:75-96: the views of one plane *)
  Definition plane_views (src_width dst_width : nat)
      (planes : plane_desc * ((slice * nat) * (slice * nat))) : res resize_error (adapter * adapter) :=
    let '(desc, ((src_plane, src_stride), (dst_plane, dst_stride))) := planes in
    let group := pixel_size (ptype desc) / bpp desc in
    sw <- op_apply (width_op desc) src_width ;;
    dw <- op_apply (width_op desc) dst_width ;;
    sh <- (if src_stride =? 0 then Panic PDivZero else Ok (s_len src_plane / src_stride)) ;;
    dh <- (if dst_stride =? 0 then Panic PDivZero else Ok (s_len dst_plane / dst_stride)) ;;
    Ok (Adapter (ptype desc) (sw / group) sh src_stride src_plane,
        Adapter (ptype desc) (dw / group) dh dst_stride dst_plane).

  (** src/resize.rs:74-109: one spawned closure; the new state of its resampler,
      its stores and its result.  [expect] turns an error into a panic. *)
  Definition resize_plane (alg : fir_alg F) (m : mem) (src_width dst_width : nat)
      (task : (plane_desc * ((slice * nat) * (slice * nat))) * fir_state F) : fir_state F * out resize_error :=
    let (planes, state) := task in
    match plane_views src_width dst_width planes with
    | Ok (src, dst) =>
        let '(state', (evs, r)) := fir_resize F state alg m src dst in
        (state', (evs, match r with Ok _ => Ok tt | Err _ => Panic PUnwrap | Panic p => Panic p | UB => UB end))
    | Err e => (state, ([], Err e))
    | Panic p => (state, ([], Panic p))
    | UB => (state, ([], UB))
    end.

  (** rayon's [scope] (external): all closures run, in any interleaving; if some
      of them panic, the panic of one of them is handed on at the end.  The
      closures share no mutable memory, so that each of them is given by its run
      on the memory before the call. *)
  Definition rayon_scope (runs : list (fir_state F * out resize_error)) (states : list (fir_state F)) (o : out resize_error) : Prop :=
    interleaving (map (fun c => fst (snd c)) runs) (fst o) /\
    states = map fst runs /\
    ((Forall (fun c => snd (snd c) = Ok tt) runs /\ snd o = Ok tt) \/
     exists c, In c runs /\ snd (snd c) <> Ok tt /\ snd o = snd (snd c)).

  (** src/resize.rs:119-132 [rayon_stub::scope], used without the feature
      "multi-thread": the closures run one after the other, until one panics.
      [olds] are the states before. *)
  Fixpoint stub_scope (runs : list (fir_state F * out resize_error)) (olds : list (fir_state F))
      : list (fir_state F) * out resize_error :=
    match runs, olds with
    | (state, (evs, Ok _)) :: runs', _ :: olds' =>
        let '(states, (evs', r)) := stub_scope runs' olds' in (state :: states, (evs ++ evs', r))
    | (state, (evs, r)) :: _, _ :: olds' => (state :: olds', (evs, r))
    | _, _ => (olds, ([], Ok tt))
    end.

  (** src/resize.rs:68-72: the planes with their descriptions and resamplers,
      and the resamplers that are left over *)
  Definition tasks_of (f : pixel_format) (sps dps : list (slice * nat)) (states : list (fir_state F)) :=
    combine (combine (plane_descs f) (combine sps dps)) states.

  (** src/resize.rs:45-115 [Resizer::resize]: the possible runs; [threads] tells
      if the feature "multi-thread" is on *)
  Definition resize (threads : bool) (m : mem) (rz : resizer) (src dst : image) (rz' : resizer) (o : out resize_error) : Prop :=
    if negb (pixel_format_eqb (im_format src) (im_format dst))
    then rz' = rz /\ o = ([], Err (DifferentFormats (im_format src) (im_format dst)))
    else
      match (sps <- lift (im_planes src) ;; dps <- lift (im_planes dst) ;; Ok (sps, dps)) with
      | Ok (sps, dps) =>
          let states := resize_with (rz_fir rz) (Nat.max (length (rz_fir rz)) (length sps)) (fir_new F) in
          let tasks := tasks_of (im_format src) sps dps states in
          let runs := map (resize_plane (rz_alg rz) m (im_width src) (im_width dst)) tasks in
          exists states',
            (if threads then rayon_scope runs states' o else stub_scope runs (firstn (length runs) states) = (states', o)) /\
            rz' = Resizer (rz_alg rz) (states' ++ skipn (length runs) states)
      | Err e => rz' = rz /\ o = ([], Err e)
      | Panic p => rz' = rz /\ o = ([], Panic p)
      | UB => rz' = rz /\ o = ([], UB)
      end.
End Resize.
Arguments Resizer {F}.
Arguments rz_alg {F}.
Arguments rz_fir {F}.
Arguments resizer_new {F}.
