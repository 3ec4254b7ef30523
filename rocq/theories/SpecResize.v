(** Specification of [Resizer::resize]. *)

From Coq Require Import Arith Bool List ZArith.
From Verif Require Import Base Types ImageM Resize SpecGeom SpecConvert SpecRun SpecCopy.
Import ListNotations.

(** * Views *)

(** The resampler works on pixels: groups of the samples of a plane that belong
    together. *)
Definition pixel_kind (f : pixel_format) (p : nat) : pixel_type :=
  match f with
  | I420 | I422 | I444 => PT_U8
  | I010 | I012 | I210 | I212 | I410 | I412 => PT_U16
  | NV12 => if p =? 0 then PT_U8 else PT_U8x2         (* U, V *)
  | YUYV => PT_U8x4                                   (* Y, U, Y, V *)
  | RGBA | BGRA => PT_U8x4
  | RGB | BGR => PT_U8x3
  end.
Definition pixel_samples (f : pixel_format) (p : nat) : nat :=
  match f with
  | NV12 => if p =? 0 then 1 else 2
  | YUYV | RGBA | BGRA => 4
  | RGB | BGR => 3
  | _ => 1
  end.

(** Plane [p] of a [w] x [h] image with all its columns and rows *)
Definition view_of (f : pixel_format) (w h p : nat) (pl : slice * nat) : adapter :=
  Adapter (pixel_kind f p) (plane_cols f p w / pixel_samples f p) (plane_rows f p h) (snd pl) (fst pl).

(** The columns of every plane make up whole pixels of the resampler. *)
Definition whole_pixels (f : pixel_format) (w : nat) : Prop :=
  match f with NV12 | YUYV => w mod 2 = 0 | _ => True end.

(** An image that can be resized without surprises: accepted by bounds_check,
    of even width if it is NV12 or YUYV, with strides that are not zero, no spare rows, and fewer than
    2^32 columns and rows in every plane *)
Definition resizable (im : image) (ps : list (slice * nat)) : Prop :=
  valid_image im ps /\ whole_pixels (im_format im) (im_width im) /\ length ps = n_planes (im_format im) /\
  strides_positive (im_format im) ps /\
  forall p pl, p < n_planes (im_format im) -> nth_error ps p = Some pl ->
    whole_rows pl = plane_rows (im_format im) p (im_height im) /\
    (Z.of_nat (plane_cols (im_format im) p (im_width im)) < 2 ^ 32)%Z /\ (Z.of_nat (whole_rows pl) < 2 ^ 32)%Z.

(** 16-bit samples are at even addresses. *)
Definition words_aligned (addr : nat -> Z) (f : pixel_format) (ps : list (slice * nat)) : Prop :=
  sample_bytes f = 2 ->
  forall pl, In pl ps -> Z.even (addr (s_buf (fst pl)) + Z.of_nat (s_off (fst pl))) = true /\ Nat.even (snd pl) = true.

(** * The resampler *)

(** State of the resampler of plane [p]: one resampler for every plane, created
    when it is needed *)
Definition state_of {F : fir} (rz : resizer F) (p : nat) : fir_state F := nth p (rz_fir rz) (fir_new F).

(** What plane [p] of the images is resized to *)
Definition plane_run {F : fir} (rz : resizer F) (m : mem) (src : image) (sps : list (slice * nat)) (dst : image)
    (dps : list (slice * nat)) (p : nat) : fir_state F * out unit :=
  match nth_error sps p, nth_error dps p with
  | Some sp, Some dp =>
      fir_resize F (state_of rz p) (rz_alg rz) m (view_of (im_format src) (im_width src) (im_height src) p sp)
        (view_of (im_format dst) (im_width dst) (im_height dst) p dp)
  | _, _ => (state_of rz p, ([], Ok tt))
  end.

(** The resampler stores only to the rows of the destination view. *)
Definition stores_in_rows (F : fir) (addr : nat -> Z) : Prop :=
  forall st alg m sv dv e, In e (fst (snd (fir_resize F st alg m sv dv))) ->
    exists r row, @view_row unit addr dv r = Ok (Some row) /\ w_buf e = s_buf row /\ s_off row <= w_off e /\
      w_off e + length (w_bytes e) <= s_off row + s_len row.

(** The resampler loads only from the rows of the source view. *)
Definition loads_from_rows (F : fir) (addr : nat -> Z) : Prop :=
  forall st alg m m' sv dv,
    (forall r row i, @view_row unit addr sv r = Ok (Some row) -> in_slice row (s_buf row) i -> m (s_buf row) i = m' (s_buf row) i) ->
    fir_resize F st alg m sv dv = fir_resize F st alg m' sv dv.

(** The state is a cache: results do not depend on it. *)
Definition state_is_cache (F : fir) : Prop :=
  forall st st' alg m sv dv, snd (fir_resize F st alg m sv dv) = snd (fir_resize F st' alg m sv dv).

(** * Histories *)

(** [used F threads alg calls rz]: the resizer [rz] was created for algorithm
    [alg], and these calls have been made so far, the latest one first. *)
Inductive used (F : fir) (threads : bool) (alg : fir_alg F) : list (mem * image * image) -> resizer F -> Prop :=
| used_new : used F threads alg [] (resizer_new alg)
| used_call : forall calls rz m src dst rz' o,
    used F threads alg calls rz -> resize F threads m rz src dst rz' o ->
    used F threads alg ((m, src, dst) :: calls) rz'.

(** State of the resampler of plane [p] when it has seen plane [p] of all these
    images, in this order, and nothing else *)
Fixpoint seen (F : fir) (alg : fir_alg F) (p : nat) (calls : list (mem * image * image)) : fir_state F :=
  match calls with
  | [] => fir_new F
  | (m, src, dst) :: earlier =>
      let st := seen F alg p earlier in
      match im_planes src, im_planes dst with
      | Ok sps, Ok dps =>
          match nth_error sps p, nth_error dps p with
          | Some sp, Some dp =>
              fst (fir_resize F st alg m (view_of (im_format src) (im_width src) (im_height src) p sp)
                     (view_of (im_format dst) (im_width dst) (im_height dst) p dp))
          | _, _ => st
          end
      | _, _ => st
      end
  end.
