(** Specification vocabulary for cropping. *)

From Coq Require Import List ZArith Bool Arith.
From Verif Require Import Base Types SpecGeom Crop.

(** The window starts on a chroma sample boundary of the format. *)
Definition even_offsets (f : pixel_format) (win : window) : Prop :=
  match f with
  | RGBA | BGRA | RGB | BGR | I444 | I410 | I412 => True
  | I422 | I210 | I212 | YUYV => Nat.Even (win_x win)
  | I420 | I010 | I012 | NV12 => Nat.Even (win_x win) /\ Nat.Even (win_y win)
  end.

(** Two crops in a row, as one window of the outermost image. *)
Definition compose_win (w1 w2 : window) : window :=
  Window (win_x w1 + win_x w2) (win_y w1 + win_y w2) (win_width w2) (win_height w2).

(** Two offsets that do not both sit in the middle of a chroma sample. *)
Definition not_both_odd (a b : nat) : Prop := Nat.Even a \/ Nat.Even b.

