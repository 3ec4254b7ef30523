(** C56: the matrices of the color primaries are the ones of the standards. *)

From Coq Require Import ZArith Bool Reals Lia Lra.
From Coq Require Import Floats.SpecFloat.
From Flocq Require Import Core.
From Verif Require Import Types F32 Vector Color FloatProofs AccProofs RecolorProofs SpecChroma.
Local Open Scope R_scope.

(** [ColorPrimaries::rgb_to_xyz_mat] and [xyz_to_rgb_mat]: entries as numbers *)
Definition forward (p : color_primaries) (i j : nat) : R := fval (rgb_to_xyz_mat (F := f32) p i j).
Definition backward (p : color_primaries) (i j : nat) : R := fval (xyz_to_rgb_mat (F := f32) p i j).

Definition entries_within (e : R) (a m : nat -> nat -> R) : Prop :=
  forall i j, (i < 3)%nat -> (j < 3)%nat -> Rabs (a i j - m i j) <= e.

(** Value of a literal *)
Ltac entry n k :=
  let t := eval vm_compute in (10 ^ k)%Z in
  let H := fresh "E" in
  assert (H : Rabs (fval (f32_lit n k) - IZR n / IZR t) <= 12 / 100000000)
    by (first [ (assert (A : approx (f32_lit n k) (IZR n / IZR t) (12 / 100000000)) by const_approx); apply A
              | (let z := eval vm_compute in (f32_lit n k) in change (f32_lit n k) with z); apply Rabs_le; unfold fval; cbn; lra ]);
  apply Rabs_le_inv in H.

Ltac equations H W :=
  destruct (H 0%nat ltac:(lia)) as (? & ? & ?); destruct (H 1%nat ltac:(lia)) as (? & ? & ?); destruct (H 2%nat ltac:(lia)) as (? & ? & ?);
  pose proof (W 0%nat ltac:(lia)); pose proof (W 1%nat ltac:(lia)); pose proof (W 2%nat ltac:(lia)); clear H W; unfold d65, xyz_of in *.

Ltac by_entry i j I J :=
  destruct i as [|[|[|i]]]; [| | |lia]; (destruct j as [|[|[|j]]]; [| | |lia]);
  cbn [rgb_to_xyz_mat xyz_to_rgb_mat BT709_RGB_TO_XYZ BT2020_RGB_TO_XYZ ST240_RGB_TO_XYZ BT709_XYZ_TO_RGB BT2020_XYZ_TO_RGB ST240_XYZ_TO_RGB mk_mat List.nth flit f32_ops];
  match goal with |- context [f32_lit ?n ?k] => entry n k end; apply Rabs_le; lra.

Theorem C56_rgb_to_xyz : forall p m, p = PrBT709 \/ p = PrBT2020 -> standard_matrix p m -> entries_within (1 / 4000000) (forward p) m.
Proof.
  intros p m [-> | ->] ((lr & lg & lb & H) & W) i j I J; equations H W; unfold forward; by_entry i j I J.
Qed.
Print Assumptions C56_rgb_to_xyz.

(** The other direction.  (Over the reals; the two matrices of the code are
    compared with each other by C37.) *)
Ltac inverse_rows N :=
  pose proof (N 0%nat 0%nat ltac:(lia) ltac:(lia)) as N00; pose proof (N 0%nat 1%nat ltac:(lia) ltac:(lia)) as N01; pose proof (N 0%nat 2%nat ltac:(lia) ltac:(lia)) as N02;
  pose proof (N 1%nat 0%nat ltac:(lia) ltac:(lia)) as N10; pose proof (N 1%nat 1%nat ltac:(lia) ltac:(lia)) as N11; pose proof (N 1%nat 2%nat ltac:(lia) ltac:(lia)) as N12;
  pose proof (N 2%nat 0%nat ltac:(lia) ltac:(lia)) as N20; pose proof (N 2%nat 1%nat ltac:(lia) ltac:(lia)) as N21; pose proof (N 2%nat 2%nat ltac:(lia) ltac:(lia)) as N22;
  cbn [Nat.eqb] in N00, N01, N02, N10, N11, N12, N20, N21, N22.

Theorem C56_xyz_to_rgb : forall p m n, p = PrBT709 \/ p = PrBT2020 -> standard_matrix p m -> inverse_matrix m n ->
  entries_within (1 / 1000000) (backward p) n.
Proof.
  intros p m n [-> | ->] ((lr & lg & lb & H) & W) N i j I J.
  - equations H W.
    assert (M00 : m 0%nat 0%nat = 506752 / 1228815) by lra.
    assert (M01 : m 0%nat 1%nat = 87098 / 409605) by lra.
    assert (M02 : m 0%nat 2%nat = 7918 / 409605) by lra.
    assert (M10 : m 1%nat 0%nat = 87881 / 245763) by lra.
    assert (M11 : m 1%nat 1%nat = 175762 / 245763) by lra.
    assert (M12 : m 1%nat 2%nat = 87881 / 737289) by lra.
    assert (M20 : m 2%nat 0%nat = 12673 / 70218) by lra.
    assert (M21 : m 2%nat 1%nat = 12673 / 175545) by lra.
    assert (M22 : m 2%nat 2%nat = 1001167 / 1053270) by lra.
    inverse_rows N; rewrite M00, M01, M02, M10, M11, M12, M20, M21, M22 in *; clear - I J N00 N01 N02 N10 N11 N12 N20 N21 N22.
    unfold backward. by_entry i j I J.
  - equations H W.
    assert (M00 : m 0%nat 0%nat = 63426534 / 99577255) by lra.
    assert (M01 : m 0%nat 1%nat = 26158966 / 99577255) by lra.
    assert (M02 : m 0%nat 2%nat = 0) by lra.
    assert (M10 : m 1%nat 0%nat = 20160776 / 139408157) by lra.
    assert (M11 : m 1%nat 1%nat = 472592308 / 697040785) by lra.
    assert (M12 : m 1%nat 2%nat = 19567812 / 697040785) by lra.
    assert (M20 : m 2%nat 0%nat = 47086771 / 278816314) by lra.
    assert (M21 : m 2%nat 1%nat = 8267143 / 139408157) by lra.
    assert (M22 : m 2%nat 2%nat = 295819943 / 278816314) by lra.
    inverse_rows N; rewrite M00, M01, M02, M10, M11, M12, M20, M21, M22 in *; clear - I J N00 N01 N02 N10 N11 N12 N20 N21 N22.
    unfold backward. by_entry i j I J.
Qed.
Print Assumptions C56_xyz_to_rgb.

(** ST 240: red has y = 0.329 instead of 0.340, so some entries are wrong by
    almost 0.01 *)
Theorem C56_st240_refuted : forall m, standard_matrix PrST240M m -> 9 / 1000 < Rabs (forward PrST240M 1 1 - m 1%nat 1%nat).
Proof.
  intros m ((lr & lg & lb & H) & W). equations H W. unfold forward.
  cbn [rgb_to_xyz_mat ST240_RGB_TO_XYZ mk_mat List.nth flit f32_ops]. match goal with |- context [f32_lit ?n ?k] => entry n k end.
  apply Rlt_le_trans with (2 := Rle_abs _). lra.
Qed.
Print Assumptions C56_st240_refuted.

Definition st240_red : chroma := (630 / 1000, 329 / 1000).

Theorem C56_st240_actual : forall m, (let '(_, g, b) := primaries_of PrST240M in xyz_matrix st240_red g b d65 m) ->
  entries_within (1 / 4000000) (forward PrST240M) m /\
  forall n, inverse_matrix m n -> entries_within (1 / 1000000) (backward PrST240M) n.
Proof.
  intros m ((lr & lg & lb & H) & W). unfold st240_red in H. equations H W. split.
  - intros i j I J. unfold forward. by_entry i j I J.
  - intros n N i j I J.
    assert (M00 : m 0%nat 0%nat = 109665 / 280966) by lra.
    assert (M01 : m 0%nat 1%nat = 2437 / 11956) by lra.
    assert (M02 : m 0%nat 2%nat = 99917 / 3933524) by lra.
    assert (M10 : m 1%nat 0%nat = 3639431 / 9833810) by lra.
    assert (M11 : m 1%nat 1%nat = 1995817 / 2809660) by lra.
    assert (M12 : m 1%nat 2%nat = 2230619 / 19667620) by lra.
    assert (M20 : m 2%nat 0%nat = 1868897 / 9833810) by lra.
    assert (M21 : m 2%nat 1%nat = 60287 / 702415) by lra.
    assert (M22 : m 2%nat 2%nat = 1868897 / 1966762) by lra.
    inverse_rows N; rewrite M00, M01, M02, M10, M11, M12, M20, M21, M22 in *; clear - I J N00 N01 N02 N10 N11 N12 N20 N21 N22.
    unfold backward. by_entry i j I J.
Qed.
Print Assumptions C56_st240_actual.

(** There are such matrices *)
Definition bt709_forward : nat -> nat -> R := fun i j => match i with 0%nat => match j with 0%nat => 506752 / 1228815 | 1%nat => 87098 / 409605 | _ => 7918 / 409605 end | 1%nat => match j with 0%nat => 87881 / 245763 | 1%nat => 175762 / 245763 | _ => 87881 / 737289 end | _ => match j with 0%nat => 12673 / 70218 | 1%nat => 12673 / 175545 | _ => 1001167 / 1053270 end end.
Definition bt709_backward : nat -> nat -> R := fun i j => match i with 0%nat => match j with 0%nat => 12831 / 3959 | 1%nat => (-851781) / 878810 | _ => 705 / 12673 end | 1%nat => match j with 0%nat => (-329) / 214 | 1%nat => 1648619 / 878810 | _ => (-2585) / 12673 end | _ => match j with 0%nat => (-1974) / 3959 | 1%nat => 36519 / 878810 | _ => 705 / 667 end end.

Example C56_example : standard_matrix PrBT709 bt709_forward /\ inverse_matrix bt709_forward bt709_backward.
Proof.
  split; [split|].
  - exists (87098 / 409605), (175762 / 245763), (12673 / 175545). intros j J.
    destruct j as [|[|[|j]]]; [| | |lia]; unfold bt709_forward, xyz_of; repeat split; lra.
  - intros j J. destruct j as [|[|[|j]]]; [| | |lia]; unfold bt709_forward, d65, xyz_of; lra.
  - intros i j I J. destruct i as [|[|[|i]]]; [| | |lia]; (destruct j as [|[|[|j]]]; [| | |lia]);
      unfold bt709_forward, bt709_backward; cbn [Nat.eqb]; lra.
Qed.
