(** Lemmas about powers and logarithms. *)

From Coq Require Import Reals Lra Lia Psatz.
From Verif Require Import SpecTransfer.
Local Open Scope R_scope.

Lemma power_pos : forall x y, 0 < x -> power x y = Rpower x y.
Proof. intros x y H. unfold power. destruct (Rle_dec x 0); [lra|reflexivity]. Qed.

Lemma power_0 : forall y, power 0 y = 0.
Proof. intros y. unfold power. destruct (Rle_dec 0 0); [reflexivity|lra]. Qed.

Lemma power_1 : forall y, power 1 y = 1.
Proof. intros y. rewrite power_pos by lra. unfold Rpower. rewrite ln_1, Rmult_0_r. apply exp_0. Qed.

Lemma power_gt0 : forall x y, 0 < x -> 0 < power x y.
Proof. intros x y H. rewrite power_pos by exact H. apply exp_pos. Qed.

Lemma power_ge0 : forall x y, 0 <= power x y.
Proof. intros x y. unfold power. destruct (Rle_dec x 0); [lra|]. left. apply exp_pos. Qed.

Lemma power_lt : forall a b y, 0 < y -> 0 <= a < b -> power a y < power b y.
Proof.
  intros a b y Hy [Ha Hb]. destruct (Req_dec a 0) as [-> |N].
  - rewrite power_0. apply power_gt0. lra.
  - rewrite !power_pos by lra. unfold Rpower. apply exp_increasing. apply Rmult_lt_compat_l; [exact Hy|]. apply ln_increasing; lra.
Qed.

Lemma power_le : forall a b y, 0 < y -> 0 <= a <= b -> power a y <= power b y.
Proof.
  intros a b y Hy [Ha [Hb| ->]]; [|lra]. left. apply power_lt; [exact Hy|]. split; assumption.
Qed.

Lemma power_inv : forall x y z, 0 <= x -> y * z = 1 -> power (power x y) z = x.
Proof.
  intros x y z H E. destruct (Req_dec x 0) as [-> |N]; [rewrite !power_0; reflexivity|].
  rewrite (power_pos x) by lra. rewrite power_pos by apply exp_pos. rewrite Rpower_mult, E. apply Rpower_1. lra.
Qed.

(** [x ^ (p/q)] against [t], by whole powers *)
Lemma power_nat : forall x y q, 0 < x -> power x y ^ q = power x (y * INR q).
Proof.
  intros x y q H. rewrite !power_pos by exact H. rewrite <- Rpower_pow by apply exp_pos. apply Rpower_mult.
Qed.

Lemma power_whole : forall x p, 0 < x -> power x (INR p) = x ^ p.
Proof. intros x p H. rewrite power_pos by exact H. apply Rpower_pow, H. Qed.

Lemma pow_cancel : forall a b q, 0 <= b -> a ^ q < b ^ q -> a < b.
Proof.
  intros a b q H L. destruct (Rlt_le_dec a b) as [|G]; [assumption|].
  exfalso. pose proof (pow_incr b a q (conj H G)). lra.
Qed.

Lemma power_below : forall x y t p q, 0 < x -> 0 <= t -> y * INR q = INR p -> x ^ p < t ^ q -> power x y < t.
Proof.
  intros x y t p q H T E L. apply (pow_cancel _ _ q T). rewrite power_nat by exact H. rewrite E, power_whole by exact H. exact L.
Qed.

Lemma power_above : forall x y t p q, 0 < x -> 0 <= t -> y * INR q = INR p -> t ^ q < x ^ p -> t < power x y.
Proof.
  intros x y t p q H T E L. apply (pow_cancel _ _ q (power_ge0 _ _)). rewrite power_nat by exact H. rewrite E, power_whole by exact H. exact L.
Qed.

(** * Bounds for exp and ln *)

Definition exp_terms (t : R) (n : nat) : R := / INR (fact n) * t ^ n.

Lemma exp_alternates : forall t, Un_cv (fun N => sum_f_R0 (tg_alt (exp_terms t)) N) (exp (- t)).
Proof.
  intros t. unfold exp. destruct (exist_exp (- t)) as [l H]. cbn [proj1_sig].
  unfold exp_in, infinite_sum in H. intros eps E. destruct (H eps E) as [N HN]. exists N. intros n G.
  specialize (HN n G). replace (sum_f_R0 (tg_alt (exp_terms t)) n) with (sum_f_R0 (fun i => / INR (fact i) * (- t) ^ i) n); [exact HN|].
  apply sum_eq. intros i _. unfold tg_alt, exp_terms. replace (- t) with (-1 * t) by ring. rewrite Rpow_mult_distr. ring.
Qed.

Lemma exp_terms_decrease : forall t, 0 <= t <= 1 -> Un_decreasing (exp_terms t).
Proof.
  intros t T n. unfold exp_terms. change (t ^ S n) with (t * t ^ n).
  assert (P : 0 <= t ^ n) by (apply pow_le; lra).
  assert (F : / INR (fact (S n)) <= / INR (fact n)).
  { apply Rinv_le_contravar; [apply lt_0_INR, lt_O_fact|]. apply le_INR. rewrite fact_simpl. nia. }
  assert (F0 : 0 < / INR (fact n)) by (apply Rinv_0_lt_compat, lt_0_INR, lt_O_fact).
  apply Rle_trans with (/ INR (fact n) * (t * t ^ n)).
  - apply Rmult_le_compat_r; [|exact F]. apply Rmult_le_pos; lra.
  - apply Rmult_le_compat_l; [lra|]. nra.
Qed.

Lemma exp_terms_vanish : forall t, 0 <= t <= 1 -> Un_cv (exp_terms t) 0.
Proof.
  intros t T. intros eps E. destruct (cv_speed_pow_fact t eps E) as [N H]. exists N. intros n G.
  specialize (H n G). unfold exp_terms. unfold Rdiv in H. rewrite Rmult_comm. exact H.
Qed.

Lemma exp_between : forall t N, 0 <= t <= 1 ->
  sum_f_R0 (tg_alt (exp_terms t)) (S (2 * N)) <= exp (- t) <= sum_f_R0 (tg_alt (exp_terms t)) (2 * N).
Proof.
  intros t N T. apply alternated_series_ineq.
  - apply exp_terms_decrease, T.
  - apply exp_terms_vanish, T.
  - apply exp_alternates.
Qed.

(** The first terms *)
Definition exp_poly (t : R) : R :=
  1 - t + t ^ 2 / 2 - t ^ 3 / 6 + t ^ 4 / 24 - t ^ 5 / 120 + t ^ 6 / 720 - t ^ 7 / 5040 + t ^ 8 / 40320 - t ^ 9 / 362880 + t ^ 10 / 3628800.

Fixpoint zfact (n : nat) : Z := match n with O => 1 | S m => Z.of_nat (S m) * zfact m end%Z.

Lemma INR_fact : forall n, INR (fact n) = IZR (zfact n).
Proof.
  induction n as [|n IH]; [reflexivity|]. rewrite fact_simpl, mult_INR, IH. cbn [zfact]. rewrite mult_IZR, <- INR_IZR_INZ. reflexivity.
Qed.

Lemma exp_close : forall t, 0 <= t <= 1 -> exp_poly t - t ^ 11 / 39916800 <= exp (- t) <= exp_poly t.
Proof.
  intros t T. pose proof (exp_between t 5 T) as [L U].
  assert (E : sum_f_R0 (tg_alt (exp_terms t)) (2 * 5) = exp_poly t).
  { cbn [Nat.mul Nat.add sum_f_R0]. unfold tg_alt, exp_terms, exp_poly. rewrite !INR_fact.
    repeat match goal with |- context [zfact ?n] => let z := eval vm_compute in (zfact n) in change (zfact n) with z end.
    cbn [pow]. field. }
  split; [|lra].
  eapply Rle_trans; [|exact L]. rewrite tech5, E. right. unfold tg_alt, exp_terms. rewrite INR_fact.
  change (zfact (S (2 * 5))) with 39916800%Z. cbn [Nat.mul Nat.add pow]. field.
Qed.
