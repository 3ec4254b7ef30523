(** Lemmas about the curves of ICtCp. *)

From Coq Require Import ZArith Bool Reals Lia Lra Psatz.
From Flocq Require Import Core.
From Verif Require Import Types SpecTransfer PowerProofs RecolorProofs PropTransfer.
Local Open Scope R_scope.

(** * PQ, encoding: relative changes *)

Lemma exp_small : forall x, 0 <= x <= 1 / 10 -> exp x <= 1 + 9 / 8 * x.
Proof.
  intros x X. pose proof (exp_ineq1_le (- x)) as N. rewrite exp_Ropp in N. pose proof (exp_pos x) as P.
  assert (E : exp x * / exp x = 1) by (field; lra). assert (exp x * (1 + - x) <= 1) by nra.
  apply Rnot_lt_le. intros G. assert (1 < exp x * (1 + - x)); [|lra].
  apply Rlt_le_trans with ((1 + 9 / 8 * x) * (1 + - x)); [|apply Rmult_le_compat_r; lra]. nra.
Qed.

Lemma power_times : forall a b p, 0 < a -> 0 < b -> power (a * b) p = power a p * power b p.
Proof. intros a b p A B. rewrite !power_pos by nra. symmetry. apply Rpower_mult_distr; assumption. Qed.

Lemma power_exp : forall z p, 0 <= z -> 0 <= p -> power (1 + z) p <= exp (p * z).
Proof.
  intros z p Z P. rewrite power_pos by lra. unfold Rpower.
  assert (L : ln (1 + z) <= z). { apply Rle_trans with (ln (exp z)); [|rewrite ln_exp; lra]. pose proof (exp_ineq1_le z) as [H|H]; [left; apply ln_increasing; lra|rewrite H; lra]. }
  assert (p * ln (1 + z) <= p * z) as [H|H] by nra; [left; apply exp_increasing, H|rewrite H; lra].
Qed.

Definition pq_fraction (y : R) : R := (c1 + c2 * y) / (1 + c3 * y).

Lemma pq_fraction_step : forall y k, 0 <= y -> 1 <= k -> pq_fraction (k * y) <= pq_fraction y * (1 + 48 / 1000 * (k - 1)).
Proof.
  intros y k Y K. assert (KY : y <= k * y) by nra. unfold pq_fraction. set (z := k * y) in *.
  assert (Z : z - y = (k - 1) * y) by (unfold z; ring).
  apply Rmult_le_reg_r with ((1 + c3 * z) * (1 + c3 * y)); [unfold c3; nra|].
  replace ((c1 + c2 * z) / (1 + c3 * z) * ((1 + c3 * z) * (1 + c3 * y))) with ((c1 + c2 * z) * (1 + c3 * y)) by (field; unfold c3; lra).
  replace ((c1 + c2 * y) / (1 + c3 * y) * (1 + 48 / 1000 * (k - 1)) * ((1 + c3 * z) * (1 + c3 * y)))
    with ((c1 + c2 * y) * (1 + c3 * z) * (1 + 48 / 1000 * (k - 1))) by (field; unfold c3; lra).
  assert (D : (c2 - c1 * c3) * y <= 48 / 1000 * ((c1 + c2 * y) * (1 + c3 * y))).
  { unfold c1, c2, c3. pose proof (Rle_0_sqr (y - 466 / 10000)) as Q. unfold Rsqr in Q. lra. }
  assert (M : (c1 + c2 * y) * (1 + c3 * y) <= (c1 + c2 * y) * (1 + c3 * z)).
  { apply Rmult_le_compat_l; [unfold c1, c2; lra|]. unfold c3. lra. }
  assert (E : (c2 - c1 * c3) * y * (k - 1) <= 48 / 1000 * ((c1 + c2 * y) * (1 + c3 * z)) * (k - 1)) by (apply Rmult_le_compat_r; lra).
  replace ((c1 + c2 * z) * (1 + c3 * y)) with ((c1 + c2 * y) * (1 + c3 * z) + (c2 - c1 * c3) * (z - y)) by ring. rewrite Z. nra.
Qed.

Lemma pq_fraction_mono : forall y z, 0 <= y <= z -> pq_fraction y <= pq_fraction z.
Proof.
  intros y z H. unfold pq_fraction. apply Rmult_le_reg_r with ((1 + c3 * z) * (1 + c3 * y)); [unfold c3; nra|].
  replace ((c1 + c2 * z) / (1 + c3 * z) * ((1 + c3 * z) * (1 + c3 * y))) with ((c1 + c2 * z) * (1 + c3 * y)) by (field; unfold c3; lra).
  replace ((c1 + c2 * y) / (1 + c3 * y) * ((1 + c3 * z) * (1 + c3 * y))) with ((c1 + c2 * y) * (1 + c3 * z)) by (field; unfold c3; lra).
  unfold c1, c2, c3. nra.
Qed.

Lemma pq_fraction_pos : forall y, 0 <= y -> 0 < pq_fraction y.
Proof. intros y Y. unfold pq_fraction. apply Rdiv_lt_0_compat; unfold c1, c2, c3; lra. Qed.

Lemma pq_relative : forall x x' d, 0 <= x <= x' -> x' <= x * (1 + d) -> 0 <= d <= 1 / 10 ->
  pq_encode x <= pq_encode x' <= pq_encode x * (1 + 7 / 10 * d).
Proof.
  intros x x' d X XX D. destruct (Req_dec x 0) as [-> |N].
  { assert (x' = 0) as -> by lra. pose proof (power_ge0 ((c1 + c2 * power (0 / 10000) m1) / (1 + c3 * power (0 / 10000) m1)) m2).
    unfold pq_encode. cbv zeta. split; [lra|]. nra. }
  unfold pq_encode. cbv zeta. fold (pq_fraction (power (x / 10000) m1)) (pq_fraction (power (x' / 10000) m1)).
  set (y := power (x / 10000) m1). set (y' := power (x' / 10000) m1).
  assert (Y0 : 0 < y) by (apply power_gt0; lra).
  assert (Y1 : y <= y') by (apply power_le; [unfold m1; lra|lra]).
  assert (Y2 : y' <= (1 + m1 * d) * y).
  { apply Rle_trans with (power (x / 10000 * (1 + d)) m1); [apply power_le; [unfold m1; lra|lra]|].
    rewrite power_times by lra. fold y. rewrite Rmult_comm. apply Rmult_le_compat_r; [lra|].
    replace d with (1 + d - 1) at 2 by ring. apply bernoulli; unfold m1; lra. }
  assert (F1 : pq_fraction y <= pq_fraction y') by (apply pq_fraction_mono; lra).
  pose proof (pq_fraction_pos y ltac:(lra)) as F0.
  assert (F2 : pq_fraction y' <= pq_fraction y * (1 + 48 / 1000 * (m1 * d))).
  { apply Rle_trans with (pq_fraction ((1 + m1 * d) * y)); [apply pq_fraction_mono; lra|].
    replace (m1 * d) with (1 + m1 * d - 1) at 2 by ring. apply pq_fraction_step; [lra|]. unfold m1. lra. }
  split; [apply power_le; [unfold m2; lra|lra]|].
  assert (Z : 0 <= 48 / 1000 * (m1 * d)) by (unfold m1; lra).
  apply Rle_trans with (power (pq_fraction y * (1 + 48 / 1000 * (m1 * d))) m2); [apply power_le; [unfold m2; lra|lra]|].
  rewrite power_times by lra. apply Rmult_le_compat_l; [apply power_ge0|].
  apply Rle_trans with (1 := power_exp _ m2 Z ltac:(unfold m2; lra)).
  apply Rle_trans with (1 := exp_small (m2 * (48 / 1000 * (m1 * d))) ltac:(unfold m1, m2; lra)). unfold m1, m2. lra.
Qed.

(** * PQ, decoding: absolute changes *)

Lemma bernoulli_ge : forall r q, 0 < r -> 1 <= q -> 1 + q * (r - 1) <= power r q.
Proof.
  intros r q R0 Q. pose proof (bernoulli (power r q) (/ q) (power_gt0 _ _ R0)) as B.
  assert (I : 0 < / q <= 1). { split; [apply Rinv_0_lt_compat; lra|]. apply Rle_trans with (/ 1); [apply Rinv_le_contravar; lra|lra]. }
  specialize (B ltac:(lra)). rewrite power_inv in B by (try lra; field; lra).
  apply Rmult_le_compat_l with (r := q) in B; [|lra]. rewrite Rmult_plus_distr_l, <- Rmult_assoc, Rinv_r in B by lra. lra.
Qed.

Lemma power_step : forall a b q, 0 <= a <= b -> 1 <= q -> 0 < b -> 0 <= power b q - power a q <= q * (power b q / b) * (b - a).
Proof.
  intros a b q A Q B. split; [assert (power a q <= power b q) by (apply power_le; lra); lra|].
  destruct (Req_dec a 0) as [-> |N].
  { rewrite power_0. replace (q * (power b q / b) * (b - 0)) with (q * power b q) by (field; lra). pose proof (power_ge0 b q). nra. }
  pose proof (bernoulli_ge (a / b) q) as G. assert (R0 : 0 < a / b) by (apply Rdiv_lt_0_compat; lra). specialize (G R0 Q).
  assert (E : power a q = power b q * power (a / b) q).
  { rewrite <- power_times by lra. f_equal. field. lra. }
  rewrite E. pose proof (power_ge0 b q).
  assert (power b q * (1 + q * (a / b - 1)) <= power b q * power (a / b) q) by (apply Rmult_le_compat_l; lra).
  replace (q * (power b q / b) * (b - a)) with (power b q - power b q * (1 + q * (a / b - 1))) by (field; lra). lra.
Qed.

(** The middle step *)
Definition pq_inner (e : R) : R := Rmax (e - c1) 0 / (c2 - c3 * e).
Lemma pq_decode_eq : forall x, pq_decode x = 10000 * power (pq_inner (power x (1 / m2))) (1 / m1).
Proof. reflexivity. Qed.

Lemma pq_inner_step : forall e e' h, 0 <= e <= e' -> 0 < h <= c2 - c3 * e' -> 0 <= pq_inner e' - pq_inner e <= 324 / 100 / (h * h) * (e' - e).
Proof.
  assert (G : forall e e' h, c1 <= e <= e' -> 0 < h <= c2 - c3 * e' ->
    0 <= (e' - c1) / (c2 - c3 * e') - (e - c1) / (c2 - c3 * e) <= 323 / 100 / (h * h) * (e' - e)).
  { intros e e' h E H. assert (H' : h <= c2 - c3 * e) by (unfold c3 in *; lra).
    replace ((e' - c1) / (c2 - c3 * e') - (e - c1) / (c2 - c3 * e)) with ((c2 - c1 * c3) * (e' - e) * / ((c2 - c3 * e') * (c2 - c3 * e)))
      by (field; lra).
    assert (P : 0 < h * h <= (c2 - c3 * e') * (c2 - c3 * e)) by nra.
    assert (I : 0 <= / ((c2 - c3 * e') * (c2 - c3 * e)) <= / (h * h)).
    { split; [left; apply Rinv_0_lt_compat; lra|apply Rinv_le_contravar; lra]. }
    assert (K : 0 <= c2 - c1 * c3 <= 323 / 100) by (unfold c1, c2, c3; lra).
    assert (K' : 0 <= (c2 - c1 * c3) * (e' - e) <= 323 / 100 * (e' - e)) by nra.
    split; [apply Rmult_le_pos; lra|].
    replace (323 / 100 / (h * h) * (e' - e)) with (323 / 100 * (e' - e) * / (h * h)) by (field; lra).
    apply Rmult_le_compat; lra. }
  intros e e' h E H. assert (HH : 0 < / (h * h)) by (apply Rinv_0_lt_compat; nra).
  unfold pq_inner. destruct (Rle_lt_dec c1 e) as [A|A].
  - rewrite !Rmax_left by lra. destruct (G e e' h ltac:(lra) H) as [L U]. split; [exact L|]. apply Rle_trans with (1 := U).
    apply Rmult_le_compat_r; [lra|]. unfold Rdiv. apply Rmult_le_compat_r; lra.
  - rewrite (Rmax_right (e - c1)) by lra. replace (0 / (c2 - c3 * e)) with 0 by (unfold Rdiv; ring). destruct (Rle_lt_dec c1 e') as [B|B].
    + rewrite Rmax_left by lra. destruct (G c1 e' h ltac:(lra) H) as [L U]. replace ((c1 - c1) / (c2 - c3 * c1)) with 0 in L, U by (unfold Rdiv; ring).
      split; [exact L|]. apply Rle_trans with (1 := U). unfold Rdiv. apply Rmult_le_compat; [|lra| |lra].
      * apply Rmult_le_pos; lra.
      * apply Rmult_le_compat_r; lra.
    + rewrite Rmax_right by lra. replace (0 / (c2 - c3 * e')) with 0 by (unfold Rdiv; ring). split; [lra|].
      replace (0 - 0) with 0 by ring. apply Rmult_le_pos; [|lra]. unfold Rdiv. apply Rmult_le_pos; lra.
Qed.

Lemma pq_inner_ge0 : forall e, e <= 1001 / 1000 -> 0 <= pq_inner e.
Proof. intros e E. unfold pq_inner. apply Rmult_le_pos; [apply Rmax_r|]. left. apply Rinv_0_lt_compat. unfold c2, c3. lra. Qed.

Lemma last_power : forall y Y, 0 < y <= Y -> Y <= 11 / 10 -> power y (1 / m1) / y <= 11 / 10 * Y ^ 5.
Proof.
  intros y Y H B. assert (E : power y (1 / m1) / y = power y (1 / m1 - 1)).
  { rewrite !power_pos by lra. replace (Rpower y (1 / m1)) with (Rpower y (1 / m1 - 1 + 1)) by (f_equal; ring).
    rewrite Rpower_plus, Rpower_1 by lra. field. lra. }
  rewrite E. apply Rle_trans with (power Y (1 / m1 - 1)); [apply power_le; [unfold m1; lra|lra]|].
  replace (power Y (1 / m1 - 1)) with (power Y (1 / m1 - 6) * Y ^ 5).
  - apply Rmult_le_compat_r; [apply pow_le; lra|]. apply Rle_trans with (1 := bernoulli Y (1 / m1 - 6) ltac:(lra) ltac:(unfold m1; lra)). unfold m1. lra.
  - rewrite !power_pos, <- Rpower_pow, <- Rpower_plus by lra. f_equal. cbn [INR]. ring.
Qed.

(** One step, on a part of the curve: [t] below, [E] the largest [e], [Y] the
    largest argument of the last power *)
Lemma pq_part : forall t T a b E h Y,
  0 < t <= a -> a <= b -> power t (1 / m2) <= T * t -> power b (1 / m2) <= E -> 0 < h <= c2 - c3 * E -> E <= 1001 / 1000 ->
  c1 <= E -> (E - c1) / h <= Y -> 0 < Y <= 11 / 10 ->
  0 <= pq_decode b - pq_decode a <= 10000 * (628 / 100 * (11 / 10 * Y ^ 5)) * (324 / 100 / (h * h) * (1 / m2 * T * (b - a))).
Proof.
  intros t T a b E h Y HT AB PT PB HH E1 E0 HY Y1.
  destruct (power_lip t a b (1 / m2) T HT AB ltac:(unfold m2; lra) PT) as [L1 U1].
  set (ea := power a (1 / m2)) in *. set (eb := power b (1 / m2)) in *.
  assert (EA : 0 <= ea) by apply power_ge0.
  assert (HB : 0 < h <= c2 - c3 * eb) by (unfold c3 in *; lra).
  destruct (pq_inner_step ea eb h ltac:(lra) HB) as [L2 U2].
  assert (I0 : 0 < / (h * h)) by (apply Rinv_0_lt_compat; nra).
  assert (U3 : pq_inner eb - pq_inner ea <= 324 / 100 / (h * h) * (1 / m2 * T * (b - a))).
  { apply Rle_trans with (1 := U2). apply Rmult_le_compat_l; [|exact U1]. unfold Rdiv. apply Rmult_le_pos; lra. }
  pose proof (pq_inner_ge0 ea ltac:(lra)) as P0.
  rewrite !pq_decode_eq. fold ea eb. set (ya := pq_inner ea) in *. set (yb := pq_inner eb) in *.
  destruct (Req_dec yb 0) as [Z|Z].
  { assert (YA : ya = 0) by lra. rewrite Z, YA, power_0. rewrite YA, Z in U3. split; [lra|].
    replace (10000 * 0 - 10000 * 0) with 0 by ring. apply Rmult_le_pos; [|lra]. assert (0 <= Y ^ 5) by (apply pow_le; lra). lra. }
  assert (YB : yb <= Y).
  { apply Rle_trans with (2 := HY). unfold yb, pq_inner. unfold Rdiv. apply Rmult_le_compat.
    - apply Rmax_r.
    - left. apply Rinv_0_lt_compat. lra.
    - apply Rmax_lub; lra.
    - apply Rinv_le_contravar; lra. }
  destruct (power_step ya yb (1 / m1) ltac:(lra) ltac:(unfold m1; lra) ltac:(lra)) as [L4 U4].
  pose proof (last_power yb Y ltac:(lra) ltac:(lra)) as LP.
  split; [lra|]. rewrite <- Rmult_minus_distr_l. rewrite (Rmult_assoc 10000). apply Rmult_le_compat_l; [lra|].
  apply Rle_trans with (1 := U4). assert (0 <= Y ^ 5) by (apply pow_le; lra).
  assert (0 <= power yb (1 / m1) / yb). { apply Rmult_le_pos; [apply power_ge0|]. left. apply Rinv_0_lt_compat. lra. }
  apply Rmult_le_compat; [apply Rmult_le_pos; [unfold m1; lra|lra]|lra| |exact U3].
  apply Rmult_le_compat; [unfold m1; lra|lra|unfold m1; lra|exact LP].
Qed.

Lemma power_bounded : forall x p, 0 <= x <= 1 -> 0 < p -> power x p <= 1.
Proof. intros x p X P. rewrite <- (power_1 p). apply power_le; lra. Qed.

Lemma pq_low : forall x, 0 <= x <= (56 / 100) ^ 8 -> 0 <= pq_decode x <= 4 / 100.
Proof.
  intros x X. rewrite pq_decode_eq. set (e := power x (1 / m2)).
  assert (E : e <= 9554 / 10000).
  { apply Rle_trans with (power ((56 / 100) ^ 8) (1 / m2)); [apply power_le; [unfold m2; lra|lra]|].
    assert (Q : power ((56 / 100) ^ 8) (1 / m2) = power (56 / 100) (8 * (1 / m2))).
    { rewrite <- (power_whole (56 / 100) 8) by lra. rewrite !power_pos by first [lra | apply power_gt0; lra | apply exp_pos]. rewrite Rpower_mult. f_equal. cbn [INR]. ring. }
    rewrite Q. apply Rle_trans with (1 := bernoulli (56 / 100) (8 * (1 / m2)) ltac:(lra) ltac:(unfold m2; lra)). unfold m2. lra. }
  pose proof (pq_inner_ge0 e ltac:(lra)) as P. set (y := pq_inner e) in *. split; [pose proof (power_ge0 y (1 / m1)); lra|].
  destruct (Req_dec y 0) as [-> |N]; [rewrite power_0; lra|].
  assert (Y : y <= 12 / 100).
  { unfold y, pq_inner. apply Rmult_le_reg_r with (c2 - c3 * e); [unfold c2, c3; lra|]. unfold Rdiv at 1. rewrite Rmult_assoc, Rinv_l by (unfold c2, c3; lra).
    rewrite Rmult_1_r. apply Rmax_lub; unfold c1, c2, c3; lra. }
  pose proof (last_power y (12 / 100) ltac:(lra) ltac:(lra)) as L.
  assert (power y (1 / m1) <= y * (11 / 10 * (12 / 100) ^ 5)).
  { replace (power y (1 / m1)) with (y * (power y (1 / m1) / y)) by (field; lra). apply Rmult_le_compat_l; lra. }
  assert (y * (11 / 10 * (12 / 100) ^ 5) <= 12 / 100 * (11 / 10 * (12 / 100) ^ 5)) by (apply Rmult_le_compat_r; lra). lra.
Qed.

Lemma pq_decode_close : forall a b, 0 <= a <= b -> b <= a + 2 / 10000000 -> b <= 1 + 1 / 20000 -> 0 <= pq_decode b - pq_decode a <= 5 / 100.
Proof.
  intros a b A AB B. destruct (Rle_lt_dec (49 / 100) a) as [H|H]; [|destruct (Rle_lt_dec (9 / 1000) a) as [M|M]].
  - destruct (pq_part (49 / 100) (100 / 49) a b (1 + 1 / 1000000) (164 / 1000) (1001 / 1000)) as [L U]; try (unfold c1, c2, c3; lra).
    + pose proof (power_bounded (49 / 100) (1 / m2) ltac:(lra) ltac:(unfold m2; lra)). lra.
    + apply Rle_trans with (1 := bernoulli b (1 / m2) ltac:(lra) ltac:(unfold m2; lra)). unfold m2. lra.
    + split; [exact L|]. apply Rle_trans with (1 := U). unfold m2. lra.
  - destruct (pq_part (9 / 1000) (1000 / 9) a b (99366 / 100000) (282 / 1000) (56 / 100)) as [L U]; try (unfold c1, c2, c3; lra).
    + pose proof (power_bounded (9 / 1000) (1 / m2) ltac:(lra) ltac:(unfold m2; lra)). lra.
    + apply Rle_trans with (1 := bernoulli b (1 / m2) ltac:(lra) ltac:(unfold m2; lra)). unfold m2. lra.
    + split; [exact L|]. apply Rle_trans with (1 := U). unfold m2. lra.
  - pose proof (pq_low a ltac:(lra)) as LA. pose proof (pq_low b ltac:(lra)) as LB. split; [|lra].
    assert (pq_decode a <= pq_decode b); [|lra]. rewrite !pq_decode_eq. apply Rmult_le_compat_l; [lra|].
    assert (E : power a (1 / m2) <= power b (1 / m2)) by (apply power_le; [unfold m2; lra|lra]).
    pose proof (power_bounded b (1 / m2) ltac:(lra) ltac:(unfold m2; lra)) as EB. pose proof (power_ge0 a (1 / m2)) as EA.
    destruct (pq_inner_step (power a (1 / m2)) (power b (1 / m2)) (164 / 1000) ltac:(lra) ltac:(unfold c2, c3; lra)) as [L _].
    pose proof (pq_inner_ge0 (power a (1 / m2)) ltac:(lra)).
    apply power_le; [unfold m1; lra|lra].
Qed.

Lemma pq_decode_near : forall a b, 0 <= a <= 1 + 1 / 20000 -> 0 <= b <= 1 + 1 / 20000 -> Rabs (b - a) <= 2 / 10000000 ->
  Rabs (pq_decode b - pq_decode a) <= 5 / 100.
Proof.
  intros a b A B D. apply Rabs_le_inv in D. apply Rabs_le. destruct (Rle_lt_dec a b).
  - pose proof (pq_decode_close a b ltac:(lra) ltac:(lra) ltac:(lra)). lra.
  - pose proof (pq_decode_close b a ltac:(lra) ltac:(lra) ltac:(lra)). lra.
Qed.

(** * HLG *)

Lemma ln_step : forall a b, 0 < a <= b -> 0 <= ln b - ln a <= (b - a) / a.
Proof.
  intros a b A. split.
  - destruct A as [A [B| ->]]; [|lra]. pose proof (ln_increasing a b A B). lra.
  - replace (ln b - ln a) with (ln (b / a)) by (unfold Rdiv; rewrite ln_mult, ln_Rinv by (try apply Rinv_0_lt_compat; lra); ring).
    apply Rle_trans with (ln (exp ((b - a) / a))); [|rewrite ln_exp; lra].
    assert (b / a <= exp ((b - a) / a)) as [H|H].
    { replace (b / a) with (1 + (b - a) / a) by (field; lra). apply exp_ineq1_le. }
    + left. apply ln_increasing; [apply Rdiv_lt_0_compat; lra|exact H].
    + rewrite H. lra.
Qed.

Lemma hlg_high : forall x, 1 / 12 <= x <= 2 -> 1 / 2 - 1 / 1000000 <= ha * ln (12 * x - hb) + hc <= 1 / 2 + ha * (12 * x - 1) / (1 - hb).
Proof.
  intros x X. pose proof knee_close as [K1 K2]. destruct (ln_step (1 - hb) (12 * x - hb) ltac:(unfold hb; lra)) as [L U].
  assert (B : ln (1 - hb) <= - hlg_knee). { apply ln_le; [unfold hb; lra|]. unfold hb. lra. }
  assert (B' : - hlg_knee - 1 / 1000000 <= ln (1 - hb)).
  { apply ln_ge. replace (- hlg_knee - 1 / 1000000) with (- hlg_knee + - (1 / 1000000)) by ring. rewrite exp_plus.
    assert (exp (- (1 / 1000000)) <= / (1 + 1 / 1000000)).
    { rewrite exp_Ropp. apply Rinv_le_contravar; [lra|]. left. apply exp_ineq1. lra. }
    pose proof (exp_pos (- (1 / 1000000))). unfold hb in *. nra. }
  replace (12 * x - hb - (1 - hb)) with (12 * x - 1) in U by ring.
  assert (C : ha * - hlg_knee + hc = 1 / 2) by (unfold hlg_knee, ha, hc; field).
  assert (ha * ln (12 * x - hb) <= ha * (ln (1 - hb) + (12 * x - 1) / (1 - hb))) by (apply Rmult_le_compat_l; [unfold ha|]; lra).
  assert (ha * ln (1 - hb) <= ha * - hlg_knee) by (apply Rmult_le_compat_l; [unfold ha|]; lra).
  assert (ha * (- hlg_knee - 1 / 1000000) <= ha * ln (12 * x - hb)) by (apply Rmult_le_compat_l; [unfold ha|]; lra).
  replace (ha * (12 * x - 1) / (1 - hb)) with (ha * ((12 * x - 1) / (1 - hb))) by (unfold Rdiv; ring).
  split; [|lra]. assert (ha * (1 / 1000000) <= 1 / 1000000) by (unfold ha; lra). lra.
Qed.

Lemma hlg_relative : forall x x' d, 0 <= x <= x' -> x' <= x * (1 + d) -> 0 <= d <= 1 / 10 -> x' <= 2 ->
  hlg_encode x - 1 / 1000000 <= hlg_encode x' <= hlg_encode x + d / 2.
Proof.
  intros x x' d X XX D T. unfold hlg_encode. destruct (Rle_dec x (1 / 12)) as [L|L]; destruct (Rle_dec x' (1 / 12)) as [L'|L']; try lra.
  - split; [assert (sqrt (3 * x) <= sqrt (3 * x')) by (apply sqrt_le_1_alt; lra); lra|].
    assert (S : sqrt (3 * x) <= 1 / 2). { rewrite <- (sqrt_square (1 / 2)) by lra. apply sqrt_le_1_alt. lra. }
    pose proof (sqrt_pos (3 * x)) as S0.
    assert (Q : sqrt (3 * x') <= sqrt (3 * x) * (1 + d / 2)).
    { rewrite <- (sqrt_square (sqrt (3 * x) * (1 + d / 2))) by nra. apply sqrt_le_1_alt.
      replace (sqrt (3 * x) * (1 + d / 2) * (sqrt (3 * x) * (1 + d / 2))) with (sqrt (3 * x) * sqrt (3 * x) * ((1 + d / 2) * (1 + d / 2))) by ring.
      rewrite sqrt_sqrt by lra. nra. }
    nra.
  - pose proof (hlg_high x' ltac:(lra)) as [H1 H2].
    assert (S : 12 * x / 2 <= sqrt (3 * x) <= 1 / 2).
    { split.
      - rewrite <- (sqrt_square (12 * x / 2)) by lra. apply sqrt_le_1_alt. nra.
      - rewrite <- (sqrt_square (1 / 2)) by lra. apply sqrt_le_1_alt. lra. }
    split; [lra|]. apply Rle_trans with (1 := H2). unfold ha, hb in *. nra.
  - destruct (ln_step (12 * x - hb) (12 * x' - hb) ltac:(unfold hb; lra)) as [A B].
    split; [unfold ha; lra|].
    assert (C : (12 * x' - hb - (12 * x - hb)) / (12 * x - hb) <= 2 * d).
    { apply Rmult_le_reg_r with (12 * x - hb); [unfold hb; lra|]. unfold Rdiv. rewrite Rmult_assoc, Rinv_l by (unfold hb; lra). unfold hb. nra. }
    unfold ha. lra.
Qed.

Lemma hlg_exp_step : forall a b, 1 / 2 <= a <= b -> b <= 1 + 1 / 20000 -> b - a <= 2 / 10000000 ->
  0 <= power e' ((b - hc) / ha) - power e' ((a - hc) / ha) <= 2 / 100000.
Proof.
  intros a b A B D. rewrite !hlg_power. pose proof e_close as [C1 C2].
  set (u := (a - hc) / ha * ln e'). set (v := (b - hc) / ha * ln e').
  assert (UV : 0 <= v - u <= 12 / 10000000).
  { replace (v - u) with ((b - a) / ha * ln e') by (unfold u, v; unfold ha; field). unfold ha. nra. }
  assert (V : exp v <= 13).
  { apply Rle_trans with (exp (256 / 100)).
    - assert (v <= 256 / 100) as [H|H].
      { assert (P1 : (b - hc) / ha <= 24620 / 10000) by (unfold hc, ha; lra).
        destruct (Rle_lt_dec 0 ((b - hc) / ha)); unfold v; nra. }
      + left. apply exp_increasing, H.
      + rewrite H. lra.
    - replace (256 / 100) with (64 / 100 + 64 / 100 + 64 / 100 + 64 / 100) by field. rewrite !exp_plus.
      destruct (exp_close (64 / 100) ltac:(lra)) as [L _]. unfold exp_poly in L. rewrite exp_Ropp in L. pose proof (exp_pos (64 / 100)) as P.
      assert (E : exp (64 / 100) * / exp (64 / 100) = 1) by (field; lra). set (x := exp (64 / 100)) in *.
      assert (x <= 18966 / 10000) by nra. assert (x * x <= 35971 / 10000) by nra. assert (0 <= x * x) by nra. nra. }
  assert (E : exp v = exp u * exp (v - u)) by (rewrite <- exp_plus; f_equal; ring).
  pose proof (exp_small (v - u) ltac:(lra)) as S. pose proof (exp_ineq1_le (v - u)). pose proof (exp_pos u). pose proof (exp_pos v).
  assert (exp u <= exp v) by nra. split; [lra|]. rewrite E. nra.
Qed.

Lemma hlg_decode_close : forall a b, 0 <= a <= b -> b <= a + 2 / 10000000 -> b <= 1 + 1 / 20000 -> Rabs (hlg_decode b - hlg_decode a) <= 2 / 1000000.
Proof.
  intros a b A AB B. unfold hlg_decode. apply Rabs_le. destruct (Rle_dec a (1 / 2)) as [L|L]; destruct (Rle_dec b (1 / 2)) as [L'|L']; try lra.
  - nra.
  - destruct (hlg_exp_step (1 / 2) b ltac:(lra) B ltac:(lra)) as [S1 S2]. pose proof knee_close as [K1 K2].
    assert (K : power e' ((1 / 2 - hc) / ha) = exp (- hlg_knee) * exp (- hlg_knee * (ln e' - 1))).
    { rewrite hlg_power, <- exp_plus. f_equal. unfold hlg_knee, ha. field. }
    pose proof e_close as [C1 C2].
    assert (N : Rabs (exp (- hlg_knee * (ln e' - 1)) - 1) <= 2 * Rabs (- hlg_knee * (ln e' - 1))).
    { apply exp_near_1. apply Rabs_le. unfold hlg_knee, hc, ha. nra. }
    assert (N' : Rabs (- hlg_knee * (ln e' - 1)) <= 1 / 10000000). { apply Rabs_le. unfold hlg_knee, hc, ha. nra. }
    assert (N'' : Rabs (exp (- hlg_knee * (ln e' - 1)) - 1) <= 2 / 10000000) by lra. apply Rabs_le_inv in N''.
    set (z := exp (- hlg_knee * (ln e' - 1))) in *. rewrite K in S1, S2. clearbody z. set (w := exp (- hlg_knee)) in *. clearbody w.
    assert (W : w - 2 / 10000000 <= w * z <= w + 2 / 10000000) by nra. unfold hb. nra.
  - destruct (hlg_exp_step a b ltac:(lra) B ltac:(lra)) as [S1 S2]. lra.
Qed.

Lemma hlg_decode_near : forall a b, 0 <= a <= 1 + 1 / 20000 -> 0 <= b <= 1 + 1 / 20000 -> Rabs (b - a) <= 2 / 10000000 ->
  Rabs (hlg_decode b - hlg_decode a) <= 2 / 1000000.
Proof.
  intros a b A B D. apply Rabs_le_inv in D. destruct (Rle_lt_dec a b).
  - apply hlg_decode_close; lra.
  - rewrite <- Rabs_Ropp, Ropp_minus_distr. apply hlg_decode_close; lra.
Qed.

(** * White *)

Lemma pq_white : pq_encode 10000 <= 1 + 1 / 100000.
Proof.
  unfold pq_encode. cbv zeta. replace (10000 / 10000) with 1 by field. rewrite power_1.
  replace ((c1 + c2 * 1) / (1 + c3 * 1)) with (1 + 1 / 39375000) by (unfold c1, c2, c3; field).
  apply Rle_trans with (1 := power_exp (1 / 39375000) m2 ltac:(lra) ltac:(unfold m2; lra)).
  apply Rle_trans with (1 := exp_small (m2 * (1 / 39375000)) ltac:(unfold m2; lra)). unfold m2. lra.
Qed.

Lemma hlg_white : hlg_encode 1 <= 1 + 1 / 100000.
Proof.
  unfold hlg_encode. destruct (Rle_dec _ _); [lra|]. assert (L : ln (12 * 1 - hb) <= 4 * (61523 / 100000)).
  { apply ln_le; [unfold hb; lra|]. replace (4 * (61523 / 100000)) with (61523 / 100000 + 61523 / 100000 + 61523 / 100000 + 61523 / 100000) by field.
    rewrite !exp_plus. destruct (exp_close (61523 / 100000) ltac:(lra)) as [_ U]. unfold exp_poly in U. rewrite exp_Ropp in U. pose proof (exp_pos (61523 / 100000)) as P.
    assert (E : exp (61523 / 100000) * / exp (61523 / 100000) = 1) by (field; lra). set (x := exp (61523 / 100000)) in *. unfold hb.
    assert (1850080 / 1000000 <= x) by nra. assert (3422796 / 1000000 <= x * x) by nra. nra. }
  unfold ha, hc. lra.
Qed.
