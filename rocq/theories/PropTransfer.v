(** C35, C36: the transfer functions over exact arithmetic. *)

From Coq Require Import ZArith Bool Reals Lia Lra Psatz.
From Verif Require Import Types F32 Vector Color ColorR SpecTransfer PowerProofs.
Local Open Scope R_scope.

(** The transfer functions of the code, over the reals *)
Definition encode (t : color_transfer) (x : R) : R := linear_to_scaled (F := R) (V := R) (M := bool) t x.
Definition decode (t : color_transfer) (x : R) : R := scaled_to_linear (F := R) (V := R) (M := bool) t x.

Ltac lits :=
  unfold R_lit;
  repeat match goal with
  | |- context [IZR (10 ^ ?k)] => let v := eval vm_compute in (10 ^ k)%Z in change (10 ^ k)%Z with v
  end.

Ltac run_transfer :=
  cbv [encode decode linear_to_scaled scaled_to_linear gamma_linear_to_scaled gamma_scaled_to_linear
       srgb_linear_to_scaled srgb_scaled_to_linear sdr_linear_to_scaled sdr_scaled_to_linear
       pq_linear_to_scaled pq_scaled_to_linear hlg_linear_to_scaled hlg_scaled_to_linear
       pq_m1 pq_m2 pq_c1 pq_c2 pq_c3 pq_l hlg_a hlg_b hlg_c hlg_e
       lit0 lit1 lit2 lit_half vadd vsub vmul vdiv vmax vlt vle select vpow vln vsqrt splat
       vaddf vsubf vmulf vdivf vmaxf vltf vlef vpowf R_vops lane_vops
       l_lt l_le l_max l_pow l_ln R_lane fadd fsub fmul fdiv fneg fsqrt flit R_ops]; fold power; lits;
  change R_pow with power.

Lemma pq_max0 : forall x, 0 <= x -> Rmax x (0 / 1) = x.
Proof. intros x H. replace (0 / 1) with 0 by field. apply Rmax_left, H. Qed.

(** The code computes these functions. *)
Theorem C35_formulas : forall x, 0 <= x ->
  encode TLinear x = x /\ decode TLinear x = x /\
  encode TGamma22 x = power x (10 / 22) /\ decode TGamma22 x = power x (22 / 10) /\
  encode TGamma28 x = power x (10 / 28) /\ decode TGamma28 x = power x (28 / 10) /\
  encode TSRGB x = srgb_encode x /\ decode TSRGB x = srgb_decode x /\
  encode TSDR x = sdr_encode x /\ decode TSDR x = sdr_decode x /\
  encode TBT2100PQ x = pq_encode x /\ decode TBT2100PQ x = pq_decode x /\
  encode TBT2100HLG x = hlg_encode x /\ decode TBT2100HLG x = hlg_decode x.
Proof.
  intros x H.
  split; [run_transfer; reflexivity|]. split; [run_transfer; reflexivity|].
  split; [run_transfer; f_equal; field|]. split; [run_transfer; f_equal; field|].
  split; [run_transfer; f_equal; field|]. split; [run_transfer; f_equal; field|].
  split.
  { run_transfer. unfold srgb_encode. replace (1 / 1 / (24 / 10)) with (5 / 12) by field.
    destruct (Rle_dec _ _); [ring|reflexivity]. }
  split.
  { run_transfer. unfold srgb_decode. replace (24 / 10) with (12 / 5) by field. destruct (Rle_dec _ _); reflexivity. }
  split.
  { run_transfer. unfold sdr_encode. replace (45 / 100) with (9 / 20) by field. destruct (Rlt_dec _ _); [field|reflexivity]. }
  split.
  { run_transfer. unfold sdr_decode. replace (1 / 1 / (45 / 100)) with (20 / 9) by field. destruct (Rlt_dec _ _); [field|reflexivity]. }
  split.
  { run_transfer. unfold pq_encode. cbv zeta. rewrite pq_max0 by exact H. replace (10000 / 1) with 10000 by field.
    fold m1 m2 c1 c2 c3. f_equal. f_equal; [ring|field_simplify; ring]. }
  split.
  { run_transfer. unfold pq_decode. cbv zeta. rewrite !(pq_max0 x) by exact H. replace (10000 / 1) with 10000 by field.
    fold m1 m2 c1 c2 c3. replace (1 / 1 / m2) with (1 / m2) by (unfold m2; field). replace (1 / 1 / m1) with (1 / m1) by (unfold m1; field).
    replace (0 / 1) with 0 by field. rewrite Rmult_comm. f_equal. f_equal. f_equal. ring. }
  split.
  { run_transfer. rewrite !(pq_max0 x) by exact H. replace (1 / 1 / (12 / 1)) with (1 / 12) by field. unfold hlg_encode. fold ha hb hc.
    destruct (Rle_dec _ _); [f_equal; field|]. f_equal. f_equal. f_equal. field. }
  { run_transfer. rewrite !(pq_max0 x) by exact H. replace (5 / 10) with (1 / 2) by field. unfold hlg_decode. fold ha hb hc e'.
    destruct (Rle_dec _ _).
    - f_equal; [|field]. destruct (Req_dec x 0) as [-> |N]; [rewrite power_0; ring|].
      replace (2 / 1) with (INR 2) by (cbn; field). rewrite power_whole by lra. ring.
    - f_equal. field. }
Qed.
Print Assumptions C35_formulas.

(** * C35 *)

Ltac formulas x H :=
  let F1 := fresh in pose proof (C35_formulas x H) as F1;
  destruct F1 as (? & ? & ? & ? & ? & ? & ? & ? & ? & ? & ? & ? & ? & ?).

(** A transfer function without a linear part is undone exactly. *)
Theorem C35_inverse : forall t x, t = TLinear \/ t = TGamma22 \/ t = TGamma28 -> 0 <= x ->
  decode t (encode t x) = x /\ encode t (decode t x) = x.
Proof.
  intros t x [-> |[-> | ->]] H.
  - split; reflexivity.
  - destruct (C35_formulas x H) as (_ & _ & -> & -> & _).
    destruct (C35_formulas (power x (10 / 22)) (power_ge0 _ _)) as (_ & _ & _ & -> & _).
    destruct (C35_formulas (power x (22 / 10)) (power_ge0 _ _)) as (_ & _ & -> & _).
    split; apply power_inv; lra.
  - destruct (C35_formulas x H) as (_ & _ & _ & _ & -> & -> & _).
    destruct (C35_formulas (power x (10 / 28)) (power_ge0 _ _)) as (_ & _ & _ & _ & _ & -> & _).
    destruct (C35_formulas (power x (28 / 10)) (power_ge0 _ _)) as (_ & _ & _ & _ & -> & _).
    split; apply power_inv; lra.
Qed.
Print Assumptions C35_inverse.

Lemma encode_srgb : forall x, 0 <= x -> encode TSRGB x = srgb_encode x.
Proof. intros x H. apply (C35_formulas x H). Qed.
Lemma decode_srgb : forall x, 0 <= x -> decode TSRGB x = srgb_decode x.
Proof. intros x H. apply (C35_formulas x H). Qed.
Lemma encode_sdr : forall x, 0 <= x -> encode TSDR x = sdr_encode x.
Proof. intros x H. apply (C35_formulas x H). Qed.
Lemma decode_sdr : forall x, 0 <= x -> decode TSDR x = sdr_decode x.
Proof. intros x H. apply (C35_formulas x H). Qed.
Lemma encode_pq : forall x, 0 <= x -> encode TBT2100PQ x = pq_encode x.
Proof. intros x H. apply (C35_formulas x H). Qed.
Lemma decode_pq : forall x, 0 <= x -> decode TBT2100PQ x = pq_decode x.
Proof. intros x H. apply (C35_formulas x H). Qed.
Lemma encode_hlg : forall x, 0 <= x -> encode TBT2100HLG x = hlg_encode x.
Proof. intros x H. apply (C35_formulas x H). Qed.
Lemma decode_hlg : forall x, 0 <= x -> decode TBT2100HLG x = hlg_decode x.
Proof. intros x H. apply (C35_formulas x H). Qed.

(** sRGB is undone exactly but for the values between the two thresholds, which
    do not fit together in the last digit. *)
Lemma srgb_above : forall x, 31309 / 10000000 <= x -> (4045 / 100000 + 55 / 1000) / (1055 / 1000) < power x (5 / 12).
Proof.
  intros x H. apply Rlt_le_trans with (power (31309 / 10000000) (5 / 12)).
  - apply (power_above _ _ _ 5 12); [lra|lra|cbn; field|]. lra.
  - apply power_le; lra.
Qed.

Theorem C35_srgb_inverse : forall x, 0 <= x ->
  (x <= 31308 / 10000000 \/ 31309 / 10000000 <= x -> decode TSRGB (encode TSRGB x) = x) /\
  (x <= 40449936 / 1000000000 \/ 4045 / 100000 < x -> encode TSRGB (decode TSRGB x) = x).
Proof.
  intros x H. rewrite (encode_srgb x), (decode_srgb x) by exact H. split; intros [L|L].
  - unfold srgb_encode. destruct (Rle_dec _ _); [|lra]. rewrite decode_srgb by lra. unfold srgb_decode. destruct (Rle_dec _ _); [field|lra].
  - unfold srgb_encode. destruct (Rle_dec _ _); [lra|]. pose proof (srgb_above x L) as A.
    rewrite decode_srgb by lra. unfold srgb_decode. destruct (Rle_dec _ _); [lra|].
    replace ((1055 / 1000 * power x (5 / 12) - 55 / 1000 + 55 / 1000) / (1055 / 1000)) with (power x (5 / 12)) by field.
    apply power_inv; lra.
  - unfold srgb_decode. destruct (Rle_dec _ _); [|lra]. rewrite encode_srgb by lra. unfold srgb_encode. destruct (Rle_dec _ _); [field|lra].
  - unfold srgb_decode. destruct (Rle_dec _ _); [lra|].
    assert (A : 31308 / 10000000 < power ((x + 55 / 1000) / (1055 / 1000)) (12 / 5)).
    { apply Rlt_trans with (power ((4045 / 100000 + 55 / 1000) / (1055 / 1000)) (12 / 5)).
      - apply (power_above _ _ _ 12 5); [lra|lra|cbn; field|]. lra.
      - apply power_lt; lra. }
    rewrite encode_srgb by lra. unfold srgb_encode. destruct (Rle_dec _ _); [lra|].
    rewrite (power_inv _ (12 / 5)) by lra. field.
Qed.
Print Assumptions C35_srgb_inverse.

(** PQ is undone exactly. *)
Lemma pq_ratio : forall y, 0 <= y -> 0 < (c1 + c2 * y) / (1 + c3 * y) /\ c1 <= (c1 + c2 * y) / (1 + c3 * y).
Proof.
  intros y H. unfold c1, c2, c3. split.
  - apply Rdiv_lt_0_compat; lra.
  - assert (0 <= (18851563 / 1000000 - 8359375 / 10000000 * (186875 / 10000)) * y / (1 + 186875 / 10000 * y)) as P.
    { apply Rmult_le_pos; [nra|]. left. apply Rinv_0_lt_compat. lra. }
    replace ((8359375 / 10000000 + 18851563 / 1000000 * y) / (1 + 186875 / 10000 * y))
      with (8359375 / 10000000 + (18851563 / 1000000 - 8359375 / 10000000 * (186875 / 10000)) * y / (1 + 186875 / 10000 * y)) by (field; lra).
    lra.
Qed.

Theorem C35_pq_inverse : forall x, 0 <= x ->
  decode TBT2100PQ (encode TBT2100PQ x) = x /\
  (encode TBT2100PQ 0 <= x <= 1 -> encode TBT2100PQ (decode TBT2100PQ x) = x).
Proof.
  intros x H. rewrite (encode_pq x), (decode_pq x) by exact H. rewrite (encode_pq 0) by lra. split.
  - rewrite decode_pq by apply power_ge0. unfold pq_decode, pq_encode. cbv zeta.
    set (y := power (x / 10000) m1). assert (Y : 0 <= y) by apply power_ge0. destruct (pq_ratio y Y) as [P Q].
    rewrite (power_inv _ m2) by (try lra; unfold m2; field).
    rewrite Rmax_left by lra.
    replace (((c1 + c2 * y) / (1 + c3 * y) - c1) / (c2 - c3 * ((c1 + c2 * y) / (1 + c3 * y)))) with y.
    + unfold y. rewrite power_inv by (try lra; unfold m1; field). field.
    + unfold c1, c2, c3 in *. field. lra.
  - intros [L U]. unfold pq_decode. cbv zeta. set (e := power x (1 / m2)).
    assert (E1 : c1 <= e).
    { unfold e. rewrite <- (power_inv c1 m2 (1 / m2)) by (unfold c1, m2; try lra; field). apply power_le; [unfold m2; lra|].
      split; [apply power_ge0|]. revert L. unfold pq_encode. cbv zeta. replace (0 / 10000) with 0 by field. rewrite power_0.
      replace ((c1 + c2 * 0) / (1 + c3 * 0)) with c1 by field. auto. }
    assert (E2 : e <= 1). { unfold e. apply Rle_trans with (power 1 (1 / m2)); [|rewrite power_1; lra]. apply power_le; [unfold m2; lra|lra]. }
    rewrite Rmax_left by lra.
    assert (Q : 0 <= (e - c1) / (c2 - c3 * e)). { apply Rmult_le_pos; [lra|]. left. apply Rinv_0_lt_compat. unfold c2, c3. lra. }
    rewrite encode_pq by (pose proof (power_ge0 ((e - c1) / (c2 - c3 * e)) (1 / m1)); lra).
    unfold pq_encode. cbv zeta.
    replace (10000 * power ((e - c1) / (c2 - c3 * e)) (1 / m1) / 10000) with (power ((e - c1) / (c2 - c3 * e)) (1 / m1)) by field.
    rewrite (power_inv _ (1 / m1)) by (try lra; unfold m1; field).
    replace ((c1 + c2 * ((e - c1) / (c2 - c3 * e))) / (1 + c3 * ((e - c1) / (c2 - c3 * e)))) with e.
    + unfold e. apply power_inv; [exact H|unfold m2; field].
    + unfold c1, c2, c3 in *. field. lra.
Qed.
Print Assumptions C35_pq_inverse.

(** SDR: below the threshold exactly, above it never. *)
Lemma sdr_above : forall x, 181 / 10000 <= x -> (81490956 / 1000000000 + 99 / 1000) / (1099 / 1000) < power x (9 / 20).
Proof.
  intros x H. apply Rlt_le_trans with (power (181 / 10000) (9 / 20)).
  - apply (power_above _ _ _ 9 20); [lra|lra|cbn; field|]. lra.
  - apply power_le; lra.
Qed.
Lemma sdr_start : forall x, 1805397 / 100000000 <= x -> (814909 / 10000000 + 99 / 1000) / (1099 / 1000) < power x (9 / 20).
Proof.
  intros x H. apply Rlt_le_trans with (power (1805397 / 100000000) (9 / 20)).
  - apply (power_above _ _ _ 9 20); [lra|lra|cbn; field|]. lra.
  - apply power_le; lra.
Qed.

Theorem C35_sdr_partial : forall x, 0 <= x < 1805397 / 100000000 -> decode TSDR (encode TSDR x) = x.
Proof.
  intros x H. rewrite encode_sdr by lra. unfold sdr_encode. destruct (Rlt_dec _ _); [|lra].
  rewrite decode_sdr by lra. unfold sdr_decode. destruct (Rlt_dec _ _); [field|lra].
Qed.
Print Assumptions C35_sdr_partial.

Theorem C35_sdr_refuted : forall x, 1805397 / 100000000 <= x -> x < decode TSDR (encode TSDR x).
Proof.
  intros x H. rewrite encode_sdr by lra. unfold sdr_encode. destruct (Rlt_dec _ _); [lra|].
  pose proof (sdr_start x H) as A. rewrite decode_sdr by lra. unfold sdr_decode. destruct (Rlt_dec _ _) as [L|L].
  - assert (x < 181 / 10000); [|lra]. destruct (Rlt_le_dec x (181 / 10000)) as [|G]; [assumption|].
    pose proof (sdr_above x G). lra.
  - rewrite <- (power_inv x (9 / 20) (20 / 9)) at 1 by lra. apply power_lt; [lra|]. split; [apply power_ge0|lra].
Qed.
Print Assumptions C35_sdr_refuted.

(** It is off by less than a thousandth. *)
Lemma power_shrink : forall x y, 0 < x <= 1 -> y <= 1 -> x <= power x y.
Proof.
  intros x y H Y. rewrite power_pos by lra. rewrite <- (Rpower_1 x) at 1 by lra. unfold Rpower.
  assert (L : ln x <= 0). { rewrite <- ln_1. destruct H as [H [H1| ->]]; [left; apply ln_increasing; lra|lra]. }
  assert (1 * ln x <= y * ln x) as [A|A] by nra; [left; apply exp_increasing, A|rewrite A; lra].
Qed.

Theorem C35_sdr_close : forall x, 0 <= x <= 1 -> Rabs (decode TSDR (encode TSDR x) - x) <= 1 / 1000.
Proof.
  intros x H. destruct (Rlt_dec x (1805397 / 100000000)) as [L|L].
  { rewrite C35_sdr_partial by lra. replace (x - x) with 0 by ring. rewrite Rabs_R0. lra. }
  pose proof (C35_sdr_refuted x ltac:(lra)) as G. rewrite Rabs_right by lra. clear G.
  rewrite encode_sdr by lra. unfold sdr_encode. destruct (Rlt_dec _ _); [lra|].
  pose proof (sdr_start x ltac:(lra)) as A. rewrite decode_sdr by lra. unfold sdr_decode. destruct (Rlt_dec _ _) as [G|G]; [lra|].
  set (p := power x (9 / 20)) in *. assert (PX : x <= p) by (apply power_shrink; lra).
  assert (E : x = power p (20 / 9)) by (unfold p; rewrite power_inv; lra).
  set (s := 3 / 10000 / (1099 / 1000) / p).
  assert (S : 0 < s <= 1 / 500).
  { unfold s. split; [apply Rdiv_lt_0_compat; lra|]. apply Rmult_le_reg_r with p; [lra|]. unfold Rdiv at 1. rewrite Rmult_assoc, Rinv_l by lra. lra. }
  replace ((1099 / 1000 * p - 99 / 1000 + 993 / 10000) / (1099 / 1000)) with (p * (1 + s)) by (unfold s; field; lra).
  assert (M : power (p * (1 + s)) (20 / 9) = x * power (1 + s) (20 / 9)).
  { rewrite E. rewrite !power_pos by nra. symmetry; apply Rpower_mult_distr; lra. }
  assert (T : power (1 + s) (20 / 9) <= (1 + s) ^ 3).
  { rewrite <- power_whole by lra. rewrite !power_pos by lra. apply Rle_Rpower; [lra|]. cbn. lra. }
  rewrite M. assert (x * power (1 + s) (20 / 9) <= x * (1 + s) ^ 3) by (apply Rmult_le_compat_l; lra).
  assert (XS : x * s <= 3 / 10000 / (1099 / 1000)).
  { apply Rle_trans with (p * s); [apply Rmult_le_compat_r; lra|]. unfold s. right. field. lra. }
  assert (x * (1 + s) ^ 3 = x + x * s * (3 + 3 * s + s * s)) by ring. assert (0 <= x * s) by nra.
  assert (3 + 3 * s + s * s <= 33 / 10) by nra. nra.
Qed.
Print Assumptions C35_sdr_close.

(** * HLG *)

Lemma e_close : 1 - 1 / 10000000 <= ln e' <= 1 + 1 / 10000000.
Proof.
  assert (E : exp (-1) = / exp 1) by (replace (-1) with (- (1)) by ring; apply exp_Ropp).
  pose proof (exp_pos 1) as P. destruct (exp_close 1 ltac:(lra)) as [L U]. replace (-(1)) with (-1) in * by ring. rewrite E in L, U. unfold exp_poly in *.
  assert (exp (-1) * exp 1 = 1) by (rewrite E; field; lra). rewrite <- E in L, U.
  assert (X : 1 + 1 / 10000000 <= exp (1 / 10000000)) by (left; apply exp_ineq1; lra).
  split.
  - apply Rnot_lt_le. intros C. assert (e' < exp (1 - 1 / 10000000)).
    { rewrite <- (exp_ln e') by (unfold e'; lra). apply exp_increasing, C. }
    replace (1 - 1 / 10000000) with (1 + - (1 / 10000000)) in * by ring. rewrite exp_plus, exp_Ropp in H0.
    assert (/ exp (1 / 10000000) <= / (1 + 1 / 10000000)) by (apply Rinv_le_contravar; lra).
    assert (exp 1 * / exp (1 / 10000000) <= exp 1 * / (1 + 1 / 10000000)) by (apply Rmult_le_compat_l; lra).
    unfold e' in *. nra.
  - apply Rnot_lt_le. intros C. assert (exp (1 + 1 / 10000000) < e').
    { rewrite <- (exp_ln e') by (unfold e'; lra). apply exp_increasing, C. }
    rewrite exp_plus in H0. assert (exp 1 * (1 + 1 / 10000000) <= exp 1 * exp (1 / 10000000)) by (apply Rmult_le_compat_l; lra).
    unfold e' in *. nra.
Qed.

(** Where the logarithm starts *)
Definition hlg_knee : R := (hc - 1 / 2) / ha.
Lemma knee_close : 71533118 / 100000000 < exp (- hlg_knee) < 71533121 / 100000000.
Proof.
  destruct (exp_close hlg_knee ltac:(unfold hlg_knee, hc, ha; lra)) as [L U]. unfold exp_poly, hlg_knee, hc, ha in *. lra.
Qed.

Lemma exp_near_1 : forall s, Rabs s <= 1 / 2 -> Rabs (exp s - 1) <= 2 * Rabs s.
Proof.
  assert (A : forall s, 0 <= s <= 1 / 2 -> 0 <= exp s - 1 <= 2 * s).
  { intros s S. pose proof (exp_pos s). pose proof (exp_ineq1_le s). pose proof (exp_ineq1_le (- s)) as N. rewrite exp_Ropp in N.
    assert (exp s * / exp s = 1) by (field; lra). assert (exp s * (1 + - s) <= 1) by nra. split; [lra|]. nra. }
  intros s S. unfold Rabs in *. destruct (Rcase_abs s).
  - pose proof (exp_ineq1_le s). assert (exp s < 1) by (rewrite <- exp_0; apply exp_increasing; lra).
    destruct (Rcase_abs _); lra.
  - destruct (A s ltac:(lra)). destruct (Rcase_abs _); lra.
Qed.

Lemma hlg_power : forall z, power e' z = exp (z * ln e').
Proof. intros z. rewrite power_pos by (unfold e'; lra). reflexivity. Qed.

Lemma ln_le : forall a b, 0 < a -> a <= exp b -> ln a <= b.
Proof. intros a b A H. rewrite <- (ln_exp b). destruct H as [H| ->]; [left; apply ln_increasing; assumption|lra]. Qed.
Lemma ln_ge : forall a b, exp b <= a -> b <= ln a.
Proof. intros a b H. rewrite <- (ln_exp b) at 1. destruct H as [H|H]; [left; apply ln_increasing; [apply exp_pos|exact H]|rewrite H; lra]. Qed.

Lemma hlg_log_range : forall w, 1 - hb < w <= 12 -> - hlg_knee - 1 / 1000000 <= ln w <= 3.
Proof.
  intros w W. pose proof knee_close as [K1 K2]. split.
  - apply ln_ge. replace (- hlg_knee - 1 / 1000000) with (- hlg_knee + - (1 / 1000000)) by ring. rewrite exp_plus.
    assert (exp (- (1 / 1000000)) <= / (1 + 1 / 1000000)).
    { rewrite exp_Ropp. apply Rinv_le_contravar; [lra|]. left. apply exp_ineq1. lra. }
    pose proof (exp_pos (- (1 / 1000000))). unfold hb in *. nra.
  - apply ln_le; [unfold hb in *; lra|]. replace 3 with (1 + 1 + 1) by ring. rewrite !exp_plus.
    destruct (exp_close 1 ltac:(lra)) as [_ U]. unfold exp_poly in U. rewrite exp_Ropp in U. pose proof (exp_pos 1).
    assert (exp 1 * / exp 1 = 1) by (field; lra). assert (5 / 2 < exp 1) by nra. nra.
Qed.

(** HLG is undone exactly up to 1/12, and but for the digits of its constants
    above (also a little above white). *)
Theorem C35_hlg_inverse : forall x, 0 <= x <= 101 / 100 ->
  (x <= 1 / 12 -> decode TBT2100HLG (encode TBT2100HLG x) = x) /\
  Rabs (decode TBT2100HLG (encode TBT2100HLG x) - x) <= 1 / 1000000.
Proof.
  intros x H. rewrite encode_hlg by lra. unfold hlg_encode. destruct (Rle_dec _ _) as [L|L].
  - assert (E : decode TBT2100HLG (sqrt (3 * x)) = x).
    { rewrite decode_hlg by apply sqrt_pos. unfold hlg_decode.
      assert (Q : sqrt (3 * x) * sqrt (3 * x) = 3 * x) by (apply sqrt_sqrt; lra). pose proof (sqrt_pos (3 * x)).
      destruct (Rle_dec _ _) as [|N]; [rewrite Q; field|]. exfalso. nra. }
    split; [auto|]. rewrite E. replace (x - x) with 0 by ring. rewrite Rabs_R0. lra.
  - split; [lra|]. set (w := 12 * x - hb). assert (W : 1 - hb < w <= 1212 / 100 - hb) by (unfold w; lra).
    pose proof (hlg_log_range w ltac:(unfold hb in *; lra)) as B. pose proof knee_close as [K1 K2].
    assert (P : 0 <= ha * ln w + hc) by (unfold hlg_knee, ha, hc in *; lra).
    rewrite decode_hlg by exact P. unfold hlg_decode. destruct (Rle_dec _ _) as [G|G].
    + assert (LW : ln w <= - hlg_knee) by (unfold hlg_knee, ha, hc in *; lra).
      assert (w <= exp (- hlg_knee)). { rewrite <- (exp_ln w) by (unfold hb in *; lra). destruct LW as [LW| ->]; [left; apply exp_increasing, LW|lra]. }
      assert (4999998 / 10000000 <= ha * ln w + hc) by (unfold hlg_knee, ha, hc in *; lra).
      apply Rabs_le. unfold w, hb in *. split; nra.
    + replace ((ha * ln w + hc - hc) / ha) with (ln w) by (unfold ha; field). rewrite hlg_power.
      assert (E : exp (ln w * ln e') = w * exp (ln w * (ln e' - 1))).
      { replace (ln w * ln e') with (ln w + ln w * (ln e' - 1)) by ring. rewrite exp_plus, exp_ln by (unfold hb in *; lra). reflexivity. }
      rewrite E. pose proof e_close as [C1 C2].
      assert (S : Rabs (ln w * (ln e' - 1)) <= 3 / 10000000).
      { rewrite Rabs_mult. apply Rle_trans with (3 * (1 / 10000000)); [|lra].
        apply Rmult_le_compat; try apply Rabs_pos; apply Rabs_le; unfold hlg_knee, ha, hc in *; lra. }
      pose proof (exp_near_1 (ln w * (ln e' - 1)) ltac:(lra)) as N. set (d := exp (ln w * (ln e' - 1)) - 1) in *.
      replace (exp (ln w * (ln e' - 1))) with (1 + d) by (unfold d; ring).
      replace ((w * (1 + d) + hb) / 12 - x) with (w * d / 12) by (unfold w; field).
      unfold Rdiv. rewrite !Rabs_mult. rewrite (Rabs_right w), (Rabs_right (/ 12)) by (unfold hb in *; lra).
      assert (Rabs d <= 6 / 10000000) by lra. pose proof (Rabs_pos d). unfold hb in *. nra.
Qed.
Print Assumptions C35_hlg_inverse.

Theorem C35_hlg_inverse_scaled : forall x, 0 <= x <= 1 ->
  (x <= 1 / 2 -> encode TBT2100HLG (decode TBT2100HLG x) = x) /\
  Rabs (encode TBT2100HLG (decode TBT2100HLG x) - x) <= 1 / 1000000.
Proof.
  intros x H. rewrite decode_hlg by lra. unfold hlg_decode. destruct (Rle_dec _ _) as [L|L].
  - assert (E : encode TBT2100HLG (x * x / 3) = x).
    { rewrite encode_hlg by nra. unfold hlg_encode. destruct (Rle_dec _ _) as [|N].
      - replace (3 * (x * x / 3)) with (x * x) by field. apply sqrt_square. lra.
      - exfalso. nra. }
    split; [auto|]. rewrite E. replace (x - x) with 0 by ring. rewrite Rabs_R0. lra.
  - split; [lra|]. pose proof e_close as [C1 C2]. pose proof knee_close as [K1 K2]. rewrite hlg_power.
    set (z := (x - hc) / ha * ln e').
    assert (Z : - hlg_knee - 1 / 10000000 <= z).
    { unfold z. assert (ZZ : - hlg_knee <= (x - hc) / ha) by (unfold hlg_knee, ha, hc; lra).
      destruct (Rle_dec 0 ((x - hc) / ha)) as [|N]; [assert (0 <= (x - hc) / ha * ln e') by (apply Rmult_le_pos; lra); assert (0 <= hlg_knee) by (unfold hlg_knee, ha, hc; lra); lra|].
      assert (hlg_knee <= 1) by (unfold hlg_knee, ha, hc; lra). nra. }
    assert (E : 1 - hb < exp z).
    { apply Rlt_le_trans with (exp (- hlg_knee - 1 / 10000000)).
      - replace (- hlg_knee - 1 / 10000000) with (- hlg_knee + - (1 / 10000000)) by ring. rewrite exp_plus.
        pose proof (exp_ineq1_le (- (1 / 10000000))) as X. apply Rlt_le_trans with (71533118 / 100000000 * (1 + - (1 / 10000000))); [unfold hb; lra|]. apply Rmult_le_compat; lra.
      - destruct Z as [Z| ->]; [left; apply exp_increasing, Z|lra]. }
    rewrite encode_hlg by (unfold hb in *; lra). unfold hlg_encode. destruct (Rle_dec _ _) as [N|_]; [exfalso; lra|].
    replace (12 * ((exp z + hb) / 12) - hb) with (exp z) by field. rewrite ln_exp. unfold z.
    replace (ha * ((x - hc) / ha * ln e') + hc - x) with ((x - hc) * (ln e' - 1)) by (unfold ha; field).
    apply Rabs_le. unfold hc. split; nra.
Qed.
Print Assumptions C35_hlg_inverse_scaled.

(** All of these are exact at 0, and PQ and HLG are used beyond the standard
    dynamic range. *)
Example C35_example : decode TSRGB (encode TSRGB (1 / 2)) = 1 / 2 /\ decode TBT2100PQ (encode TBT2100PQ 203) = 203 /\
  decode TBT2100HLG (encode TBT2100HLG (1 / 12)) = 1 / 12 /\ decode TSDR (encode TSDR 1) <> 1.
Proof.
  split; [apply C35_srgb_inverse; lra|]. split; [apply C35_pq_inverse; lra|]. split; [apply C35_hlg_inverse; lra|].
  pose proof (C35_sdr_refuted 1 ltac:(lra)). lra.
Qed.

(** * C36 *)

(** More light, more signal: strictly for these, *)
Theorem C36_encode_increasing : forall t x y,
  t = TLinear \/ t = TGamma22 \/ t = TGamma28 \/ t = TSDR \/ t = TBT2100PQ -> 0 <= x < y -> encode t x < encode t y.
Proof.
  intros t x y [-> |[-> |[-> |[-> | ->]]]] H.
  - exact (proj2 H).
  - destruct (C35_formulas x ltac:(lra)) as (_ & _ & -> & _). destruct (C35_formulas y ltac:(lra)) as (_ & _ & -> & _). apply power_lt; lra.
  - destruct (C35_formulas x ltac:(lra)) as (_ & _ & _ & _ & -> & _). destruct (C35_formulas y ltac:(lra)) as (_ & _ & _ & _ & -> & _). apply power_lt; lra.
  - rewrite !encode_sdr by lra. unfold sdr_encode. destruct (Rlt_dec x _), (Rlt_dec y _); try lra.
    + pose proof (sdr_start y ltac:(lra)). lra.
    + pose proof (power_lt x y (9 / 20) ltac:(lra) H). lra.
  - rewrite !encode_pq by lra. unfold pq_encode. cbv zeta. apply power_lt; [unfold m2; lra|].
    pose proof (power_lt (x / 10000) (y / 10000) m1 ltac:(unfold m1; lra) ltac:(lra)) as L.
    pose proof (power_ge0 (x / 10000) m1) as X. set (a := power (x / 10000) m1) in *. set (b := power (y / 10000) m1) in *.
    split; [left; apply pq_ratio, X|].
    assert (D : 0 < (c2 - c1 * c3) * (b - a) / ((1 + c3 * a) * (1 + c3 * b))).
    { apply Rdiv_lt_0_compat; unfold c1, c2, c3; [nra|]. apply Rmult_lt_0_compat; lra. }
    replace ((c1 + c2 * b) / (1 + c3 * b)) with ((c1 + c2 * a) / (1 + c3 * a) + (c2 - c1 * c3) * (b - a) / ((1 + c3 * a) * (1 + c3 * b))).
    + lra.
    + unfold c1, c2, c3 in *. field. lra.
Qed.
Print Assumptions C36_encode_increasing.

(** for sRGB and HLG on each side of the threshold, *)
Theorem C36_encode_increasing_partial : forall x y, 0 <= x < y ->
  (y <= 31308 / 10000000 \/ 31308 / 10000000 < x \/ 31309 / 10000000 <= y -> encode TSRGB x < encode TSRGB y) /\
  (y <= 1 / 12 \/ 1 / 12 < x \/ 1 / 12 + 1 / 1000000 <= y -> encode TBT2100HLG x < encode TBT2100HLG y).
Proof.
  intros x y H. split; intros G.
  - rewrite !encode_srgb by lra. unfold srgb_encode. destruct (Rle_dec x _), (Rle_dec y _); try lra.
    + pose proof (srgb_above y ltac:(lra)). lra.
    + pose proof (power_lt x y (5 / 12) ltac:(lra) H). lra.
  - rewrite !encode_hlg by lra. unfold hlg_encode. destruct (Rle_dec x _), (Rle_dec y _); try lra.
    + apply sqrt_lt_1; lra.
    + pose proof knee_close as [K1 K2].
      assert (sqrt (3 * x) <= 1 / 2). { rewrite <- (sqrt_square (1 / 2)) by lra. apply sqrt_le_1; lra. }
      assert (- hlg_knee < ln (12 * y - hb)). { rewrite <- (ln_exp (- hlg_knee)). apply ln_increasing; [apply exp_pos|]. unfold hb. lra. }
      unfold hlg_knee, ha, hc in *. lra.
    + assert (ln (12 * x - hb) < ln (12 * y - hb)) by (apply ln_increasing; unfold hb; lra). unfold ha. lra.
Qed.
Print Assumptions C36_encode_increasing_partial.

(** and not across it: the constants make both step down there. *)
Theorem C36_encode_refuted :
  (exists x y, 0 <= x < y /\ y <= 1 /\ encode TSRGB y < encode TSRGB x) /\
  (exists x y, 0 <= x < y /\ y <= 1 /\ encode TBT2100HLG y < encode TBT2100HLG x).
Proof.
  split.
  - exists (31308 / 10000000), (31308001 / 10000000000). split; [lra|]. split; [lra|]. rewrite !encode_srgb by lra. unfold srgb_encode.
    destruct (Rle_dec _ _); [lra|]. destruct (Rle_dec _ _); [|lra].
    assert (power (31308001 / 10000000000) (5 / 12) < (1292 / 100 * (31308 / 10000000) + 55 / 1000) / (1055 / 1000)); [|lra].
    apply (power_below _ _ _ 5 12); [lra|lra|cbn; field|]. lra.
  - exists (1 / 12), (1 / 12 + 1 / 1000000000). split; [lra|]. split; [lra|]. rewrite !encode_hlg by lra. unfold hlg_encode.
    destruct (Rle_dec _ _); [lra|]. destruct (Rle_dec _ _); [|lra].
    replace (3 * (1 / 12)) with (1 / 2 * (1 / 2)) by field. rewrite sqrt_square by lra. pose proof knee_close as [K1 K2].
    assert (ln (12 * (1 / 12 + 1 / 1000000000) - hb) < - hlg_knee).
    { rewrite <- (ln_exp (- hlg_knee)). apply ln_increasing; unfold hb; lra. }
    unfold hlg_knee, ha, hc in *. lra.
Qed.
Print Assumptions C36_encode_refuted.

(** The step is far below one level of any format. *)
Theorem C36_encode_nearly_increasing : forall t x y, 0 <= x < y -> encode t x < encode t y + 1 / 10000000.
Proof.
  intros t x y H.
  assert (A : t = TLinear \/ t = TGamma22 \/ t = TGamma28 \/ t = TSDR \/ t = TBT2100PQ -> encode t x < encode t y + 1 / 10000000).
  { intros T. pose proof (C36_encode_increasing t x y T H). lra. }
  destruct t; auto 6; clear A.
  - destruct (Rle_dec y (31308 / 10000000)); [pose proof (proj1 (C36_encode_increasing_partial x y H) ltac:(auto)); lra|].
    destruct (Rlt_dec (31308 / 10000000) x); [pose proof (proj1 (C36_encode_increasing_partial x y H) ltac:(auto)); lra|].
    rewrite !encode_srgb by lra. unfold srgb_encode. destruct (Rle_dec x _), (Rle_dec y _); try lra.
    assert ((1292 / 100 * (31308 / 10000000) + 55 / 1000 - 1 / 20000000) / (1055 / 1000) < power y (5 / 12)); [|lra].
    apply Rlt_trans with (power (31308 / 10000000) (5 / 12)); [|apply power_lt; lra].
    apply (power_above _ _ _ 5 12); [lra|lra|cbn; field|]. lra.
  - destruct (Rle_dec y (1 / 12)); [pose proof (proj2 (C36_encode_increasing_partial x y H) ltac:(auto)); lra|].
    destruct (Rlt_dec (1 / 12) x); [pose proof (proj2 (C36_encode_increasing_partial x y H) ltac:(auto)); lra|].
    rewrite !encode_hlg by lra. unfold hlg_encode. destruct (Rle_dec x _), (Rle_dec y _); try lra.
    assert (sqrt (3 * x) <= 1 / 2). { rewrite <- (sqrt_square (1 / 2)) by lra. apply sqrt_le_1; lra. }
    assert (1 / 2 - 1 / 20000000 < ha * ln (12 * y - hb) + hc); [|lra].
    pose proof knee_close as [K1 K2].
    assert (- hlg_knee - 5 / 20000000 < ln (12 * y - hb)).
    { rewrite <- (ln_exp (- hlg_knee - 5 / 20000000)). apply ln_increasing; [apply exp_pos|].
      replace (- hlg_knee - 5 / 20000000) with (- hlg_knee + - (5 / 20000000)) by ring. rewrite exp_plus.
      assert (exp (- (5 / 20000000)) <= / (1 + 5 / 20000000)).
      { rewrite exp_Ropp. apply Rinv_le_contravar; [lra|]. left. apply exp_ineq1. lra. }
      assert (/ (1 + 5 / 20000000) = 20000000 / 20000005) by field. pose proof (exp_pos (- (5 / 20000000))).
      apply Rle_lt_trans with (71533121 / 100000000 * (20000000 / 20000005)); [|unfold hb; lra]. apply Rmult_le_compat; try lra; left; apply exp_pos. }
    unfold hlg_knee, ha, hc in *. lra.
Qed.
Print Assumptions C36_encode_nearly_increasing.

(** Decoding is increasing throughout; PQ is constant below its black. *)
Theorem C36_decode_increasing : forall t x y, t <> TBT2100PQ -> 0 <= x < y -> decode t x < decode t y.
Proof.
  intros t x y T H. destruct t; try congruence.
  - exact (proj2 H).
  - destruct (C35_formulas x ltac:(lra)) as (_ & _ & _ & -> & _). destruct (C35_formulas y ltac:(lra)) as (_ & _ & _ & -> & _). apply power_lt; lra.
  - destruct (C35_formulas x ltac:(lra)) as (_ & _ & _ & _ & _ & -> & _). destruct (C35_formulas y ltac:(lra)) as (_ & _ & _ & _ & _ & -> & _). apply power_lt; lra.
  - rewrite !decode_srgb by lra. unfold srgb_decode. destruct (Rle_dec x _), (Rle_dec y _); try lra.
    + apply Rle_lt_trans with (4045 / 100000 / (1292 / 100)); [lra|].
      apply Rlt_trans with (power ((4045 / 100000 + 55 / 1000) / (1055 / 1000)) (12 / 5)); [|apply power_lt; lra].
      apply (power_above _ _ _ 12 5); [lra|lra|cbn; field|]. lra.
    + apply power_lt; lra.
  - rewrite !decode_sdr by lra. unfold sdr_decode. destruct (Rlt_dec x _), (Rlt_dec y _); try lra.
    + apply Rlt_le_trans with (81490956 / 1000000000 / (9 / 2)); [lra|].
      apply Rle_trans with (power ((81490956 / 1000000000 + 993 / 10000) / (1099 / 1000)) (20 / 9)); [|apply power_le; lra].
      left. apply (power_above _ _ _ 20 9); [lra|lra|cbn; field|]. lra.
    + apply power_lt; lra.
  - rewrite !decode_hlg by lra. unfold hlg_decode. destruct (Rle_dec x _), (Rle_dec y _); try lra; try nra; rewrite !hlg_power.
    + pose proof (C35_hlg_inverse_scaled). pose proof e_close as [C1 C2]. pose proof knee_close as [K1 K2].
      assert (1 - hb < exp ((y - hc) / ha * ln e')).
      { apply Rlt_le_trans with (exp (- hlg_knee - 1 / 10000000)).
        - replace (- hlg_knee - 1 / 10000000) with (- hlg_knee + - (1 / 10000000)) by ring. rewrite exp_plus.
          pose proof (exp_ineq1_le (- (1 / 10000000))) as X. apply Rlt_le_trans with (71533118 / 100000000 * (1 + - (1 / 10000000))); [unfold hb; lra|]. apply Rmult_le_compat; lra.
        - assert (ZZ : - hlg_knee <= (y - hc) / ha) by (unfold hlg_knee, ha, hc; lra).
          assert (hlg_knee <= 1) by (unfold hlg_knee, ha, hc; lra).
          assert (Z : - hlg_knee - 1 / 10000000 <= (y - hc) / ha * ln e').
          { destruct (Rle_dec 0 ((y - hc) / ha)); [assert (0 <= (y - hc) / ha * ln e') by (apply Rmult_le_pos; lra); assert (0 <= hlg_knee) by (unfold hlg_knee, ha, hc; lra); lra|nra]. }
          destruct Z as [Z| ->]; [left; apply exp_increasing, Z|lra]. }
      nra.
    + pose proof e_close as [C1 C2].
      assert (exp ((x - hc) / ha * ln e') < exp ((y - hc) / ha * ln e')); [|lra].
      apply exp_increasing. apply Rmult_lt_compat_r; [lra|]. unfold ha, hc. lra.
Qed.
Print Assumptions C36_decode_increasing.

Theorem C36_pq_decode_increasing : forall x y, 0 <= x < y -> y <= 1 ->
  decode TBT2100PQ x <= decode TBT2100PQ y /\
  (encode TBT2100PQ 0 <= x -> decode TBT2100PQ x < decode TBT2100PQ y).
Proof.
  intros x y H U.
  assert (M : encode TBT2100PQ 0 <= x -> decode TBT2100PQ x < decode TBT2100PQ y).
  { intros L. apply Rnot_le_lt. intros N.
    assert (D : forall z, 0 <= z -> 0 <= decode TBT2100PQ z).
    { intros z Z. rewrite decode_pq by exact Z. unfold pq_decode. cbv zeta. apply Rmult_le_pos; [lra|apply power_ge0]. }
    pose proof (proj2 (C35_pq_inverse x ltac:(lra)) ltac:(lra)) as EX. pose proof (proj2 (C35_pq_inverse y ltac:(lra)) ltac:(lra)) as EY.
    destruct N as [N|N].
    - pose proof (C36_encode_increasing TBT2100PQ _ _ ltac:(auto 6) (conj (D y ltac:(lra)) N)). lra.
    - rewrite N, EX in EY. lra. }
  split; [|exact M]. destruct (Rle_dec (encode TBT2100PQ 0) x) as [L|L]; [left; apply M, L|].
  assert (Z : decode TBT2100PQ x = 0).
  { rewrite decode_pq by lra. unfold pq_decode. cbv zeta. rewrite (Rmax_right _ 0).
    - replace (0 / (c2 - c3 * power x (1 / m2))) with 0 by (unfold Rdiv; ring). rewrite power_0. ring.
    - assert (power x (1 / m2) <= c1); [|lra].
      rewrite <- (power_inv c1 m2 (1 / m2)) by (unfold c1, m2; try lra; field). apply power_le; [unfold m2; lra|]. split; [lra|].
      apply Rnot_le_lt in L. rewrite encode_pq in L by lra. unfold pq_encode in L. cbv zeta in L. replace (0 / 10000) with 0 in L by field. rewrite power_0 in L.
      replace ((c1 + c2 * 0) / (1 + c3 * 0)) with c1 in L by field. lra. }
  rewrite Z, decode_pq by lra. unfold pq_decode. cbv zeta. apply Rmult_le_pos; [lra|apply power_ge0].
Qed.
Print Assumptions C36_pq_decode_increasing.

(** Black stays black and white stays white. *)
Theorem C36_black_white : forall t, t = TLinear \/ t = TGamma22 \/ t = TGamma28 \/ t = TSRGB ->
  encode t 0 = 0 /\ encode t 1 = 1 /\ decode t 0 = 0 /\ decode t 1 = 1.
Proof.
  intros t T. destruct (C35_formulas 0 ltac:(lra)) as (A1 & A2 & A3 & A4 & A5 & A6 & A7 & A8 & _).
  destruct (C35_formulas 1 ltac:(lra)) as (B1 & B2 & B3 & B4 & B5 & B6 & B7 & B8 & _).
  destruct T as [-> |[-> |[-> | ->]]].
  - auto.
  - rewrite A3, A4, B3, B4, !power_0, !power_1. auto.
  - rewrite A5, A6, B5, B6, !power_0, !power_1. auto.
  - rewrite A7, A8, B7, B8. unfold srgb_encode, srgb_decode. repeat (destruct (Rle_dec _ _); try lra).
    replace ((1 + 55 / 1000) / (1055 / 1000)) with 1 by field. rewrite !power_1. lra.
Qed.
Print Assumptions C36_black_white.

(** SDR: 1 is stored as 1 and read back as more. *)
Theorem C36_sdr_white : encode TSDR 0 = 0 /\ encode TSDR 1 = 1 /\ decode TSDR 0 = 0 /\ 1 < decode TSDR 1.
Proof.
  assert (E : encode TSDR 1 = 1).
  { rewrite encode_sdr by lra. unfold sdr_encode. destruct (Rlt_dec _ _); [lra|]. rewrite power_1. field. }
  pose proof (C35_sdr_refuted 1 ltac:(lra)) as W. rewrite E in W.
  rewrite (encode_sdr 0), (decode_sdr 0) by lra. unfold sdr_encode, sdr_decode.
  destruct (Rlt_dec _ _); [|lra]. destruct (Rlt_dec _ _); [|lra]. repeat split; lra.
Qed.
Print Assumptions C36_sdr_white.

(** PQ: the darkest value is not 0, 10000 cd/m2 is not quite 1. *)
Theorem C36_pq_ends : 0 < encode TBT2100PQ 0 /\ 1 < encode TBT2100PQ 10000.
Proof.
  rewrite !encode_pq by lra. unfold pq_encode. cbv zeta. replace (0 / 10000) with 0 by field. replace (10000 / 10000) with 1 by field.
  rewrite power_0, power_1. split; [apply power_gt0, pq_ratio; lra|].
  rewrite <- (power_1 m2) at 1. apply power_lt; [unfold m2; lra|]. unfold c1, c2, c3. lra.
Qed.
Print Assumptions C36_pq_ends.
