(** The back ends satisfy the accuracy specification of SpecMath. *)

From Coq Require Import ZArith Bool Reals Lia Lra Psatz.
From Coq Require Import Floats.SpecFloat.
From Flocq Require Import Core IEEE754.BinarySingleNaN.
From Verif Require Import F32 Vector Simd Math FloatProofs AccProofs PowerProofs PolyProofs MathProofs SpecMath.
Local Open Scope R_scope.

Lemma tiny_eq : tiny = / IZR (2 ^ 126).
Proof. reflexivity. Qed.
Lemma tiny_pos : 0 < tiny.
Proof. apply bpow_gt_0. Qed.
Lemma ln_tiny : ln tiny = -126 * ln 2.
Proof.
  unfold tiny. replace (bpow radix2 (-126)) with (1 * bpow radix2 (-126)) by ring. rewrite ln_scaled by lra. rewrite ln_1. ring.
Qed.

Lemma pow_contract : forall lg ex, log_accurate lg -> exp_accurate ex ->
  is_num (lg (S754_zero true)) -> -1000 <= fval (lg (S754_zero true)) <= -300 ->
  pow_accurate (fun x y => ex (f32_mul y (lg x))).
Proof.
  intros lg ex LG EX N0 V0 x y NX NY PX YB.
  assert (DX : x = S754_zero true \/ x <> S754_zero true) by (destruct x as [[|]| | |]; try (left; reflexivity); right; discriminate).
  pose proof ln_2 as L2. pose proof ln_tiny as LT. pose proof tiny_pos as TP.
  destruct DX as [->|NZ].
  - change (fval (S754_zero true)) with 0 in *. split; [intros; lra|]. split; [intros; lra|]. intros _ Y0.
    set (c := fval (lg (S754_zero true))) in *. set (yv := fval y) in *. rewrite (Rabs_pos_eq yv) in YB by lra.
    assert (AC : Rabs (yv * c) <= 1000 * yv) by (rewrite Rabs_mult, (Rabs_pos_eq yv) by lra; rewrite (Rabs_left1 c) by lra; nra).
    destruct (f32_mul_num y (lg (S754_zero true)) NY N0) as (NP & VP).
    { fold yv c. apply Rle_trans with 1001000; [lra|]. change (bpow radix2 127) with (IZR (2 ^ 127)). apply IZR_le. lia. }
    pose proof (rnd_half _ _ AC) as RH. fold yv c in VP. rewrite <- VP in RH. unfold half_ulp in RH. set (p := fval (f32_mul y (lg (S754_zero true)))) in *.
    assert (PU : p <= -126 * ln 2 * yv + 1 / 281474976710656) by (apply Rabs_le_inv in RH; nra).
    destruct (EX _ NP) as (E1 & E2). fold p in E1, E2. pose proof (bpow_gt_0 radix2 (-122)) as BP.
    assert (RP : 0 < Rpower tiny yv) by apply exp_pos.
    destruct (Rle_dec p (-86)) as [C|C].
    + destruct (E2 C) as (NE & HE). split; [exact NE|]. lra.
    + assert (p <= 87) by nra. destruct (E1 ltac:(lra)) as (NE & HE). split; [exact NE|].
      assert (PE : exp p <= Rpower tiny yv * (10001 / 10000)).
      { apply Rle_trans with (Rpower tiny yv * exp (1 / 281474976710656)).
        - unfold Rpower. rewrite <- exp_plus. apply exp_le. rewrite LT. lra.
        - apply Rmult_le_compat_l; [lra|]. assert (AB : Rabs (1 / 281474976710656) <= 1 / 281474976710656) by (rewrite Rabs_pos_eq; lra).
          pose proof (exp_near_one _ _ AB ltac:(lra)) as T. apply Rabs_le_inv in T. lra. }
      pose proof (exp_pos p). apply Rabs_le_inv in HE. split; lra.
  - destruct (pow_ok lg ex LG EX x y NX PX NZ NY YB) as (w & LA & LB & P1 & P2). rewrite tiny_eq in *.
    split; [|split].
    + intros T R. destruct LA as [(_ & ->)|(A & _)]; [|lra]. exact (P1 R).
    + intros T R. destruct LA as [(_ & ->)|(A & _)]; [|lra]. exact (P2 R).
    + intros T Y0. destruct LA as [(A & _)|(A & W)]; [lra|]. rewrite (Rabs_pos_eq (fval y)) in * by lra. set (yv := fval y) in *.
      assert (WT : 0 < w < / IZR (2 ^ 126)).
      { assert (E : / IZR (2 ^ 127) = / IZR (2 ^ 126) / 2).
        { change (2 ^ 127)%Z with (2 ^ 126 * 2)%Z. rewrite mult_IZR. rewrite Rinv_mult_distr; [lra| |lra]. apply IZR_neq. lia. }
        lra. }
      assert (LW : ln w < -126 * ln 2) by (rewrite <- LT; apply ln_increasing; lra).
      assert (YL : yv * ln w <= yv * (-126 * ln 2)) by (apply Rmult_le_compat_l; lra).
      assert (RP : 0 < Rpower (/ IZR (2 ^ 126)) yv) by apply exp_pos. pose proof (bpow_gt_0 radix2 (-122)) as BP.
      destruct (Rle_dec (yv * ln w) (-85)) as [C|C]; [destruct (P2 C) as (NE & HE); split; [exact NE|]; lra|].
      assert (R : -85 <= yv * ln w <= 86) by nra. destruct (P1 R) as (NE & HE). split; [exact NE|].
      assert (Y1 : yv <= 1) by nra. rewrite (Rabs_left1 (yv * ln w)) in HE by nra.
      assert (EE : exp (yv * ln w) <= Rpower (/ IZR (2 ^ 126)) yv) by (unfold Rpower; apply exp_le; rewrite LT; lra).
      pose proof (exp_pos (yv * ln w)). apply Rabs_le_inv in HE.
      assert ((3 / 10000000 + yv / 10000000 + 125 / 1000000000 * - (yv * ln w)) * exp (yv * ln w) <= 1 / 1000 * exp (yv * ln w)) by (apply Rmult_le_compat_r; lra).
      split; lra.
Qed.

Lemma log_neg_zero : approx (avx_log (S754_zero true)) (- (10164003 / 32768)) 0 /\ approx (neon_log (S754_zero true)) (- (10896542 / 16384)) 0.
Proof. split; const_approx. Qed.

Lemma avx_pow_ok : pow_accurate avx_pow.
Proof.
  apply (pow_contract avx_log avx_exp avx_log_ok avx_exp_ok); destruct (const_val _ _ (proj1 log_neg_zero)) as (E & (N & _)); [exact N|rewrite E; lra].
Qed.

Lemma neon_pow_ok : pow_accurate neon_pow.
Proof.
  apply (pow_contract neon_log neon_exp neon_log_ok neon_exp_ok); destruct (const_val _ _ (proj2 log_neg_zero)) as (E & (N & _)); [exact N|rewrite E; lra].
Qed.

Lemma log_contract : forall f, log_accurate f -> ln_accurate f.
Proof.
  intros f H x N T. pose proof tiny_pos as TP. assert (NZ : x <> S754_zero true) by (intros ->; change (fval (S754_zero true)) with 0 in T; lra).
  destruct (H x N ltac:(lra) NZ) as (w & [(_ & ->)|(A & _)] & R); [exact R|]. rewrite tiny_eq in T. lra.
Qed.

Lemma f32_abs_nonneg : forall x, is_num x -> 0 <= fval x -> is_num (f32_abs x) /\ fval (f32_abs x) = fval x.
Proof.
  intros [s|s| |s m e] N P; try (destruct N as (_ & F); discriminate F).
  - split; [split; reflexivity|reflexivity].
  - split; [exact N|]. destruct s; [|reflexivity]. exfalso. unfold fval in P. cbn [SF2R cond_Zopp] in P.
    pose proof (F2R_lt_0 radix2 (Float radix2 (Z.neg m) e) ltac:(simpl; lia)) as L. change (Z.neg m) with (- Z.pos m)%Z in L. lra.
Qed.

Lemma lt_bool : forall a b, Rlt_bool a b = true <-> a < b.
Proof. intros a b. destruct (Rlt_bool_spec a b); split; intros; try assumption; try reflexivity; try discriminate; lra. Qed.
Lemma le_bool : forall a b, Rle_bool a b = true <-> a <= b.
Proof. intros a b. destruct (Rle_bool_spec a b); split; intros; try assumption; try reflexivity; try discriminate; lra. Qed.

Lemma f32_max_num : forall a b, is_num a -> is_num b -> is_num (f32_max a b) /\ fval (f32_max a b) = Rmax (fval a) (fval b).
Proof.
  intros a b A B. unfold f32_max. rewrite !num_not_nan by assumption. rewrite f32_lt_num by assumption.
  destruct (Rlt_bool_spec (fval a) (fval b)); (split; [assumption|]); [rewrite Rmax_right|rewrite Rmax_left]; lra.
Qed.
Lemma x86_max_num : forall a b, is_num a -> is_num b -> is_num (x86_max a b) /\ fval (x86_max a b) = Rmax (fval a) (fval b).
Proof.
  intros a b A B. unfold x86_max. rewrite f32_lt_num by assumption.
  destruct (Rlt_bool_spec (fval b) (fval a)); (split; [assumption|]); [rewrite Rmax_left|rewrite Rmax_right]; lra.
Qed.

Lemma lane_accurate : forall b sp sl, (b = Scalar -> pow_accurate sp /\ ln_accurate sl) -> accurate (vi_lane (impl_of (libm_of sp sl) b)).
Proof.
  intros b sp sl H. destruct b; try specialize (H eq_refl); constructor; intros;
    cbn [vi_lane impl_of scalar_impl avx2_impl avx512_impl neon_impl scalar_lane avx2_lane avx512_lane neon_lane l_lt l_le l_max l_pow l_ln lm_pow lm_ln libm_of].
  all: try (apply (proj1 H)). all: try (apply (proj2 H)).
  all: try (apply f32_max_num; assumption). all: try (apply x86_max_num; assumption). all: try (apply neon_max_num; assumption).
  all: try assumption. all: try exact avx_pow_ok. all: try exact neon_pow_ok.
  all: try (apply log_contract; first [exact avx_log_ok|exact neon_log_ok]).
  all: try (rewrite f32_lt_num by assumption; apply lt_bool). all: try (rewrite f32_le_num by assumption; apply le_bool).
  - unfold neon_lt. destruct (f32_abs_nonneg x) as (NX & EX); try assumption. destruct (f32_abs_nonneg y) as (NY & EY); try assumption.
    rewrite f32_lt_num, EX, EY by assumption. apply lt_bool.
  - unfold neon_le. destruct (f32_abs_nonneg x) as (NX & EX); try assumption. destruct (f32_abs_nonneg y) as (NY & EY); try assumption.
    rewrite f32_le_num, EX, EY by assumption. apply le_bool.
Qed.
