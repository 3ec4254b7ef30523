(** C51, C52: power and logarithm of the back ends. *)

From Coq Require Import ZArith Bool Reals Lia Lra Psatz.
From Coq Require Import Floats.SpecFloat.
From Flocq Require Import Core IEEE754.BinarySingleNaN.
From Verif Require Import F32 Vector Simd Math FloatProofs AccProofs MathProofs SpecMath LaneProofs.
Local Open Scope R_scope.

(** Power and logarithm of a back end; [sp] and [sl] stand for [f32::powf] and
    [f32::ln], which only the scalar code uses *)
Definition bpow_of sp sl (b : backend) : f32 -> f32 -> f32 := l_pow (vi_lane (impl_of (libm_of sp sl) b)).
Definition bln_of sp sl (b : backend) : f32 -> f32 := l_ln (vi_lane (impl_of (libm_of sp sl) b)).

(** * C51: accuracy *)

(** AVX2, AVX-512 and NEON: unconditionally *)
Theorem C51_simd_pow_accurate : forall sp sl b, b <> Scalar -> pow_accurate (bpow_of sp sl b).
Proof. intros sp sl b NS. apply (lane_accurate b sp sl). intros E. contradiction. Qed.
Print Assumptions C51_simd_pow_accurate.

Theorem C51_simd_ln_accurate : forall sp sl b, b <> Scalar -> ln_accurate (bln_of sp sl b).
Proof. intros sp sl b NS. apply (lane_accurate b sp sl). intros E. contradiction. Qed.
Print Assumptions C51_simd_ln_accurate.

(** Scalar: if the platform's [powf] and [ln] are as accurate as the SIMD code *)
Theorem C51_backends_accurate : forall sp sl b, (b = Scalar -> pow_accurate sp /\ ln_accurate sl) ->
  accurate (vi_lane (impl_of (libm_of sp sl) b)).
Proof. intros sp sl b H. apply lane_accurate, H. Qed.
Print Assumptions C51_backends_accurate.

(** The assumption can be met *)
Example C51_contract_met : pow_accurate avx_pow /\ ln_accurate avx_log.
Proof. split; [exact avx_pow_ok|exact (log_contract avx_log avx_log_ok)]. Qed.

(** Powers of non-negative numbers are non-negative numbers: no NaN, no
    infinity *)
Theorem C51_pow_nonneg : forall p x y, pow_accurate p -> is_num x -> is_num y -> 0 <= fval x -> 0 < fval y <= 1000 ->
  (0 < fval x -> fval y * ln (fval x) <= 86) -> is_num (p x y) /\ 0 <= fval (p x y).
Proof.
  intros p x y P NX NY PX YB U. destruct (P x y NX NY PX) as (P1 & P2 & P3); [rewrite Rabs_pos_eq; lra|].
  destruct (Rlt_le_dec (fval x) tiny) as [T|T]; [destruct (P3 T) as (N & B); [lra|split; [exact N|lra]]|].
  pose proof tiny_pos as TP. destruct (Rle_dec (fval y * ln (fval x)) (-85)) as [C|C].
  { destruct (P2 T C) as (N & B). split; [exact N|lra]. }
  assert (UL : fval y * ln (fval x) <= 86) by (apply U; lra).
  destruct (P1 T ltac:(lra)) as (N & B). split; [exact N|].
  assert (RP : 0 < Rpower (fval x) (fval y)) by apply exp_pos. apply Rabs_le_inv in B.
  assert (E : pow_error (fval x) (fval y) <= 1 / 2).
  { unfold pow_error. rewrite (Rabs_pos_eq (fval y)) by lra. assert (Rabs (fval y * ln (fval x)) <= 86) by (apply Rabs_le; lra). lra. }
  nra.
Qed.
Print Assumptions C51_pow_nonneg.

(** 0.5^2.4 on AVX2, 0.1894645... *)
Example C51_example : forall sp sl, bpow_of sp sl AVX2 (f32_lit 5 1) (f32_lit 24 1) = S754_finite false 12714750 (-26) /\
  Rabs (fval (bpow_of sp sl AVX2 (f32_lit 5 1) (f32_lit 24 1)) - Rpower (fval (f32_lit 5 1)) (fval (f32_lit 24 1))) <= 2 / 10000000.
Proof.
  intros sp sl. split; [vm_compute; reflexivity|].
  assert (H1 : approx (f32_lit 5 1) (1 / 2) 0) by const_approx. apply const_val in H1. destruct H1 as (V1 & N1 & _).
  assert (H2 : approx (f32_lit 24 1) (10066330 / 4194304) 0) by const_approx. apply const_val in H2. destruct H2 as (V2 & N2 & _).
  destruct (C51_simd_pow_accurate sp sl AVX2 ltac:(discriminate) (f32_lit 5 1) (f32_lit 24 1) N1 N2) as (P & _);
    [rewrite V1; lra|rewrite V2, Rabs_pos_eq; lra|].
  assert (L : ln (1 / 2) = - ln 2) by (replace (1 / 2) with (/ 2) by lra; apply ln_Rinv; lra). pose proof ln_2.
  rewrite V1, V2, L in P. destruct P as (_ & P); [| |].
  - apply Rle_trans with (bpow radix2 (-1)); [apply bpow_le; lia|]. change (bpow radix2 (-1)) with (/ 2). lra.
  - lra.
  - rewrite V1, V2. eapply Rle_trans; [exact P|]. unfold pow_error. rewrite L, (Rabs_pos_eq (10066330 / 4194304)) by lra.
    rewrite (Rabs_left1 (_ * - ln 2)) by nra.
    assert (RP : 0 < Rpower (1 / 2) (10066330 / 4194304) <= 1 / 4).
    { split; [apply exp_pos|]. replace (1 / 4) with (Rpower (1 / 2) (INR 2)); [change (INR 2) with (1 + 1)|rewrite Rpower_pow by lra; simpl; lra].
      unfold Rpower. apply exp_le. rewrite L. nra. }
    nra.
Qed.

(** * C52: special values *)

(** A power of 1 is 1, for every finite exponent *)
Theorem C52_pow_of_one : forall sp sl b y, b <> Scalar -> is_num y -> bpow_of sp sl b m_one y = m_one.
Proof.
  intros sp sl b y NS (V & F).
  assert (A : avx_pow m_one y = m_one /\ neon_pow m_one y = m_one).
  { unfold avx_pow, neon_pow. replace (avx_log m_one) with (S754_zero false) by (vm_compute; reflexivity).
    replace (neon_log m_one) with (S754_zero false) by (vm_compute; reflexivity).
    destruct y as [[|]|s| |[|] m e]; try discriminate F; split; vm_compute; reflexivity. }
  destruct b; [contradiction| | |]; apply A.
Qed.
Print Assumptions C52_pow_of_one.

(** The zeroth power of a non-negative number is 1 *)
Theorem C52_pow_zero_exponent : forall sp sl b x s, b <> Scalar -> is_num x -> 0 <= fval x ->
  bpow_of sp sl b x (S754_zero s) = m_one.
Proof.
  intros sp sl b x s NS N P.
  assert (Z : forall l, is_num l -> exists s', f32_mul (S754_zero s) l = S754_zero s').
  { intros [s0|s0| |s0 m e] (_ & F); try discriminate F; eexists; reflexivity. }
  assert (LN : is_num (avx_log x) /\ is_num (neon_log x)).
  { destruct x as [[|]| | |] eqn:E; try (destruct N as (_ & F); discriminate F).
    - split; [apply (proj1 log_neg_zero)|apply (proj2 log_neg_zero)].
    - rewrite <- E in *. assert (NZ : x <> S754_zero true) by (subst x; discriminate).
      destruct (avx_log_ok x N P NZ) as (w & _ & (A & _)). destruct (neon_log_ok x N P NZ) as (w' & _ & (B & _)). split; assumption.
    - rewrite <- E in *. assert (NZ : x <> S754_zero true) by (subst x; discriminate).
      destruct (avx_log_ok x N P NZ) as (w & _ & (A & _)). destruct (neon_log_ok x N P NZ) as (w' & _ & (B & _)). split; assumption. }
  assert (A : avx_pow x (S754_zero s) = m_one /\ neon_pow x (S754_zero s) = m_one).
  { unfold avx_pow, neon_pow. destruct (Z _ (proj1 LN)) as (s1 & ->). destruct (Z _ (proj2 LN)) as (s2 & ->).
    split; [destruct s1|destruct s2]; vm_compute; reflexivity. }
  destruct b; [contradiction| | |]; apply A.
Qed.
Print Assumptions C52_pow_zero_exponent.

(** The logarithm of 1 is 0 *)
Theorem C52_ln_one : forall sp sl b, b <> Scalar -> bln_of sp sl b m_one = S754_zero false.
Proof. intros sp sl [| | |] NS; [contradiction| | |]; vm_compute; reflexivity. Qed.
Print Assumptions C52_ln_one.

(** NaN is not lost *)
Theorem C52_nan : forall sp sl b x y, b <> Scalar -> x = S754_nan \/ y = S754_nan -> bpow_of sp sl b x y = S754_nan.
Proof.
  intros sp sl b x y NS H.
  assert (M : forall l, f32_mul S754_nan l = S754_nan /\ f32_mul l S754_nan = S754_nan) by (intros [[|]|[|]| |[|] m e]; split; reflexivity).
  assert (A : avx_pow x y = S754_nan /\ neon_pow x y = S754_nan).
  { unfold avx_pow, neon_pow. destruct H as [->| ->].
    - replace (avx_log S754_nan) with S754_nan by (vm_compute; reflexivity). replace (neon_log S754_nan) with S754_nan by (vm_compute; reflexivity).
      rewrite (proj2 (M y)). split; vm_compute; reflexivity.
    - rewrite (proj1 (M (avx_log x))), (proj1 (M (neon_log x))). split; vm_compute; reflexivity. }
  destruct b; [contradiction| | |]; apply A.
Qed.
Print Assumptions C52_nan.

(** The power of a negative number is NaN on AVX2 and AVX-512, whatever the
    exponent (so the code cannot compute an odd power of a negative number) *)
Theorem C52_negative_base : forall sp sl b x y, b = AVX2 \/ b = AVX512 -> is_num x -> fval x < 0 ->
  bpow_of sp sl b x y = S754_nan.
Proof.
  intros sp sl b x y B N P.
  assert (L : avx_log x = S754_nan).
  { unfold avx_log. cbv zeta. destruct zero_num as (N0 & V0). rewrite (f32_le_num _ _ N0 N), V0.
    destruct (Rle_bool_spec 0 (fval x)); [lra|reflexivity]. }
  assert (A : avx_pow x y = S754_nan).
  { unfold avx_pow. rewrite L. replace (f32_mul y S754_nan) with S754_nan by (destruct y as [[|]|[|]| |[|] m e]; reflexivity). vm_compute. reflexivity. }
  destruct B as [-> | ->]; exact A.
Qed.
Print Assumptions C52_negative_base.

(** ... but not on NEON: (-1)^0.5 is a small number instead of NaN *)
Theorem C52_negative_base_neon_refuted : ~ (forall sp sl x y, is_num x -> is_num y -> fval x < 0 -> bpow_of sp sl NEON x y = S754_nan).
Proof.
  intros H. specialize (H avx_pow avx_log (f32_lit (-1) 0) (f32_lit 5 1)).
  assert (A : approx (f32_lit (-1) 0) (-1) 0) by const_approx. apply const_val in A. destruct A as (V & N & _).
  assert (A : approx (f32_lit 5 1) (1 / 2) 0) by const_approx. apply const_val in A. destruct A as (_ & N2 & _).
  specialize (H N N2 ltac:(lra)). vm_compute in H. discriminate H.
Qed.
Print Assumptions C52_negative_base_neon_refuted.

(** 0 to a positive power is not 0 on the SIMD back ends: 0^0.45 > 0 *)
Theorem C52_zero_base_refuted : forall sp sl b, b <> Scalar ->
  ~ (forall y, is_num y -> 0 < fval y -> fval (bpow_of sp sl b m_zero y) = 0).
Proof.
  intros sp sl b NS H. specialize (H (f32_lit 45 2)).
  assert (A : approx (f32_lit 45 2) (15099494 / 33554432) 0) by const_approx. apply const_val in A. destruct A as (V & N & _).
  specialize (H N ltac:(lra)).
  assert (E : exists m e, bpow_of sp sl b m_zero (f32_lit 45 2) = S754_finite false m e)
    by (destruct b; [contradiction| | |]; do 2 eexists; vm_compute; reflexivity).
  destruct E as (m & e & E). rewrite E in H. unfold fval in H. cbn [SF2R cond_Zopp] in H.
  pose proof (F2R_gt_0 radix2 (Float radix2 (Z.pos m) e) ltac:(simpl; lia)). lra.
Qed.
Print Assumptions C52_zero_base_refuted.

(** ... but at most 1.001 * 2^(-126 y) + 2^-122 *)
Theorem C52_zero_base_partial : forall sp sl b s y, b <> Scalar -> is_num y -> 0 < fval y <= 1000 ->
  is_num (bpow_of sp sl b (S754_zero s) y) /\
  0 <= fval (bpow_of sp sl b (S754_zero s) y) <= 1001 / 1000 * Rpower tiny (fval y) + bpow radix2 (-122).
Proof.
  intros sp sl b s y NS N Y.
  destruct (C51_simd_pow_accurate sp sl b NS (S754_zero s) y) as (_ & _ & P); try exact N.
  - split; reflexivity.
  - change (fval (S754_zero s)) with 0. lra.
  - rewrite Rabs_pos_eq; lra.
  - change (fval (S754_zero s)) with 0 in P. apply P; [exact tiny_pos|lra].
Qed.
Print Assumptions C52_zero_base_partial.
