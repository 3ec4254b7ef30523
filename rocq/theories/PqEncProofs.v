(** Lemmas for PQ destinations: encoding light of up to 18000. *)

From Coq Require Import List ZArith Bool Arith Reals Lia Lra Psatz.
From Coq Require Import Floats.SpecFloat.
From Flocq Require Import Core.
From Verif Require Import Base Types Planes ImageM F32 Vector Simd SpecVector SimdProofs QuantProofs SpecGeom GeomProofs
  SpecColor SpecConvert SpecRun Formats Visit Convert VisitProofs ColorProofs ConvertProofs ExactProofs PropConvert PropFidelity
  SpecReal FloatProofs AccProofs TargetProofs PropColor ColorR SpecTransfer PowerProofs MathProofs SpecMath LaneProofs TransferProofs
  Math NegProofs RecolorProofs.
Import ListNotations.
Local Open Scope R_scope.

Lemma exp_below : forall x t, x <= t -> 0 <= t < 1 -> exp x <= / (1 - t).
Proof.
  intros x t X T. apply Rle_trans with (exp t); [apply exp_le, X|]. replace t with (- - t) at 1 by ring. rewrite exp_Ropp.
  apply Rinv_le_contravar; [lra|]. pose proof (exp_ineq1_le (- t)). lra.
Qed.

(** [pq_inner] for light of 4 and above *)
Lemma pq_inner_far : forall p y m Y, pow_accurate p -> is_num y -> fval y = rnd Y -> is_num m -> 4 / 10000 <= Y <= 18 / 10 ->
  Rabs (fval m - m1) <= 1 / 100000000 ->
  approx (p y m) (power Y m1) (4 / 1000000) /\ 28 / 100 <= power Y m1 <= 115 / 100.
Proof.
  intros p y m Y P NY EY NM YB ME. pose proof ME as ME'. apply Rabs_le_inv in ME'. unfold m1 in ME'. set (mf := fval m) in *.
  pose proof (rnd_error Y) as RE. rewrite <- EY, (Rabs_pos_eq Y) in RE by lra.
  assert (TE : bpow radix2 (-149) <= bpow radix2 (-40)) by (apply bpow_le; lia). change (bpow radix2 (-40)) with (/ 1099511627776) in TE.
  change (bpow radix2 (-23)) with (/ 8388608) in RE. set (y' := fval y) in *.
  assert (R2 : Rabs (y' - Y) <= 2 / 10000000 * Y) by lra. pose proof R2 as R2'. apply Rabs_le_inv in R2'.
  assert (P0 : 3 / 10000 <= y' <= 1801 / 1000) by lra.
  destruct (P y m NY NM ltac:(fold y'; lra)) as (C1 & _ & _); [fold mf; rewrite Rabs_pos_eq; lra|]. fold mf y' in C1.
  pose proof ln_2 as L2. pose proof ln_tiny as LT. pose proof tiny_pos as TP.
  assert (T : tiny <= y').
  { apply Rle_trans with (bpow radix2 (-20)); [unfold tiny; apply bpow_le; lia|]. change (bpow radix2 (-20)) with (/ 1048576). lra. }
  assert (LNT : -88 <= ln y' <= 801 / 1000).
  { split; [apply Rle_trans with (ln tiny); [rewrite LT; lra|apply ln_le; lra]|]. pose proof (ln_le_sub y' ltac:(lra)). lra. }
  assert (LY : ln Y <= 8 / 10) by (pose proof (ln_le_sub Y ltac:(lra)); lra).
  destruct (C1 T ltac:(nra)) as (N & B).
  assert (X1 : exp (mf * ln y') <= 115 / 100).
  { eapply Rle_trans; [apply (exp_below _ (128 / 1000))|]; try lra. nra. }
  assert (X2 : exp (m1 * ln Y) <= 115 / 100).
  { eapply Rle_trans; [apply (exp_below _ (128 / 1000))|]; try lra. unfold m1. nra. }
  assert (PY : 28 / 100 <= power Y m1 <= 115 / 100).
  { split; [|rewrite power_pos by lra; exact X2].
    apply Rle_trans with (power (4 / 10000) m1); [|apply power_le; unfold m1; lra].
    apply Rle_trans with (power (4 / 10000) (4 / 25)).
    - left. apply (power_above _ _ _ 4 25); simpl; lra.
    - rewrite !power_pos by lra. unfold Rpower. apply exp_le. pose proof (ln_le_0 (4 / 10000) ltac:(lra)). unfold m1. nra. }
  split; [|exact PY]. split; [exact N|]. unfold Rpower in B.
  assert (E1 : pow_error y' mf * exp (mf * ln y') <= 21 / 10000000 * (115 / 100)).
  { pose proof (exp_pos (mf * ln y')). assert (AB : Rabs (mf * ln y') <= 1410 / 100) by (apply Rabs_le; split; nra).
    apply Rmult_le_compat; [|lra| |exact X1]; unfold pow_error; rewrite (Rabs_pos_eq mf) by lra; pose proof (Rabs_pos (mf * ln y')); lra. }
  assert (E2 : Rabs (exp (mf * ln y') - exp (m1 * ln Y)) <= 93 / 100000000 * (115 / 100)).
  { eapply Rle_trans; [apply (exp_lip _ _ (115 / 100)); assumption|]. apply Rmult_le_compat_r; [lra|].
    replace (mf * ln y' - m1 * ln Y) with ((mf - m1) * ln y' + m1 * (ln y' - ln Y)) by ring.
    eapply Rle_trans; [apply Rabs_triang|]. rewrite !Rabs_mult, (Rabs_pos_eq m1) by (unfold m1; lra).
    pose proof (ln_lip y' Y (9 / 10 * Y) ltac:(lra) ltac:(lra) ltac:(lra)) as LL.
    assert (Q : Rabs (y' - Y) / (9 / 10 * Y) <= 23 / 100000000).
    { apply Rmult_le_reg_r with (9 / 10 * Y); [lra|]. unfold Rdiv. rewrite Rmult_assoc, Rinv_l by lra. lra. }
    assert (AL : Rabs (ln y') <= 88) by (apply Rabs_le; lra).
    assert (Rabs (mf - m1) * Rabs (ln y') <= 1 / 100000000 * 88) by (apply Rmult_le_compat; try apply Rabs_pos; assumption).
    assert (m1 * Rabs (ln y' - ln Y) <= 16 / 100 * (23 / 100000000)) by (apply Rmult_le_compat; try apply Rabs_pos; unfold m1; lra).
    lra. }
  rewrite power_pos by lra. unfold Rpower.
  replace (fval (p y m) - exp (m1 * ln Y)) with ((fval (p y m) - exp (mf * ln y')) + (exp (mf * ln y') - exp (m1 * ln Y))) by ring.
  eapply Rle_trans; [apply Rabs_triang|]. lra.
Qed.

Lemma pq_ratio_far : forall a b, 27 / 100 <= a -> 27 / 100 <= b ->
  Rabs ((c1 + c2 * a) / (1 + c3 * a) - (c1 + c2 * b) / (1 + c3 * b)) <= 9 / 100 * Rabs (a - b).
Proof.
  intros a b A B. unfold c1, c2, c3.
  assert (DA : 6 <= 1 + 186875 / 10000 * a) by lra. assert (DB : 6 <= 1 + 186875 / 10000 * b) by lra.
  set (u := 1 + 186875 / 10000 * a) in *. set (v := 1 + 186875 / 10000 * b) in *.
  replace ((8359375 / 10000000 + 18851563 / 1000000 * a) / u - (8359375 / 10000000 + 18851563 / 1000000 * b) / v)
    with ((18851563 / 1000000 - 8359375 / 10000000 * (186875 / 10000)) * (a - b) * / (u * v)) by (unfold u, v in *; field; lra).
  assert (UV : 36 <= u * v) by nra. assert (I : 0 < / (u * v) <= / 36) by (split; [apply Rinv_0_lt_compat; lra|apply Rinv_le_contravar; lra]).
  rewrite Rabs_mult, (Rabs_pos_eq (/ (u * v))), Rabs_mult by lra. rewrite (Rabs_pos_eq (_ - _)) by lra.
  pose proof (Rabs_pos (a - b)). nra.
Qed.

Lemma power_top : forall z y, 0 < z <= 10015 / 10000 -> 0 <= y <= 79 -> power z y <= 115 / 100.
Proof.
  intros z y Z YY. rewrite power_pos by lra. unfold Rpower. pose proof (ln_le_sub z ltac:(lra)) as LZ.
  eapply Rle_trans; [apply (exp_below _ (125 / 1000)); [nra|lra]|lra].
Qed.

Lemma pq_enc_far : forall L x, accurate L -> is_num x -> fval x <= 18000 ->
  approx (oetf L TBT2100PQ x) (pq_encode (Rmax (fval x) 0)) (1 / 4000) /\ 0 <= pq_encode (Rmax (fval x) 0) <= 12 / 10.
Proof.
  intros L x A N B0. destruct (Rle_lt_dec (fval x) 4) as [D|D].
  { split; [apply pq_enc_max; assumption|]. split; [unfold pq_encode; cbv zeta; apply power_ge0|]. unfold pq_encode. cbv zeta.
    set (Y := Rmax (fval x) 0 / 10000). assert (YB : 0 <= Y <= 1) by (unfold Y, Rmax; destruct (Rle_dec (fval x) 0); lra).
    pose proof (power_le_1 Y m1 YB ltac:(unfold m1; lra)) as P1. pose proof (power_ge0 Y m1) as P0. set (a := power Y m1) in *.
    apply Rle_trans with (115 / 100); [|lra]. apply power_top; [|unfold m2; lra]. unfold c1, c2, c3.
    set (num := 8359375 / 10000000 + 18851563 / 1000000 * a). set (den := 1 + 186875 / 10000 * a).
    assert (DP : 0 < den) by (unfold den; lra). assert (E : num / den * den = num) by (field; lra).
    split; [apply Rmult_lt_reg_r with den|apply Rmult_le_reg_r with den]; try exact DP; rewrite E; unfold num, den; lra. }
  rewrite (Rmax_left (fval x) 0) by lra. run_f32. cbv zeta.
  assert (N0 : is_num (f32_lit 0 0)) by (split; reflexivity).
  assert (V0 : fval (f32_lit 0 0) = 0) by reflexivity.
  destruct (acc_max _ A x (f32_lit 0 0) N N0) as (NX & VX). rewrite V0, Rmax_left in VX by lra.
  set (e := l_max L x (f32_lit 0 0)) in *. set (X := fval x) in *.
  assert (C4 : approx (f32_lit 10000 0) 10000 0) by const_approx. apply const_val in C4. destruct C4 as (V4 & N4 & _).
  assert (CM : approx (f32_lit 15930176 8) m1 (1 / 100000000)) by (unfold m1; const_approx). destruct CM as (NM & EM).
  assert (CC2 : approx (f32_lit 18851563 6) c2 (1 / 1000000)) by (unfold c2; const_approx).
  assert (CC1 : approx (f32_lit 8359375 7) c1 0) by (unfold c1; const_approx).
  assert (CC3 : approx (f32_lit 186875 4) c3 0) by (unfold c3; const_approx).
  assert (C1 : approx (f32_lit 1 0) 1 0) by const_approx.
  assert (CE : approx (f32_lit 7884375 5) m2 0) by (unfold m2; const_approx). apply const_val in CE. destruct CE as (VE & NE & _).
  destruct (f32_div_num e (f32_lit 10000 0) NX N4) as (NY & VY); [lra|apply big_bound; rewrite VX, V4; apply Rabs_le; lra|].
  rewrite VX, V4 in VY. set (Y := X / 10000) in *. assert (YB : 4 / 10000 <= Y <= 18 / 10) by (unfold Y; lra).
  destruct (pq_inner_far (l_pow L) _ _ Y (acc_pow _ A) NY VY NM YB EM) as ((NYM & EYM) & PY).
  set (ym := l_pow L (f32_div e (f32_lit 10000 0)) (f32_lit 15930176 8)) in *.
  pose proof EYM as EYM'. apply Rabs_le_inv in EYM'. set (a := fval ym) in *.
  pose proof (exact_approx ym NYM) as HA. fold a in HA.
  assert (AB : 27 / 100 <= a <= 116 / 100) by lra.
  (* numerator *)
  pose proof (approx_mul _ _ _ _ _ _ (116 / 100) 19 23 HA CC2) as H1. rewrite (Rabs_pos_eq a), (Rabs_pos_eq c2) in H1 by (unfold c2; lra).
  specialize (H1 ltac:(lra) ltac:(unfold c2; lra) ltac:(lra) ltac:(lra)).
  assert (B1 : 0 <= a * c2 <= 116 / 100 * 19) by (unfold c2; split; nra).
  pose proof (approx_add _ _ _ _ _ _ 24 H1 CC1) as H2. rewrite (Rabs_pos_eq (a * c2 + c1)) in H2 by (unfold c1; lra).
  specialize (H2 ltac:(unfold half_ulp, c1; lra) ltac:(lra)).
  (* denominator *)
  pose proof (approx_mul _ _ _ _ _ _ (116 / 100) 19 23 HA CC3) as H3. rewrite (Rabs_pos_eq a), (Rabs_pos_eq c3) in H3 by (unfold c3; lra).
  specialize (H3 ltac:(lra) ltac:(unfold c3; lra) ltac:(lra) ltac:(lra)).
  assert (B3 : 0 <= a * c3 <= 116 / 100 * 19) by (unfold c3; split; nra).
  pose proof (approx_add _ _ _ _ _ _ 24 H3 C1) as H4. rewrite (Rabs_pos_eq (a * c3 + 1)) in H4 by lra.
  specialize (H4 ltac:(unfold half_ulp; lra) ltac:(lra)).
  (* quotient *)
  assert (RB : forall y, 27 / 100 <= y <= 116 / 100 -> 83 / 100 <= (c1 + c2 * y) / (1 + c3 * y) <= 10014 / 10000).
  { intros y Hy. unfold c1, c2, c3. set (num := 8359375 / 10000000 + 18851563 / 1000000 * y). set (den := 1 + 186875 / 10000 * y).
    assert (DP : 0 < den) by (unfold den; lra). assert (E : num / den * den = num) by (field; lra).
    split; apply Rmult_le_reg_r with den; try exact DP; rewrite E; unfold num, den; lra. }
  pose proof (RB a AB) as RA. pose proof (RB (power Y m1) ltac:(lra)) as RY.
  replace (a * c2 + c1) with (c1 + c2 * a) in H2 by ring. replace (a * c3 + 1) with (1 + c3 * a) in H4 by ring.
  pose proof (approx_div2 _ _ _ _ _ _ 6 (10014 / 10000) (11 / 10) H2 H4) as H5. rewrite (Rabs_pos_eq (_ / _)) in H5 by lra.
  specialize (H5 ltac:(lra) ltac:(unfold half_ulp, c3; lra) ltac:(lra)).
  unfold half_ulp in H5. specialize (H5 ltac:(lra) ltac:(lra)).
  set (r := f32_div (f32_add _ _) _) in *. destruct H5 as (NR & ER). pose proof (pq_ratio_far a (power Y m1) (proj1 AB) ltac:(lra)) as PR.
  set (RR := (c1 + c2 * power Y m1) / (1 + c3 * power Y m1)) in *. set (RA' := (c1 + c2 * a) / (1 + c3 * a)) in *.
  assert (E5 : Rabs (fval r - RR) <= 19 / 10000000).
  { replace (fval r - RR) with ((fval r - RA') + (RA' - RR)) by ring. eapply Rle_trans; [apply Rabs_triang|]. lra. }
  pose proof E5 as E5'. apply Rabs_le_inv in E5'. set (r' := fval r) in *.
  unfold pq_encode. cbv zeta. fold Y. fold RR.
  split; [|split; [apply power_ge0|eapply Rle_trans; [apply power_top; unfold m2; lra|lra]]].
  eapply approx_weaken; [apply (pow_abs (l_pow L) r _ r' m2 (115 / 100) (12 / 100) (acc_pow _ A) NR NE eq_refl VE); try lra; [unfold m2; lra|apply power_top; unfold m2; lra|unfold m2; lra]|].
  pose proof (power_base m2 r' RR (10015 / 10000) ltac:(unfold m2; lra) ltac:(lra) ltac:(lra)) as PB.
  pose proof (power_top (10015 / 10000) (m2 - 1) ltac:(lra) ltac:(unfold m2; lra)) as PD.
  pose proof (power_ge0 (10015 / 10000) (m2 - 1)).
  assert (m2 * power (10015 / 10000) (m2 - 1) * Rabs (r' - RR) <= 79 * (115 / 100) * (19 / 10000000)).
  { assert (M2 : 0 <= m2 <= 79) by (unfold m2; lra).
    apply Rmult_le_compat; [apply Rmult_le_pos; lra|apply Rabs_pos|apply Rmult_le_compat; lra|exact E5]. }
  eapply Rle_trans; [exact PB|]. unfold m2 in *. lra.
Qed.
