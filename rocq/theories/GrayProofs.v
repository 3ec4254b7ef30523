(** Gray through the primaries matrices, with errors relative to the
    brightness; the curves for such small changes of the light. *)

From Coq Require Import List ZArith Bool Arith Reals Lia Lra Psatz.
From Coq Require Import Floats.SpecFloat.
From Flocq Require Import Core.
From Verif Require Import Base Types F32 Vector SpecColor SpecReal FloatProofs AccProofs ColorR SpecTransfer PowerProofs MathProofs SpecMath
  LaneProofs TransferProofs Math RecolorProofs GamutProofs.
Import ListNotations.
Local Open Scope R_scope.

(** * Matrices applied to numbers of any size up to 100000 *)

Lemma dot_scale : forall a b c A B C x y z vx vy vz e M CA CB CC,
  approx a A (15 / 100000000) -> approx b B (15 / 100000000) -> approx c C (15 / 100000000) ->
  Rabs A <= CA -> Rabs B <= CB -> Rabs C <= CC -> CA + CB + CC <= 6 ->
  approx x vx e -> approx y vy e -> approx z vz e -> Rabs vx <= M -> Rabs vy <= M -> Rabs vz <= M -> 0 <= M <= 20000 -> 0 <= e <= M / 1000 + 1 / 1000000000 ->
  approx (dot a b c x y z) (vx * A + vy * B + vz * C) ((CA + CB + CC) * e + M * (5 / 10000000 + 2 / 10000000 * (CA + CB + CC)) + 1 / 10000000000000).
Proof.
  intros a b c A B C x y z vx vy vz e M CA CB CC HA HB HC BA BB BC S HX HY HZ BX BY BZ MB E.
  pose proof (Rabs_pos A). pose proof (Rabs_pos B). pose proof (Rabs_pos C).
  assert (P : forall CQ, 0 <= CQ <= 6 -> 0 <= M * CQ <= 120000 /\ 0 <= e * CQ <= M * CQ / 1000 + 6 / 1000000000).
  { intros CQ H2. split; [nra|]. split; [nra|]. apply Rle_trans with ((M / 1000 + 1 / 1000000000) * CQ); [apply Rmult_le_compat_r; lra|lra]. }
  assert (MU : forall q Q w vw CQ, approx q Q (15 / 100000000) -> Rabs Q <= CQ -> 0 <= CQ <= 6 -> approx w vw e -> Rabs vw <= M ->
    approx (f32_mul w q) (vw * Q) (CQ * e + M * (1502 / 10000000000) + 61 / 1000000000 * (M * CQ) + 5 / 1000000000000000) /\ Rabs (vw * Q) <= M * CQ).
  { intros q Q w vw CQ HQ BQ CB' HW BW. destruct (P CQ CB'). split.
    - eapply approx_le; [apply (approx_mul _ _ _ _ _ _ M CQ (1001 / 1000 * (M * CQ) + M / 1000000 + 1 / 100000000) HW HQ BW BQ); nra|].
      unfold half_ulp. nra.
    - rewrite Rabs_mult. apply Rmult_le_compat; try apply Rabs_pos; assumption. }
  destruct (MU a A x vx CA HA BA ltac:(lra) HX BX) as (M1 & B1).
  destruct (MU b B y vy CB HB BB ltac:(lra) HY BY) as (M2 & B2).
  destruct (MU c C z vz CC HC BC ltac:(lra) HZ BZ) as (M3 & B3). clear MU.
  destruct (P CA ltac:(lra)). destruct (P CB ltac:(lra)). destruct (P CC ltac:(lra)).
  unfold dot. cbn [fadd fmul f32_ops].
  pose proof (approx_add _ _ _ _ _ _ (101 / 100 * (M * CA + M * CB) + M / 1000000 + 1 / 10000000) M1 M2) as S1.
  pose proof (Rabs_triang (vx * A) (vy * B)) as T1. specialize (S1 ltac:(lra) ltac:(lra)).
  pose proof (approx_add _ _ _ _ _ _ (102 / 100 * (M * CA + M * CB + M * CC) + M / 100000 + 1 / 1000000) S1 M3) as S2.
  pose proof (Rabs_triang (vx * A + vy * B) (vz * C)) as T2. unfold half_ulp in S2. specialize (S2 ltac:(lra) ltac:(lra)).
  eapply approx_le; [exact S2|]. lra.
Qed.

Ltac row_scale E := eapply approx_le;
  [eapply dot_scale; [coef|coef|coef|apply Rle_refl|apply Rle_refl|apply Rle_refl|abs_lits|eassumption|eassumption|eassumption|eassumption|eassumption|eassumption|lra|exact E]|
   match goal with |- (?s * _ + _ * (_ + _ * ?s) + _ <= ?c * _ + _ + _) => let S := fresh in assert (S : s <= c) by abs_lits; revert S; generalize s; intros; nra end].

Lemma to_xyz_scale : forall p v w M, approx3 v w 0 -> within3 w M -> 0 <= M <= 10010 ->
  approx3 (to_xyz p v) (to_xyz p w) (111 / 100 * 0 + 8 / 10000000 * M + 1 / 10000000000000) /\ within3 (to_xyz p w) (111 / 100 * M).
Proof.
  intros p ((a, b), c) ((x, y), z) M (HA & HB & HC) (BX & BY & BZ) MB.
  assert (E : 0 <= 0 <= M / 1000 + 1 / 1000000000) by lra.
  split.
  - destruct p; cbn [to_xyz approx3]; (split; [|split]); row_scale E.
  - apply Rabs_le_inv in BX. apply Rabs_le_inv in BY. apply Rabs_le_inv in BZ.
    destruct p; cbn [to_xyz within3]; (split; [|split]); unfold dot; cbn [fadd fmul flit R_ops]; lits; apply Rabs_le; lra.
Qed.

Lemma from_xyz_scale : forall p v w e M, approx3 v w e -> within3 w M -> 0 <= M <= 12000 -> 0 <= e <= M / 1000 + 1 / 1000000000 ->
  approx3 (from_xyz p v) (from_xyz p w) (58 / 10 * e + 17 / 10000000 * M + 1 / 10000000000000).
Proof.
  intros p ((a, b), c) ((x, y), z) e M (HA & HB & HC) (AX & AY & AZ) MB E.
  destruct p; cbn [from_xyz approx3]; (split; [|split]); row_scale E.
Qed.

(** Both matrices: the error is 7 millionths of the largest component *)
Lemma light_scale : forall ps pd a b c M, is_num a -> is_num b -> is_num c -> within3 (fval a, fval b, fval c) M -> 0 <= M <= 10010 ->
  approx3 (from_xyz pd (to_xyz ps (a, b, c))) (from_xyz pd (to_xyz ps (fval a, fval b, fval c))) (7 / 1000000 * M + 1 / 1000000000000).
Proof.
  intros ps pd a b c M NA NB NC W MB. set (w := (fval a, fval b, fval c)) in *.
  assert (A0 : approx3 (a, b, c) w 0) by (repeat split; try apply NA; try apply NB; try apply NC; rewrite Rminus_diag_eq, Rabs_R0 by reflexivity; lra).
  destruct (to_xyz_scale ps _ _ M A0 W MB) as (X1 & X2).
  pose proof (from_xyz_scale pd _ _ _ _ X1 X2 ltac:(lra) ltac:(lra)) as F1.
  destruct (from_xyz pd (to_xyz ps (a, b, c))) as ((q1, q2), q3). destruct (from_xyz pd (to_xyz ps w)) as ((p1, p2), p3).
  destruct F1 as (G1 & G2 & G3). split; [|split]; (eapply approx_le; [eassumption|]); lra.
Qed.

(** Gray is gray in all primaries: they share their white *)
Lemma gray_light : forall ps pd d, near3 (from_xyz pd (to_xyz ps (d, d, d))) (d, d, d) (4 / 1000000 * Rabs d).
Proof.
  intros ps pd d. assert (AD : Rabs d = d \/ Rabs d = - d) by (unfold Rabs; destruct (Rcase_abs d); auto). pose proof (Rabs_pos d) as PD.
  destruct ps, pd; cbn [to_xyz from_xyz near3]; (split; [|split]); unfold dot; cbn [fadd fmul flit R_ops]; lits; apply Rabs_le; destruct AD as [AD|AD]; rewrite AD in *; lra.
Qed.

Lemma gray_acc : forall ps pd d, is_num d -> Rabs (fval d) <= 10010 ->
  approx3 (from_xyz pd (to_xyz ps (d, d, d))) (fval d, fval d, fval d) (11 / 1000000 * Rabs (fval d) + 1 / 1000000000000).
Proof.
  intros ps pd d N B. pose proof (Rabs_pos (fval d)).
  pose proof (light_scale ps pd d d d (Rabs (fval d)) N N N ltac:(repeat split; apply Rle_refl) ltac:(lra)) as HL.
  pose proof (gray_light ps pd (fval d)) as G.
  destruct (from_xyz pd (to_xyz ps (d, d, d))) as ((q1, q2), q3). destruct (from_xyz pd (to_xyz ps (fval d, fval d, fval d))) as ((p1, p2), p3).
  destruct HL as (H1 & H2 & H3). destruct G as (G1 & G2 & G3). split; [|split]; (eapply approx_weaken; [eassumption|]); lra.
Qed.

(** * The curves, for light that changes by a small part of itself *)

Lemma power_plus : forall x y p, 0 <= x -> 0 <= y -> 0 < p <= 1 -> power (x + y) p <= power x p + power y p.
Proof.
  intros x y p X Y P. destruct (Req_dec x 0) as [->|X0]; [rewrite Rplus_0_l, power_0; lra|].
  destruct (Req_dec y 0) as [->|Y0]; [rewrite Rplus_0_r, power_0; lra|].
  set (s := x + y). assert (S : 0 < s) by (unfold s; lra).
  assert (H : forall z, 0 < z <= s -> power s p * (z / s) <= power z p).
  { intros z Z. assert (Q : 0 < z / s) by (apply Rdiv_lt_0_compat; lra).
    assert (Q1 : z / s <= 1) by (apply Rmult_le_reg_r with s; [lra|]; unfold Rdiv; rewrite Rmult_assoc, Rinv_l by lra; lra).
    assert (E : power z p = power s p * power (z / s) p) by (rewrite !power_pos by lra; rewrite Rpower_mult_distr by lra; f_equal; field; lra).
    rewrite E. apply Rmult_le_compat_l; [apply power_ge0|]. rewrite power_pos by exact Q.
    rewrite <- (Rpower_1 (z / s)) at 1 by exact Q. unfold Rpower. apply exp_le.
    pose proof (ln_le_0 (z / s) ltac:(lra)). nra. }
  pose proof (H x ltac:(unfold s; lra)). pose proof (H y ltac:(unfold s; lra)).
  replace (power s p) with (power s p * (x / s) + power s p * (y / s)) by (unfold s; field; lra). lra.
Qed.

Lemma power_close : forall a b p r s, 0 <= a <= b -> a <= 2 -> 0 < p <= 1 -> 0 <= r -> 0 <= s -> b - a <= r * a + s ->
  0 <= power b p - power a p <= 2 * r + power s p.
Proof.
  intros a b p r s A A2 P R S D. split; [assert (power a p <= power b p) by (apply power_le; lra); lra|].
  assert (B1 : power b p <= power (a * (1 + r) + s) p) by (apply power_le; lra).
  pose proof (power_plus (a * (1 + r)) s p ltac:(nra) S P) as B2.
  assert (B3 : power (a * (1 + r)) p <= power a p + 2 * r).
  { destruct (Req_dec a 0) as [->|A0]; [rewrite Rmult_0_l, power_0; lra|].
    assert (E : power (a * (1 + r)) p = power a p * power (1 + r) p) by (rewrite !power_pos by nra; symmetry; apply Rpower_mult_distr; lra).
    assert (PA : power a p <= 2).
    { pose proof (bernoulli a p ltac:(lra) ltac:(lra)). nra. }
    pose proof (bernoulli (1 + r) p ltac:(lra) ltac:(lra)) as BE. pose proof (power_ge0 a p).
    rewrite E. apply Rle_trans with (power a p * (1 + p * r)).
    - apply Rmult_le_compat_l; [lra|]. lra.
    - assert (p * r <= r) by nra. assert (power a p * (p * r) <= 2 * r) by (apply Rmult_le_compat; nra). lra. }
  lra.
Qed.

(** Differences of 4/100000 of the light and 5e-8 of white are below 9/10 of
    an 8-bit level *)
Lemma encoded_close : forall t a b, t <> TBT2100PQ -> 0 <= a <= b -> a <= 2 -> b - a <= 4 / 100000 * a + 5 / 100000000 ->
  - (1 / 1000000) <= encoded t b - encoded t a <= 35 / 10000.
Proof.
  intros t a b T A A2 D.
  assert (GE : gentle t -> - (1 / 1000000) <= encoded t b - encoded t a <= 35 / 10000).
  { intros G. pose proof (encoded_lip t a b G A). lra. }
  destruct t; try congruence; try (apply GE; unfold gentle; auto; fail).
  - cbn [encoded]. assert (S : power (5 / 100000000) (10 / 22) <= 33 / 10000) by (left; apply (power_below _ _ _ 10 22); simpl; lra).
    pose proof (power_close a b (10 / 22) (4 / 100000) (5 / 100000000) A A2 ltac:(lra) ltac:(lra) ltac:(lra) D). lra.
  - cbn [encoded]. assert (S : power (5 / 100000000) (10 / 28) <= 33 / 10000) by (left; apply (power_below _ _ _ 10 28); simpl; lra).
    pose proof (power_close a b (10 / 28) (4 / 100000) (5 / 100000000) A A2 ltac:(lra) ltac:(lra) ltac:(lra) D). lra.
  - cbn [encoded]. pose proof hlg_threshold as HT.
    assert (SQ : forall u v, 0 <= u <= v -> v - u <= 4 / 100000 * u + 5 / 100000000 -> u <= 1 / 12 -> 0 <= sqrt (3 * v) - sqrt (3 * u) <= 33 / 10000).
    { intros u v U V W. assert (M : sqrt (3 * u) <= sqrt (3 * v)) by (apply sqrt_le_1; lra). split; [lra|].
      pose proof (sqrt_pos (3 * u)) as P1. pose proof (sqrt_pos (3 * v)) as P2.
      pose proof (sqrt_sqrt (3 * u) ltac:(lra)) as S1. pose proof (sqrt_sqrt (3 * v) ltac:(lra)) as S2.
      set (p := sqrt (3 * u)) in *. set (q := sqrt (3 * v)) in *.
      destruct (Rle_dec (q - p) (33 / 10000)) as [|C]; [lra|exfalso]. assert (33 / 10000 * (33 / 10000) < (q - p) * (q - p)) by (apply Rmult_le_0_lt_compat; lra). nra. }
    assert (LN : forall u v, 1 / 12 <= u <= v -> 0 <= (ha * ln (12 * v - hb) + hc) - (ha * ln (12 * u - hb) + hc) <= 31 / 10 * (v - u)).
    { intros u v U. assert (M : ln (12 * u - hb) <= ln (12 * v - hb)) by (apply TransferProofs.ln_le; unfold hb; lra).
      pose proof (ln_lip (12 * v - hb) (12 * u - hb) (1 - hb) ltac:(unfold hb; lra) ltac:(lra) ltac:(lra)) as H.
      replace (12 * v - hb - (12 * u - hb)) with (12 * (v - u)) in H by ring. rewrite !Rabs_pos_eq in H by lra.
      assert (Q : 12 * (v - u) / (1 - hb) <= 168 / 10 * (v - u)).
      { unfold Rdiv. assert (/ (1 - hb) <= 14 / 10) by (replace (14 / 10) with (/ (10 / 14)) by field; apply Rinv_le_contravar; unfold hb; lra). nra. }
      set (l1 := ln (12 * v - hb)) in *. set (l2 := ln (12 * u - hb)) in *. unfold ha. lra. }
    unfold hlg_encode. destruct (Rle_dec a _) as [HA|HA], (Rle_dec b _) as [HB|HB]; try lra.
    + pose proof (SQ a b A D HA). lra.
    + pose proof (SQ a (1 / 12) ltac:(lra) ltac:(lra) HA) as H1. pose proof (LN (1 / 12) b ltac:(lra)) as H2.
      replace (sqrt (3 * (1 / 12))) with (1 / 2) in H1 by (replace (3 * (1 / 12)) with (1 / 2 * (1 / 2)) by field; symmetry; apply sqrt_square; lra).
      replace (12 * (1 / 12)) with 1 in H2 by field. lra.
    + pose proof (LN a b ltac:(lra)). lra.
Qed.

Lemma encoded_mono : forall t a b, t <> TBT2100PQ -> 0 <= a <= b -> - (1 / 1000000) <= encoded t b - encoded t a.
Proof.
  intros t a b T A. destruct t; try congruence;
    try (match goal with |- - _ <= encoded ?t b - encoded ?t a => pose proof (encoded_lip t a b ltac:(auto) A); lra end).
  - cbn [encoded]. assert (power a (10 / 22) <= power b (10 / 22)) by (apply power_le; lra). lra.
  - cbn [encoded]. assert (power a (10 / 28) <= power b (10 / 28)) by (apply power_le; lra). lra.
  - cbn [encoded]. pose proof hlg_threshold as HT.
    assert (SQ : forall v, 0 <= v <= 1 / 12 -> sqrt (3 * v) <= 1 / 2).
    { intros v V. apply Rle_trans with (sqrt (1 / 2 * (1 / 2))); [apply sqrt_le_1; lra|]. rewrite sqrt_square by lra. lra. }
    assert (LN : forall u v, 1 / 12 <= u <= v -> ha * ln (12 * u - hb) + hc <= ha * ln (12 * v - hb) + hc).
    { intros u v U. assert (M : ln (12 * u - hb) <= ln (12 * v - hb)) by (apply TransferProofs.ln_le; unfold hb; lra). unfold ha in *. lra. }
    unfold hlg_encode. destruct (Rle_dec a _) as [HA|HA], (Rle_dec b _) as [HB|HB]; try lra.
    + assert (sqrt (3 * a) <= sqrt (3 * b)) by (apply sqrt_le_1; lra). lra.
    + pose proof (SQ a ltac:(lra)). pose proof (LN (1 / 12) b ltac:(lra)) as H2. replace (12 * (1 / 12)) with 1 in H2 by field. lra.
    + pose proof (LN a b ltac:(lra)). lra.
Qed.

Lemma encoded_1 : forall t, t <> TBT2100PQ -> Rabs (encoded t 1 - 1) <= 1 / 1000.
Proof.
  intros t T. destruct t; try congruence; cbn [encoded]; try (rewrite ?power_1; apply Rabs_le; lra).
  - unfold srgb_encode. destruct (Rle_dec 1 _); [lra|]. rewrite power_1. apply Rabs_le; lra.
  - unfold sdr_encode. destruct (Rlt_dec 1 _); [lra|]. rewrite power_1. apply Rabs_le; lra.
  - unfold hlg_encode. destruct (Rle_dec 1 _); [lra|].
    assert (LB : 2457 / 1000 <= ln (12 * 1 - hb) <= 2465 / 1000).
    { split.
      - rewrite <- (ln_exp (2457 / 1000)). apply TransferProofs.ln_le; [apply exp_pos|].
        replace (2457 / 1000) with (- - (2457 / 1000)) by ring. rewrite exp_Ropp.
        pose proof (exp_close (2457 / 4000) ltac:(lra)) as (H & _).
        assert (C : 54103 / 100000 <= exp (- (2457 / 4000))) by (eapply Rle_trans; [|exact H]; unfold exp_poly; lra).
        replace (- (2457 / 1000)) with (- (2457 / 4000) + (- (2457 / 4000) + (- (2457 / 4000) + - (2457 / 4000)))) by lra. rewrite !exp_plus.
        set (q := exp (- (2457 / 4000))) in *. assert (Q2 : 29271 / 100000 <= q * q) by nra.
        assert (Q4 : 8567 / 100000 <= q * (q * (q * q))) by nra.
        replace (12 * 1 - hb) with (/ / (12 * 1 - hb)) by (unfold hb; field). apply Rinv_le_contravar; [apply Rinv_0_lt_compat; unfold hb; lra|].
        apply Rle_trans with (8567 / 100000); [|exact Q4]. replace (8567 / 100000) with (/ (100000 / 8567)) by field. apply Rinv_le_contravar; unfold hb; lra.
      - rewrite <- (ln_exp (2465 / 1000)). apply TransferProofs.ln_le; [unfold hb; lra|].
        replace (2465 / 1000) with (- - (2465 / 1000)) by ring. rewrite exp_Ropp.
        pose proof (exp_close (2465 / 4000) ltac:(lra)) as (_ & H).
        assert (C : exp (- (2465 / 4000)) <= 53999 / 100000) by (eapply Rle_trans; [exact H|]; unfold exp_poly; lra).
        replace (- (2465 / 1000)) with (- (2465 / 4000) + (- (2465 / 4000) + (- (2465 / 4000) + - (2465 / 4000)))) by lra. rewrite !exp_plus.
        set (q := exp (- (2465 / 4000))) in *. assert (P : 0 < q) by apply exp_pos. assert (Q2 : q * q <= 29159 / 100000) by nra.
        assert (Q4 : q * (q * (q * q)) <= 8503 / 100000) by nra.
        apply Rle_trans with (/ (8503 / 100000)); [unfold hb; lra|]. apply Rinv_le_contravar; [repeat apply Rmult_lt_0_compat; exact P|exact Q4]. }
    unfold ha, hc. apply Rabs_le. lra.
Qed.

Lemma encoded_white : forall t x, t <> TBT2100PQ -> 9999 / 10000 <= x -> 1 - 15 / 10000 <= encoded t x.
Proof.
  assert (P : forall x p, 0 < x <= 1 -> 0 < p <= 1 -> x <= power x p).
  { intros x p X PP. rewrite power_pos by lra. rewrite <- (Rpower_1 x) at 1 by lra. unfold Rpower. apply exp_le.
    pose proof (ln_le_0 x ltac:(lra)). nra. }
  intros t x T X. pose proof (encoded_1 t T) as E1. apply Rabs_le_inv in E1.
  destruct (Rle_dec 1 x) as [H|H]; [pose proof (encoded_mono t 1 x T ltac:(lra)); lra|].
  destruct t; try congruence; cbn [encoded] in *.
  - lra.
  - pose proof (P x (10 / 22) ltac:(lra) ltac:(lra)). lra.
  - pose proof (P x (10 / 28) ltac:(lra) ltac:(lra)). lra.
  - unfold srgb_encode in *. destruct (Rle_dec x _); [lra|]. pose proof (P x (5 / 12) ltac:(lra) ltac:(lra)). lra.
  - unfold sdr_encode in *. destruct (Rlt_dec x _); [lra|]. pose proof (P x (9 / 20) ltac:(lra) ltac:(lra)). lra.
  - unfold hlg_encode in *. destruct (Rle_dec x _); [lra|]. destruct (Rle_dec 1 _); [lra|].
    pose proof (ln_lip (12 * 1 - hb) (12 * x - hb) 11 ltac:(lra) ltac:(unfold hb; lra) ltac:(unfold hb; lra)) as LL.
    replace (12 * 1 - hb - (12 * x - hb)) with (12 * (1 - x)) in LL by ring. rewrite (Rabs_pos_eq (12 * (1 - x))) in LL by lra.
    apply Rabs_le_inv in LL. set (l1 := ln (12 * 1 - hb)) in *. set (l2 := ln (12 * x - hb)) in *. unfold ha in *. lra.
Qed.

(** Light below 1.1e-8 of white is black *)
Lemma encoded_black : forall t x, t <> TBT2100PQ -> 0 <= x <= 11 / 1000000000 -> - (1 / 1000000) <= 255 * encoded t x <= 4 / 10.
Proof.
  intros t x T X. destruct t; try congruence; cbn [encoded].
  - lra.
  - assert (S : power (11 / 1000000000) (10 / 22) <= 15 / 10000) by (left; apply (power_below _ _ _ 10 22); simpl; lra).
    assert (power x (10 / 22) <= power (11 / 1000000000) (10 / 22)) by (apply power_le; lra). pose proof (power_ge0 x (10 / 22)). lra.
  - assert (S : power (11 / 1000000000) (10 / 28) <= 15 / 10000) by (left; apply (power_below _ _ _ 10 28); simpl; lra).
    assert (power x (10 / 28) <= power (11 / 1000000000) (10 / 28)) by (apply power_le; lra). pose proof (power_ge0 x (10 / 28)). lra.
  - unfold srgb_encode. destruct (Rle_dec x _); lra.
  - unfold sdr_encode. destruct (Rlt_dec x _); lra.
  - unfold hlg_encode. destruct (Rle_dec x _); [|lra]. pose proof (sqrt_pos (3 * x)). split; [lra|].
    assert (sqrt (3 * x) <= sqrt (15 / 10000 * (15 / 10000))) by (apply sqrt_le_1; lra). rewrite sqrt_square in * by lra. lra.
Qed.

(** * Light brighter than white *)

Lemma ln_bright : forall x, 2 <= x <= 130000 -> 69 / 100 <= ln x <= 14.
Proof.
  intros x X. split.
  - pose proof ln_2 as L2. assert (ln 2 <= ln x) by (apply TransferProofs.ln_le; lra). lra.
  - rewrite <- (ln_exp 14). apply TransferProofs.ln_le; [lra|].
    assert (E : 5 / 4 <= exp (1 / 4)) by (pose proof (exp_ineq1_le (1 / 4)); lra).
    replace 14 with (INR 56 * (1 / 4)) by (simpl; lra).
    assert (P : forall n, exp (INR n * (1 / 4)) = exp (1 / 4) ^ n).
    { induction n as [|n IH]; [rewrite Rmult_0_l, exp_0; reflexivity|]. rewrite S_INR, Rmult_plus_distr_r, exp_plus, IH, Rmult_1_l. cbn [pow]. ring. }
    rewrite P. apply Rle_trans with ((5 / 4) ^ 56); [simpl; lra|]. apply pow_incr. lra.
Qed.

Lemma pow_bright : forall p x y, pow_accurate p -> is_num x -> is_num y -> 2 <= fval x <= 10020 -> 35 / 100 <= fval y <= 46 / 100 ->
  is_num (p x y) /\ 123 / 100 <= fval (p x y) <= 76.
Proof.
  intros p x y P NX NY X Y. destruct (P x y NX NY ltac:(lra) ltac:(rewrite Rabs_pos_eq; lra)) as (P1 & _ & _).
  pose proof (ln_bright (fval x) ltac:(lra)) as LB. set (l := ln (fval x)) in *.
  assert (LY : 24 / 100 <= fval y * l <= 65 / 10) by nra.
  assert (TX : tiny <= fval x) by (apply Rle_trans with (bpow radix2 0); [apply bpow_le; lia|change (bpow radix2 0) with 1; lra]).
  destruct (P1 TX ltac:(lra)) as (N & E). split; [exact N|].
  assert (LO : 124 / 100 <= Rpower (fval x) (fval y)) by (unfold Rpower; fold l; pose proof (exp_ineq1_le (fval y * l)); lra).
  assert (UP : Rpower (fval x) (fval y) <= 75).
  { apply Rle_trans with (Rpower (fval x) (23 / 50)); [unfold Rpower; apply exp_le; fold l; nra|].
    rewrite <- power_pos by lra. apply Rle_trans with (power 10020 (23 / 50)); [apply power_le; lra|left]. apply (power_below _ _ _ 23 50); simpl; lra. }
  assert (PE : 0 <= pow_error (fval x) (fval y) <= 1 / 100000).
  { unfold pow_error. fold l. rewrite !Rabs_pos_eq by lra. lra. }
  apply Rabs_le_inv in E. nra.
Qed.

(** Every curve but PQ and the linear one encodes light above 2 as a number
    above 1 *)
Lemma encode_bright : forall L t x, accurate L -> t <> TBT2100PQ -> t <> TLinear -> is_num x -> 2 <= fval x <= 10020 ->
  is_num (oetf L t x) /\ 101 / 100 <= fval (oetf L t x) <= 100.
Proof.
  intros L t x A TP TL N X.
  assert (CU : forall a A0 b B0 p, approx a A0 (1 / 10000000) -> 1 <= A0 <= 11 / 10 -> approx b B0 (1 / 100000000) -> A0 - 1 = B0 ->
    is_num p -> 123 / 100 <= fval p <= 76 -> is_num (f32_sub (f32_mul a p) b) /\ 101 / 100 <= fval (f32_sub (f32_mul a p) b) <= 100).
  { intros a A0 b B0 p HA AB HB EB NP PB.
    pose proof (approx_mul _ _ _ _ _ _ (11 / 10) 76 90 HA (exact_approx p NP)) as H1. rewrite (Rabs_pos_eq A0), (Rabs_pos_eq (fval p)) in H1 by lra.
    specialize (H1 ltac:(lra) ltac:(lra) ltac:(lra) ltac:(lra)).
    assert (AP : 123 / 100 * A0 <= A0 * fval p <= 76 * A0) by (split; nra).
    pose proof (approx_sub _ _ _ _ _ _ 95 H1 HB) as H2. rewrite (Rabs_pos_eq (A0 * fval p - B0)) in H2 by lra. unfold half_ulp in H2.
    specialize (H2 ltac:(lra) ltac:(lra)). destruct H2 as (N2 & E2). split; [exact N2|]. apply Rabs_le_inv in E2. lra. }
  destruct t; try congruence; run_f32.
  - assert (C : approx (f32_div (f32_lit 1 0) (f32_div (f32_lit 22 0) (f32_lit 10 0))) (10 / 22) (2 / 100000000)) by const_approx. destruct C as (NC & EC). apply Rabs_le_inv in EC.
    destruct (pow_bright _ x _ (acc_pow _ A) N NC X ltac:(lra)). split; [assumption|lra].
  - assert (C : approx (f32_div (f32_lit 1 0) (f32_div (f32_lit 28 0) (f32_lit 10 0))) (10 / 28) (2 / 100000000)) by const_approx. destruct C as (NC & EC). apply Rabs_le_inv in EC.
    destruct (pow_bright _ x _ (acc_pow _ A) N NC X ltac:(lra)). split; [assumption|lra].
  - assert (CT : approx (f32_lit 31308 7) (3361671 / 1073741824) 0) by const_approx. apply const_val in CT. destruct CT as (VT & NT & _).
    assert (CA : approx (f32_lit 1055 3) (1055 / 1000) (1 / 10000000)) by const_approx.
    assert (CB : approx (f32_lit 55 3) (55 / 1000) (1 / 100000000)) by const_approx.
    assert (CE : approx (f32_div (f32_lit 1 0) (f32_lit 24 1)) (5 / 12) (2 / 100000000)) by const_approx. destruct CE as (NE & EE). apply Rabs_le_inv in EE.
    pose proof (acc_le _ A x (f32_lit 31308 7) N NT ltac:(lra) ltac:(lra)) as CMP. rewrite VT in CMP.
    destruct (l_le L x (f32_lit 31308 7)); [exfalso; assert (fval x <= 3361671 / 1073741824) by (apply CMP; reflexivity); lra|].
    destruct (pow_bright _ x _ (acc_pow _ A) N NE X ltac:(lra)). eapply CU; try eassumption; lra.
  - assert (CT : approx (f32_lit 1805397 8) (9692651 / 536870912) 0) by const_approx. apply const_val in CT. destruct CT as (VT & NT & _).
    assert (CA : approx (f32_lit 1099 3) (1099 / 1000) (1 / 10000000)) by const_approx.
    assert (CB : approx (f32_lit 99 3) (99 / 1000) (1 / 100000000)) by const_approx.
    assert (CE : approx (f32_lit 45 2) (9 / 20) (2 / 100000000)) by const_approx. destruct CE as (NE & EE). apply Rabs_le_inv in EE.
    pose proof (acc_lt _ A x (f32_lit 1805397 8) N NT ltac:(lra) ltac:(lra)) as CMP. rewrite VT in CMP.
    destruct (l_lt L x (f32_lit 1805397 8)); [exfalso; assert (fval x < 9692651 / 536870912) by (apply CMP; reflexivity); lra|].
    destruct (pow_bright _ x _ (acc_pow _ A) N NE X ltac:(lra)). eapply CU; try eassumption; lra.
  - assert (N0 : is_num (f32_lit 0 0)) by (split; reflexivity).
    assert (V0 : fval (f32_lit 0 0) = 0) by reflexivity.
    destruct (acc_max _ A x (f32_lit 0 0) N N0) as (NM & VM). rewrite V0, Rmax_left in VM by lra.
    set (e := l_max L x (f32_lit 0 0)) in *.
    assert (CT : approx (f32_div (f32_lit 1 0) (f32_lit 12 0)) (11184811 / 134217728) 0) by const_approx.
    apply const_val in CT. destruct CT as (VT & NT & _).
    assert (C12 : approx (f32_lit 12 0) 12 0) by const_approx.
    assert (CA : approx (f32_lit 17883277 8) ha (1 / 100000000)) by (unfold ha; const_approx).
    assert (CB : approx (f32_lit 28466892 8) hb (3 / 100000000)) by (unfold hb; const_approx).
    assert (CC : approx (f32_lit 5599107 7) hc (3 / 100000000)) by (unfold hc; const_approx).
    pose proof (acc_le _ A e _ NM NT ltac:(lra) ltac:(lra)) as CMP. rewrite VT, VM in CMP.
    destruct (l_le L e _); [exfalso; assert (fval x <= 11184811 / 134217728) by (apply CMP; reflexivity); lra|]. clear CMP.
    pose proof (exact_approx e NM) as HE. rewrite VM in HE.
    pose proof (approx_mul _ _ _ _ _ _ 12 10020 120240 C12 HE) as H1. rewrite (Rabs_pos_eq 12), (Rabs_pos_eq (fval x)) in H1 by lra.
    specialize (H1 ltac:(lra) ltac:(lra) ltac:(lra) ltac:(lra)).
    pose proof (approx_sub _ _ _ _ _ _ 120250 H1 CB) as H2. rewrite (Rabs_pos_eq (12 * fval x - hb)) in H2 by (unfold hb; lra).
    specialize (H2 ltac:(unfold half_ulp, hb; lra) ltac:(lra)).
    set (z := f32_sub _ (f32_lit 28466892 8)) in *. destruct H2 as (NZ & H2). unfold half_ulp in H2. apply Rabs_le_inv in H2.
    assert (ZB : 23 <= fval z <= 130000) by (unfold hb in H2; lra).
    assert (ZT : tiny <= fval z) by (apply Rle_trans with (bpow radix2 0); [apply bpow_le; lia|change (bpow radix2 0) with 1; lra]).
    destruct (acc_ln _ A z NZ ZT) as (NL & HL).
    assert (LR : 3 <= ln (fval z) <= 14).
    { split; [|apply ln_bright; lra]. rewrite <- (ln_exp 3). apply TransferProofs.ln_le; [apply exp_pos|].
      pose proof (exp_close 1 ltac:(lra)) as (E1 & _). unfold exp_poly in E1.
      assert (E2 : 3678 / 10000 <= exp (- (1))) by lra. rewrite exp_Ropp in E2. set (q := exp 1) in *. assert (Q : 0 < q) by apply exp_pos.
      assert (QB : q <= 272 / 100). { apply Rmult_le_compat_r with (r := q) in E2; [|lra]. rewrite Rinv_l in E2 by lra. lra. }
      replace 3 with (1 + (1 + 1)) by lra. rewrite !exp_plus. fold q. assert (q * q <= 74 / 10) by nra. nra. }
    rewrite (Rabs_pos_eq (ln (fval z))) in HL by lra.
    assert (LA : approx (l_ln L z) (ln (fval z)) (1 / 100000)) by (split; [exact NL|lra]).
    pose proof (approx_mul _ _ _ _ _ _ (18 / 100) 14 3 CA LA) as H3. rewrite (Rabs_pos_eq ha) in H3 by (unfold ha; lra).
    specialize (H3 ltac:(unfold ha; lra) ltac:(apply Rabs_le; lra) ltac:(lra) ltac:(lra)).
    pose proof (approx_add _ _ _ _ _ _ 4 H3 CC) as H4. rewrite (Rabs_pos_eq (ha * _ + hc)) in H4 by (unfold ha, hc; lra).
    unfold half_ulp in H4. specialize (H4 ltac:(unfold ha, hc; lra) ltac:(lra)). destruct H4 as (N4 & E4). split; [exact N4|].
    apply Rabs_le_inv in E4. unfold ha, hc in E4. set (w := fval (f32_add _ _)) in *. clearbody w. lra.
Qed.
