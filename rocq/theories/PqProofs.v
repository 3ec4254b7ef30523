(** Lemmas for PQ sources: light of up to 10000, the error relative to it. *)

From Coq Require Import List ZArith Bool Arith Reals Lia Lra Psatz.
From Coq Require Import Floats.SpecFloat.
From Flocq Require Import Core.
From Verif Require Import Base Types Planes ImageM F32 Vector Simd SpecVector SimdProofs QuantProofs SpecGeom GeomProofs
  SpecColor SpecConvert SpecRun Formats Visit Convert VisitProofs ColorProofs ConvertProofs ExactProofs PropConvert PropFidelity
  SpecReal FloatProofs AccProofs TargetProofs PropColor ColorR SpecTransfer PowerProofs MathProofs SpecMath LaneProofs TransferProofs
  Math NegProofs RecolorProofs PropRecolor GamutProofs PropGamut IctcpProofs WideProofs.
Import ListNotations.
Local Open Scope R_scope.

(** * Decoding *)

(** [pq_first] for colors up to a little above 1 *)
Lemma pq_first_wide : forall p x y X, pow_accurate p -> is_num x -> fval x = X -> 0 <= X <= 1 + 1 / 20000 -> is_num y ->
  Rabs (fval y - 1 / m2) <= 1 / 1000000000 ->
  is_num (p x y) /\ 0 <= fval (p x y) <= 1 + 12 / 10000000 /\ power X (1 / m2) <= 1 + 65 / 100000000 /\
  (Rabs (fval (p x y) - power X (1 / m2)) <= 5 / 10000000 \/ (fval (p x y) <= 6 / 10 /\ power X (1 / m2) <= 6 / 10)).
Proof.
  intros p x y X P NX EX XB NY EY. destruct (Rle_dec X 1) as [L|L].
  - destruct (pq_first p x y X P NX EX ltac:(lra) NY EY) as (N & B & D). split; [exact N|]. split; [lra|]. split; [|exact D].
    pose proof (power_le_1 X (1 / m2) ltac:(lra) ltac:(unfold m2; lra)). lra.
  - pose proof EY as EY'. apply Rabs_le_inv in EY'. set (f := fval y) in *.
    assert (M2 : 1268 / 100000 <= 1 / m2 <= 12684 / 1000000) by (unfold m2; lra).
    destruct (P x y NX NY) as (P1 & _ & _); [lra|fold f; rewrite Rabs_pos_eq; lra|]. rewrite EX in P1. fold f in P1.
    assert (LN : 0 < ln X <= 1 / 20000) by (split; [rewrite <- ln_1; apply ln_increasing; lra|pose proof (ln_le_sub X ltac:(lra)); lra]).
    assert (TN : tiny <= X) by (assert (tiny <= 1) by (unfold tiny; apply Rle_trans with (bpow radix2 0); [apply bpow_le; lia|simpl; lra]); lra).
    destruct (P1 TN ltac:(nra)) as (N & B). unfold Rpower in B. rewrite power_pos by lra. unfold Rpower.
    assert (F1 : Rabs (f * ln X) <= 635 / 1000000000) by (rewrite Rabs_pos_eq; nra).
    assert (F2 : Rabs (1 / m2 * ln X) <= 635 / 1000000000) by (rewrite Rabs_pos_eq; nra).
    pose proof (exp_near_one _ _ F1 ltac:(lra)) as E1. pose proof (exp_near_one _ _ F2 ltac:(lra)) as E2.
    apply Rabs_le_inv in E1. apply Rabs_le_inv in E2.
    assert (F3 : Rabs ((f - 1 / m2) * ln X) <= 1 / 1000000000) by (rewrite Rabs_mult, (Rabs_pos_eq (ln X)) by lra; pose proof (Rabs_pos (f - 1 / m2)); nra).
    assert (E3 : Rabs (exp (f * ln X) - exp (1 / m2 * ln X)) <= 3 / 1000000000).
    { replace (f * ln X) with (1 / m2 * ln X + (f - 1 / m2) * ln X) by ring. rewrite exp_plus.
      pose proof (exp_near_one _ _ F3 ltac:(lra)) as E4. set (ee := exp ((f - 1 / m2) * ln X)) in *. set (aa := exp (1 / m2 * ln X)) in *.
      replace (aa * ee - aa) with (aa * (ee - 1)) by ring. rewrite Rabs_mult, (Rabs_pos_eq aa) by lra. pose proof (Rabs_pos (ee - 1)). nra. }
    assert (PE : pow_error X f <= 305 / 1000000000) by (unfold pow_error; rewrite (Rabs_pos_eq f) by lra; lra).
    assert (B' : Rabs (fval (p x y) - exp (f * ln X)) <= 32 / 100000000).
    { eapply Rle_trans; [exact B|]. assert (0 <= pow_error X f) by (unfold pow_error; pose proof (Rabs_pos f); pose proof (Rabs_pos (f * ln X)); lra). nra. }
    split; [exact N|]. apply Rabs_le_inv in B'. apply Rabs_le_inv in E3. split; [lra|]. split; [lra|]. left. apply Rabs_le. lra.
Qed.

(** The argument of the second power *)
Lemma pq_quotient : forall L x, accurate L -> is_num x -> fval x <= 1 + 1 / 20000 ->
  let W := pq_inner (power (fval x) (1 / m2)) in
  exists w g, eotf L TBT2100PQ x = f32_mul (l_pow L w g) (f32_lit 10000 0) /\
    is_num w /\ 0 <= fval w /\ 0 <= W <= 1001 / 1000 /\ Rabs (fval w - W) <= 2 / 10000000 + 84 / 1000000 * W /\
    is_num g /\ Rabs (fval g - 1 / m1) <= 6 / 10000000.
Proof.
  intros L x A N B. run_f32. cbv zeta.
  assert (N0 : is_num (f32_lit 0 0)) by (split; reflexivity).
  assert (V0 : fval (f32_lit 0 0) = 0) by reflexivity.
  destruct (acc_max _ A x (f32_lit 0 0) N N0) as (NM & VM). rewrite V0 in VM.
  set (i := l_max L x (f32_lit 0 0)) in *. set (X := Rmax (fval x) 0) in *.
  assert (PX : power (fval x) (1 / m2) = power X (1 / m2)).
  { unfold X, Rmax. destruct (Rle_dec (fval x) 0) as [Z|Z]; [|reflexivity]. rewrite power_0. unfold power. destruct (Rle_dec (fval x) 0); [reflexivity|lra]. }
  rewrite PX. assert (XB : 0 <= X <= 1 + 1 / 20000) by (unfold X; split; [apply Rmax_r|apply Rmax_lub; lra]).
  assert (CC2 : approx (f32_lit 18851563 6) c2 (1 / 1000000)) by (unfold c2; const_approx).
  assert (CC1 : approx (f32_lit 8359375 7) c1 0) by (unfold c1; const_approx).
  assert (CC3 : approx (f32_lit 186875 4) c3 0) by (unfold c3; const_approx).
  assert (CF : approx (f32_div (f32_lit 1 0) (f32_lit 7884375 5)) (1 / m2) (1 / 1000000000)) by (unfold m2; const_approx). destruct CF as (NF & EF).
  assert (CG : approx (f32_div (f32_lit 1 0) (f32_lit 15930176 8)) (1 / m1) (6 / 10000000)) by (unfold m1; const_approx). destruct CG as (NG & EG).
  destruct (pq_first_wide (l_pow L) i _ X (acc_pow _ A) NM VM XB NF EF) as (NE & EB & ET & EE).
  set (e := l_pow L i _) in *. set (E := power X (1 / m2)) in *.
  assert (E01 : 0 <= E) by (unfold E; apply power_ge0).
  pose proof (exact_approx e NE) as HE. set (ev := fval e) in *.
  pose proof (approx_sub _ _ _ _ _ _ 1 HE CC1) as H1.
  assert (A1 : Rabs (ev - c1) <= 9 / 10) by (unfold c1; apply Rabs_le; lra). specialize (H1 ltac:(lra) ltac:(lra)).
  destruct H1 as (NS & ES). destruct (acc_max _ A _ _ NS N0) as (NN & VN). rewrite V0 in VN.
  set (n := l_max L (f32_sub e (f32_lit 8359375 7)) (f32_lit 0 0)) in *. set (sv := fval (f32_sub e (f32_lit 8359375 7))) in *.
  assert (HN : approx n (Rmax (E - c1) 0) (6 / 10000000)).
  { split; [exact NN|]. rewrite VN. unfold half_ulp in ES. destruct EE as [EE|(EE1 & EE2)].
    - eapply Rle_trans; [apply max0_lip|]. replace (sv - (E - c1)) with ((sv - (ev - c1)) + (ev - E)) by ring.
      eapply Rle_trans; [apply Rabs_triang|]. lra.
    - apply Rabs_le_inv in ES. unfold c1 in *. rewrite !Rmax_right by lra. rewrite Rminus_diag_eq, Rabs_R0 by reflexivity. lra. }
  pose proof (approx_mul _ _ _ _ _ _ (1 + 12 / 10000000) 19 20 HE CC3) as H2. rewrite (Rabs_pos_eq ev), (Rabs_pos_eq c3) in H2 by (unfold c3; lra).
  specialize (H2 ltac:(lra) ltac:(unfold c3; lra) ltac:(lra) ltac:(lra)).
  pose proof (approx_sub _ _ _ _ _ _ 20 CC2 H2) as H3.
  assert (A3 : Rabs (c2 - ev * c3) <= 19) by (unfold c2, c3; apply Rabs_le; lra).
  unfold half_ulp in H3. specialize (H3 ltac:(lra) ltac:(lra)). set (d := f32_sub (f32_lit 18851563 6) _) in *. destruct H3 as (ND & ED).
  set (D := c2 - c3 * E).
  assert (DP : 16404 / 100000 <= D) by (unfold D, c2, c3; lra).
  unfold pq_inner. fold D. set (W := Rmax (E - c1) 0 / D).
  assert (WD : W * D = Rmax (E - c1) 0) by (unfold W; field; lra).
  assert (QP : 0 <= W <= 1001 / 1000).
  { assert (M : 0 <= Rmax (E - c1) 0 <= 1001 / 1000 * D) by (split; [apply Rmax_r|apply Rmax_lub; unfold D, c1, c2, c3; lra]).
    split; nra. }
  assert (DW : 3229 / 1000 <= D * (1 + c3 * W)).
  { replace (D * (1 + c3 * W)) with (D + c3 * (W * D)) by ring. rewrite WD. pose proof (Rmax_l (E - c1) 0) as ML. unfold D, c1, c2, c3 in *. lra. }
  exists (f32_div n d), (f32_div (f32_lit 1 0) (f32_lit 15930176 8)). split; [reflexivity|].
  assert (HW : approx (f32_div n d) W (2 / 10000000 + 84 / 1000000 * W) /\ 0 <= fval (f32_div n d)).
  { assert (POS : fval (f32_div n d) = rnd (fval n / fval d) -> 0 < fval d -> 0 <= fval (f32_div n d)).
    { intros -> DD. replace 0 with (rnd 0) by (apply round_0; typeclasses eauto). apply rnd_mono. apply Rmult_le_pos; [rewrite VN; apply Rmax_r|left; apply Rinv_0_lt_compat, DD]. }
    assert (DD : 16 / 100 <= fval d) by (apply Rabs_le_inv in ED; unfold c2, c3 in *; lra).
    destruct EE as [EE|(EE1 & EE2)].
    - assert (HD : approx d D (130 / 10000000)).
      { split; [exact ND|]. replace (fval d - D) with ((fval d - (c2 - ev * c3)) - c3 * (ev - E)) by (unfold D; ring).
        unfold Rminus at 1. eapply Rle_trans; [apply Rabs_triang|]. rewrite Rabs_Ropp, Rabs_mult, (Rabs_pos_eq c3) by (unfold c3; lra).
        unfold c3 in *. lra. }
      set (dm := D - 130 / 10000000). assert (DM : 1638 / 10000 <= dm) by (unfold dm; lra).
      assert (DMW : 3228 / 1000 <= dm * (1 + c3 * W)).
      { replace (dm * (1 + c3 * W)) with (D * (1 + c3 * W) - 130 / 10000000 * (1 + c3 * W)) by (unfold dm; ring). unfold c3 in *. lra. }
      assert (ER : (6 / 10000000 + W * (130 / 10000000)) / dm <= 19 / 100000000 + 83 / 1000000 * W).
      { apply Rmult_le_reg_r with dm; [lra|]. unfold Rdiv at 1. rewrite Rmult_assoc, Rinv_l, Rmult_1_r by lra.
        set (X0 := 19 / 100000000 + 83 / 1000000 * W). assert (X0P : 0 < X0) by (unfold X0; lra).
        apply Rmult_le_reg_r with (1 + c3 * W); [unfold c3; lra|].
        apply Rle_trans with (X0 * (3228 / 1000)); [|rewrite Rmult_assoc; apply Rmult_le_compat_l; lra].
        unfold X0, c3. nra. }
      pose proof (approx_div2 _ _ _ _ _ _ dm W (W + 1 / 1000) HN HD ltac:(lra) ltac:(unfold dm; lra)) as H4. fold W in H4.
      rewrite (Rabs_pos_eq W) in H4 by lra. specialize (H4 ltac:(lra) ltac:(lra) ltac:(lra)). unfold half_ulp in H4.
      split; [eapply approx_le; [exact H4|lra]|]. destruct (f32_div_num n d NN ND) as (N4 & V4); [lra| |apply POS; try assumption; lra].
      apply big_bound. destruct HN as (_ & HN). apply Rabs_le_inv in HN.
      assert (M : 0 <= fval n <= 2) by (split; [rewrite VN; apply Rmax_r|]; assert (Rmax (E - c1) 0 <= 1) by (apply Rmax_lub; unfold c1; lra); lra).
      assert (I : 0 < / fval d <= 10) by (split; [apply Rinv_0_lt_compat; lra|replace 10 with (/ (1 / 10)) by lra; apply Rinv_le_contravar; lra]).
      unfold Rdiv. rewrite Rabs_pos_eq by (apply Rmult_le_pos; lra). nra.
    - assert (FN : fval n = 0).
      { rewrite VN. apply Rmax_right. unfold half_ulp in ES. apply Rabs_le_inv in ES. unfold c1 in *. lra. }
      assert (W0 : W = 0) by (unfold W; rewrite Rmax_right by (unfold c1; lra); unfold Rdiv; ring).
      destruct (f32_div_num n d NN ND) as (N4 & V4); [lra|rewrite FN; unfold Rdiv; rewrite Rmult_0_l, Rabs_R0; apply bpow_ge_0|].
      assert (V5 : fval (f32_div n d) = 0) by (rewrite V4, FN; unfold Rdiv; rewrite Rmult_0_l; apply round_0; typeclasses eauto).
      split; [|lra]. split; [exact N4|]. rewrite V5, W0, Rminus_0_r, Rabs_R0. lra. }
  destruct HW as ((NW & EW) & PW). split; [exact NW|]. split; [exact PW|]. split; [exact QP|]. split; [exact EW|]. split; [exact NG|exact EG].
Qed.

Lemma ln_ratio : forall a b d, 0 < b -> Rabs (a - b) <= d * b -> 0 <= d <= 1 / 100 -> Rabs (ln a - ln b) <= d + 2 * d * d.
Proof.
  intros a b d B H D. apply Rabs_le_inv in H. assert (A : 0 < a) by nra.
  assert (E : a = b * (a / b)) by (field; lra). set (r := a / b) in *.
  assert (R : 1 - d <= r <= 1 + d) by (split; apply Rmult_le_reg_l with b; try lra; nra).
  rewrite E, ln_mult by lra. replace (ln b + ln r - ln b) with (ln r) by ring.
  pose proof (ln_le_sub r ltac:(lra)) as U. pose proof (ln_le_sub (/ r) ltac:(apply Rinv_0_lt_compat; lra)) as V. rewrite ln_Rinv in V by lra.
  assert (I : / r <= 1 + d + 2 * d * d).
  { apply Rmult_le_reg_r with r; [lra|]. rewrite Rinv_l by lra. nra. }
  apply Rabs_le. nra.
Qed.

Lemma ln_hundredth : ln (1 / 100) >= - (49 / 10).
Proof.
  pose proof ln_2 as L2. replace (1 / 100) with (/ 100) by lra. rewrite ln_Rinv by lra. apply Rle_ge, Ropp_le_contravar.
  apply Rle_trans with (ln (2 * (2 * (2 * (2 * (2 * (2 * 2))))))); [apply ln_le; lra|]. rewrite !ln_mult by lra. lra.
Qed.

Lemma pq_dec_rel : forall L x, accurate L -> is_num x -> fval x <= 1 + 1 / 20000 ->
  approx (eotf L TBT2100PQ x) (pq_decode (fval x)) (7 / 10000 * pq_decode (fval x) + 1 / 10000000) /\ 0 <= pq_decode (fval x) <= 10080.
Proof.
  intros L x A N B. destruct (pq_quotient L x A N B) as (w & g & EQ & NW & PW & WB & EW & NG & EG).
  rewrite EQ, pq_decode_eq. set (W := pq_inner (power (fval x) (1 / m2))) in *. set (w' := fval w) in *. set (gv := fval g) in *.
  assert (M1 : 627 / 100 <= 1 / m1 <= 628 / 100) by (unfold m1; lra).
  pose proof EG as EG'. apply Rabs_le_inv in EG'. pose proof EW as EW'. apply Rabs_le_inv in EW'.
  set (P := power W (1 / m1)). assert (P0 : 0 <= P) by apply power_ge0.
  assert (P1 : P <= 1008 / 1000).
  { apply Rle_trans with (power (1001 / 1000) (1 / m1)); [apply power_le; [lra|exact WB]|].
    apply Rle_trans with (power (1001 / 1000) 7); [rewrite !power_pos by lra; apply Rle_Rpower; lra|].
    replace 7 with (INR 7) by (cbn; lra). rewrite power_whole by lra. cbn. lra. }
  assert (C4 : approx (f32_lit 10000 0) 10000 0) by const_approx.
  assert (K : approx (l_pow L w g) P (68 / 100000 * P + 4 / 1000000000000)).
  { destruct (acc_pow _ A w g NW NG PW) as (Q1 & Q2 & Q3); [fold gv; rewrite Rabs_pos_eq; lra|]. fold w' gv in Q1, Q2, Q3.
    pose proof tiny_pos as TP. pose proof ln_hundredth as LH.
    assert (B122 : 0 < bpow radix2 (-122) <= 1 / 1000000000000).
    { split; [apply bpow_gt_0|]. apply Rle_trans with (bpow radix2 (-40)); [apply bpow_le; lia|]. change (bpow radix2 (-40)) with (/ 1099511627776). lra. }
    assert (TS : tiny <= 1 / 1000) by (unfold tiny; apply Rle_trans with (bpow radix2 (-10)); [apply bpow_le; lia|simpl; lra]).
    destruct (Rlt_le_dec W (1 / 100)) as [S|S].
    - (* next to nothing *)
      assert (PS : P <= 1 / 1000000000000).
      { apply Rle_trans with (power (1 / 100) (1 / m1)); [apply power_le; lra|].
        apply Rle_trans with (power (1 / 100) 6).
        - rewrite !power_pos by lra. unfold Rpower. apply exp_le. assert (ln (1 / 100) < 0) by (rewrite <- ln_1; apply ln_increasing; lra). nra.
        - replace 6 with (INR 6) by (cbn; lra). rewrite power_whole by lra. cbn. lra. }
      assert (G : is_num (l_pow L w g) /\ 0 <= fval (l_pow L w g) <= 3 / 1000000000000).
      { assert (SM : forall y, 0 < y <= 101 / 10000 -> Rpower y gv <= 11 / 10000000000000 + 1 / 1000000000000 * (1 / 10)).
        { intros y Y. rewrite <- power_pos by lra. apply Rle_trans with (power (101 / 10000) gv); [apply power_le; lra|].
          apply Rle_trans with (power (101 / 10000) 6).
          - rewrite !power_pos by lra. unfold Rpower. apply exp_le. assert (ln (101 / 10000) < 0) by (rewrite <- ln_1; apply ln_increasing; lra). nra.
          - replace 6 with (INR 6) by (cbn; lra). rewrite power_whole by lra. cbn. lra. }
        destruct (Rlt_le_dec w' tiny) as [T|T].
        - destruct (Q3 T ltac:(lra)) as (N3 & B3). pose proof (SM tiny ltac:(lra)). split; [exact N3|lra].
        - destruct (Rle_dec (gv * ln w') (-85)) as [C|C]; [destruct (Q2 T C) as (N3 & B3); split; [exact N3|lra]|].
          assert (LW : ln w' < 0) by (rewrite <- ln_1; apply ln_increasing; lra).
          assert (GL : gv * ln w' <= 0) by nra.
          destruct (Q1 T ltac:(lra)) as (N3 & B3). pose proof (SM w' ltac:(lra)) as SW. unfold Rpower in *. pose proof (exp_pos (gv * ln w')) as EP.
          assert (PE : 0 <= pow_error w' gv <= 1 / 10) by (unfold pow_error; rewrite (Rabs_pos_eq gv), (Rabs_left1 (gv * ln w')) by lra; lra).
          apply Rabs_le_inv in B3. split; [exact N3|]. assert (pow_error w' gv * exp (gv * ln w') <= 1 / 10 * exp (gv * ln w')) by (apply Rmult_le_compat_r; lra). lra. }
      destruct G as (NG' & GB). split; [exact NG'|]. apply Rabs_le. lra.
    - assert (R1 : Rabs (w' - W) <= 104 / 1000000 * W) by lra.
      pose proof (ln_ratio w' W _ ltac:(lra) R1 ltac:(lra)) as LR.
      assert (LW : - (49 / 10) <= ln W <= 1 / 1000) by (split; [apply Rle_trans with (ln (1 / 100)); [lra|apply ln_le; lra]|pose proof (ln_le_sub W ltac:(lra)); lra]).
      pose proof LR as LR'. apply Rabs_le_inv in LR'.
      assert (L1 : - (491 / 100) <= ln w' <= 2 / 1000) by lra.
      destruct (Q1 ltac:(lra) ltac:(nra)) as (N3 & B3). split; [exact N3|]. unfold Rpower in B3.
      unfold P. rewrite power_pos by lra. unfold Rpower. set (t := 1 / m1 * ln W).
      assert (DT : Rabs (gv * ln w' - t) <= 658 / 1000000).
      { replace (gv * ln w' - t) with (gv * (ln w' - ln W) + (gv - 1 / m1) * ln W) by (unfold t; ring).
        eapply Rle_trans; [apply Rabs_triang|]. rewrite !Rabs_mult, (Rabs_pos_eq gv) by lra.
        assert (Rabs (ln W) <= 49 / 10) by (apply Rabs_le; lra). pose proof (Rabs_pos (ln W)). pose proof (Rabs_pos (gv - 1 / m1)). pose proof (Rabs_pos (ln w' - ln W)).
        assert (gv * Rabs (ln w' - ln W) <= 6281 / 1000 * (10403 / 100000000)) by (apply Rmult_le_compat; lra).
        assert (Rabs (gv - 1 / m1) * Rabs (ln W) <= 6 / 10000000 * (49 / 10)) by (apply Rmult_le_compat; lra). lra. }
      pose proof (exp_near_one _ _ DT ltac:(lra)) as EN. replace (gv * ln w') with (t + (gv * ln w' - t)) in B3 by ring. rewrite exp_plus in B3.
      set (k := exp (gv * ln w' - t)) in *. pose proof (exp_pos t) as ET. apply Rabs_le_inv in EN.
      assert (PE : 0 <= pow_error w' gv <= 5 / 1000000).
      { unfold pow_error. rewrite (Rabs_pos_eq gv) by lra. pose proof (Rabs_pos (gv * ln w')).
        assert (Rabs (gv * ln w') <= 31).
        { rewrite Rabs_mult, (Rabs_pos_eq gv) by lra. assert (Rabs (ln w') <= 491 / 100) by (apply Rabs_le; lra). pose proof (Rabs_pos (ln w')).
          apply Rle_trans with (63 / 10 * (491 / 100)); [apply Rmult_le_compat; lra|lra]. }
        lra. }
      set (pe := pow_error w' gv) in *. set (v := fval (l_pow L w g)) in *. apply Rabs_le_inv in B3.
      assert (KP : 0 <= pe * k <= 5 / 1000000 * (11 / 10)) by (split; [apply Rmult_le_pos; lra|apply Rmult_le_compat; lra]).
      assert (v <= exp t * (1 + 668 / 1000000)) by (apply Rle_trans with (exp t * (k + pe * k)); [lra|apply Rmult_le_compat_l; lra]).
      assert (exp t * (1 - 668 / 1000000) <= v) by (apply Rle_trans with (exp t * (k - pe * k)); [apply Rmult_le_compat_l; lra|lra]).
      apply Rabs_le. lra. }
  split; [|lra]. rewrite (Rmult_comm 10000).
  pose proof (approx_mul _ _ _ _ _ _ P 10000 (10010 * P + 1 / 1000000) K C4 ltac:(rewrite Rabs_pos_eq; lra) ltac:(rewrite Rabs_pos_eq; lra) ltac:(lra) ltac:(lra)) as M.
  eapply approx_le; [exact M|]. unfold half_ulp. lra.
Qed.

(** * Close colors *)

Lemma power_pow : forall r k p, 0 < r -> power (r ^ k) p = power r (INR k * p).
Proof. intros r k p R. rewrite !power_pos by first [exact R|apply pow_lt, R]. rewrite <- (Rpower_pow k r) by exact R. rewrite Rpower_mult. reflexivity. Qed.

Lemma pq_floor : forall a e v, 0 < e ^ 78 <= a -> c1 < e <= 1 -> 0 <= v -> v ^ 3 <= ((e - c1) / (c2 - c3 * e)) ^ 19 -> a <= 1 + 1 / 20000 ->
  10000 * v <= pq_decode a.
Proof.
  intros a e v A E V H A1. rewrite pq_decode_eq. apply Rmult_le_compat_l; [lra|].
  assert (E0 : 0 < e) by (unfold c1 in E; lra).
  assert (PE : e <= power a (1 / m2)).
  { apply Rle_trans with (power (e ^ 78) (1 / m2)); [|apply power_le; [unfold m2; lra|lra]].
    rewrite power_pow, power_pos by exact E0. unfold Rpower. rewrite <- (exp_ln e) at 1 by exact E0. apply exp_le.
    assert (ln e <= 0) by (rewrite <- ln_1; apply ln_le; lra). assert (INR 78 * (1 / m2) <= 1) by (rewrite INR_IZR_INZ; cbn; unfold m2; lra). nra. }
  assert (PA : power a (1 / m2) <= 1 + 1 / 1000000).
  { assert (0 < a) by lra. apply Rle_trans with (1 := bernoulli a (1 / m2) ltac:(lra) ltac:(unfold m2; lra)). unfold m2. lra. }
  destruct (pq_inner_step e (power a (1 / m2)) (164 / 1000) ltac:(lra) ltac:(unfold c2, c3; lra)) as [L _].
  assert (EI : pq_inner e = (e - c1) / (c2 - c3 * e)) by (unfold pq_inner; rewrite Rmax_left by lra; reflexivity). rewrite EI in L.
  set (y := (e - c1) / (c2 - c3 * e)) in *.
  assert (Y0 : 0 < y) by (apply Rmult_lt_0_compat; [lra|apply Rinv_0_lt_compat; unfold c2, c3; lra]).
  apply Rle_trans with (power y (1 / m1)); [|apply power_le; [unfold m1; lra|lra]].
  assert (Y1 : y <= 1001 / 1000). { unfold y. apply Rmult_le_reg_r with (c2 - c3 * e); [unfold c2, c3; lra|]. unfold Rdiv at 1. rewrite Rmult_assoc, Rinv_l by (unfold c2, c3; lra). unfold c1, c2, c3; lra. }
  destruct (Rle_dec v 0) as [Z|Z]; [apply Rle_trans with 0; [lra|apply power_ge0]|].
  destruct (Rle_dec y 1) as [U|U].
  - assert (P : power y (19 / 3) <= power y (1 / m1)).
    { rewrite !power_pos by lra. unfold Rpower. apply exp_le. assert (ln y <= 0) by (rewrite <- ln_1; apply ln_le; lra). assert (1 / m1 <= 19 / 3) by (unfold m1; lra). nra. }
    apply Rle_trans with (2 := P). apply Rnot_lt_le. intros C.
    assert (D : power (power y (19 / 3)) (INR 3) < power v (INR 3)) by (apply power_lt; [cbn; lra|split; [apply power_ge0|exact C]]).
    assert (PP : 0 < power y (19 / 3)) by (apply power_gt0; lra). rewrite (power_whole v) in D by lra.
    rewrite (power_pos (power y (19 / 3))), (power_pos y), Rpower_mult in D by assumption.
    replace (19 / 3 * INR 3) with (INR 19) in D by (rewrite !INR_IZR_INZ; cbn; lra). rewrite Rpower_pow in D by exact Y0. lra.
  - exfalso. unfold y in U. apply U. apply Rmult_le_reg_r with (c2 - c3 * e); [unfold c2, c3; lra|]. unfold Rdiv. rewrite Rmult_assoc, Rinv_l by (unfold c2, c3; lra). unfold c1, c2, c3; lra.
Qed.

Lemma pq_piece : forall t r E h Y a b, 0 < t <= a -> a <= b -> b <= r ^ 16 -> 0 < r -> 1 + 16 * (1 / m2) * (r - 1) <= E ->
  0 < h <= c2 - c3 * E -> E <= 1001 / 1000 -> c1 <= E -> (E - c1) / h <= Y -> 0 < Y <= 11 / 10 -> t <= 1 ->
  0 <= pq_decode b - pq_decode a <= 10000 * (628 / 100 * (11 / 10 * Y ^ 5)) * (324 / 100 / (h * h) * (1 / m2 * (1 / t) * (b - a))).
Proof.
  intros t r E h Y a b T AB BR R HE HH E1 E0 HY Y1 T1. apply (pq_part t (1 / t) a b E h Y); try assumption.
  - pose proof (power_bounded t (1 / m2) ltac:(lra) ltac:(unfold m2; lra)). replace (1 / t * t) with 1 by (field; lra). assumption.
  - apply Rle_trans with (power (r ^ 16) (1 / m2)); [apply power_le; [unfold m2; lra|lra]|].
    assert (Q : power (r ^ 16) (1 / m2) = power r (16 * (1 / m2))).
    { rewrite power_pow by lra. rewrite INR_IZR_INZ. reflexivity. }
    rewrite Q. apply Rle_trans with (1 := bernoulli r (16 * (1 / m2)) R ltac:(unfold m2; lra)). exact HE.
Qed.

Lemma pq_dark : forall x, 0 <= x <= 21 / 10000 -> 0 <= pq_decode x <= 9 / 10000.
Proof.
  intros x X. rewrite pq_decode_eq. set (e := power x (1 / m2)).
  assert (E : e <= 927 / 1000).
  { apply Rle_trans with (power ((88 / 100) ^ 48) (1 / m2)); [apply power_le; [unfold m2; lra|lra]|].
    assert (Q : power ((88 / 100) ^ 48) (1 / m2) = power (88 / 100) (48 * (1 / m2))).
    { rewrite power_pow by lra. rewrite INR_IZR_INZ. reflexivity. }
    rewrite Q. apply Rle_trans with (1 := bernoulli (88 / 100) (48 * (1 / m2)) ltac:(lra) ltac:(unfold m2; lra)). unfold m2. lra. }
  pose proof (pq_inner_ge0 e ltac:(lra)) as P. set (y := pq_inner e) in *. split; [pose proof (power_ge0 y (1 / m1)); lra|].
  destruct (Req_dec y 0) as [-> |N]; [rewrite power_0; lra|].
  assert (Y : y <= 6 / 100).
  { unfold y, pq_inner. apply Rmult_le_reg_r with (c2 - c3 * e); [unfold c2, c3; lra|]. unfold Rdiv at 1. rewrite Rmult_assoc, Rinv_l by (unfold c2, c3; lra).
    rewrite Rmult_1_r. apply Rmax_lub; unfold c1, c2, c3; lra. }
  pose proof (last_power y (6 / 100) ltac:(lra) ltac:(lra)) as L.
  assert (power y (1 / m1) <= y * (11 / 10 * (6 / 100) ^ 5)).
  { replace (power y (1 / m1)) with (y * (power y (1 / m1) / y)) by (field; lra). apply Rmult_le_compat_l; lra. }
  assert (y * (11 / 10 * (6 / 100) ^ 5) <= 6 / 100 * (11 / 10 * (6 / 100) ^ 5)) by (apply Rmult_le_compat_r; lra). lra.
Qed.

Ltac piece a b t r E h Y e v :=
  let F := fresh "F" in
  assert (F : 10000 * v <= pq_decode a)
    by (apply (pq_floor a e v); [split; [apply pow_lt; clear; lra|apply Rle_trans with t; [clear; lra|assumption]]|clear; unfold c1; lra|clear; lra|clear; unfold c1, c2, c3; lra|lra]);
  let L := fresh "L" in let U := fresh "U" in
  destruct (pq_piece t r E h Y a b) as [L U]; [try (unfold m2, c1, c2, c3; lra)..|];
  split; [exact L|]; unfold m2 in U; lra.

(** Colors that are 19/1000000 apart *)
Lemma pq_close : forall a b, 0 <= a <= b -> b <= a + 19 / 1000000 -> b <= 1 + 1 / 20000 ->
  0 <= pq_decode b - pq_decode a <= (1 + pq_decode a) / 1000.
Proof.
  intros a b A AB B.
  destruct (Rle_lt_dec (43 / 50) a) as [?|?]; [piece a b (43 / 50) (250001 / 250000) (1000001 / 1000000) (41 / 250) (2501 / 2500) (499 / 500) (2519567 / 10000000)|].
  destruct (Rle_lt_dec (29 / 40) a) as [?|?]; [piece a b (29 / 40) (9907 / 10000) (998113 / 1000000) (1993 / 10000) (4069 / 5000) (4979 / 5000) (44541 / 625000)|].
  destruct (Rle_lt_dec (3 / 5) a) as [?|?]; [piece a b (3 / 5) (4901 / 5000) (497991 / 500000) (2391 / 10000) (3347 / 5000) (4967 / 5000) (44221 / 2000000)|].
  destruct (Rle_lt_dec (49 / 100) a) as [?|?]; [piece a b (49 / 100) (4843 / 5000) (248407 / 250000) (2831 / 10000) (5571 / 10000) (2477 / 2500) (7399 / 1000000)|].
  destruct (Rle_lt_dec (2 / 5) a) as [?|?]; [piece a b (2 / 5) (2391 / 2500) (991153 / 1000000) (3293 / 10000) (2357 / 5000) (9883 / 10000) (14631 / 5000000)|].
  destruct (Rle_lt_dec (33 / 100) a) as [?|?]; [piece a b (33 / 100) (2361 / 2500) (988717 / 1000000) (3749 / 10000) (1019 / 2500) (4929 / 5000) (2541 / 2000000)|].
  destruct (Rle_lt_dec (137 / 500) a) as [?|?]; [piece a b (137 / 500) (9331 / 10000) (123303 / 125000) (4177 / 10000) (3603 / 10000) (1967 / 2000) (787 / 1250000)|].
  destruct (Rle_lt_dec (113 / 500) a) as [?|?]; [piece a b (113 / 500) (9223 / 10000) (984233 / 1000000) (4587 / 10000) (3233 / 10000) (9811 / 10000) (639 / 2000000)|].
  destruct (Rle_lt_dec (91 / 500) a) as [?|?]; [piece a b (91 / 500) (9113 / 10000) (491 / 500) (1251 / 2500) (2919 / 10000) (9783 / 10000) (767 / 5000000)|].
  destruct (Rle_lt_dec (69 / 500) a) as [?|?]; [piece a b (69 / 500) (899 / 1000) (61219 / 62500) (547 / 1000) (21 / 80) (9749 / 10000) (673 / 10000000)|].
  destruct (Rle_lt_dec (87 / 1000) a) as [?|?]; [piece a b (87 / 1000) (2209 / 2500) (976379 / 1000000) (3027 / 5000) (29 / 125) (9691 / 10000) (189 / 10000000)|].
  destruct (Rle_lt_dec (3 / 100) a) as [?|?]; [piece a b (3 / 100) (1717 / 2000) (194257 / 200000) (3503 / 5000) (483 / 2500) (239 / 250) (1 / 625000)|].
  destruct (Rle_lt_dec (3 / 500) a) as [?|?]; [piece a b (3 / 500) (8033 / 10000) (240021 / 250000) (9099 / 10000) (273 / 2000) (1873 / 2000) 0|].
  destruct (Rle_lt_dec (1 / 500) a) as [?|?]; [piece a b (1 / 500) (1453 / 2000) (472249 / 500000) (3003 / 2500) (113 / 1250) (4617 / 5000) 0|].
  pose proof (pq_dark a ltac:(lra)) as LA. pose proof (pq_dark b ltac:(lra)) as LB.
  assert (E : power a (1 / m2) <= power b (1 / m2)) by (apply power_le; [unfold m2; lra|lra]).
  pose proof (power_bounded b (1 / m2) ltac:(lra) ltac:(unfold m2; lra)) as EB. pose proof (power_ge0 a (1 / m2)) as EA.
  destruct (pq_inner_step (power a (1 / m2)) (power b (1 / m2)) (164 / 1000) ltac:(lra) ltac:(unfold c2, c3; lra)) as [L _].
  pose proof (pq_inner_ge0 (power a (1 / m2)) ltac:(lra)).
  assert (pq_decode a <= pq_decode b) by (rewrite !pq_decode_eq; apply Rmult_le_compat_l; [lra|]; apply power_le; [unfold m1; lra|lra]). lra.
Qed.

Lemma pq_decode_max : forall x, pq_decode x = pq_decode (Rmax x 0).
Proof.
  intros x. unfold Rmax. destruct (Rle_dec x 0) as [Z|Z]; [|reflexivity]. rewrite !pq_decode_eq.
  replace (power x (1 / m2)) with (power 0 (1 / m2)); [reflexivity|]. rewrite power_0. unfold power. destruct (Rle_dec x 0); [reflexivity|lra].
Qed.

(** A color as the back ends have it, decoded *)
Lemma pq_dec_color : forall L x v, accurate L -> approx x v (19 / 1000000) -> v <= 1 ->
  approx (eotf L TBT2100PQ x) (pq_decode v) (11 / 10000 + 18 / 10000 * pq_decode v) /\ 0 <= pq_decode v <= 10000.
Proof.
  intros L x v A (N & E) V. apply Rabs_le_inv in E. destruct (pq_dec_rel L x A N ltac:(lra)) as (D & DB).
  assert (NR : Rabs (pq_decode (fval x) - pq_decode v) <= (1 + pq_decode v) / 1000).
  { rewrite (pq_decode_max (fval x)), (pq_decode_max v). set (a := Rmax (fval x) 0). set (b := Rmax v 0).
    assert (AB : 0 <= a <= 1 + 1 / 20000 /\ 0 <= b <= 1 /\ - (19 / 1000000) <= a - b <= 19 / 1000000).
    { unfold a, b, Rmax. destruct (Rle_dec (fval x) 0), (Rle_dec v 0); repeat split; lra. }
    apply Rabs_le. destruct (Rle_lt_dec a b) as [C|C].
    - pose proof (pq_close a b ltac:(lra) ltac:(lra) ltac:(lra)). lra.
    - pose proof (pq_close b a ltac:(lra) ltac:(lra) ltac:(lra)). lra. }
  apply Rabs_le_inv in NR.
  assert (VB : 0 <= pq_decode v <= 10000).
  { split; [rewrite pq_decode_eq; pose proof (power_ge0 (pq_inner (power v (1 / m2))) (1 / m1)); lra|].
    assert (W : forall e, 0 <= e <= 1 -> power (pq_inner e) (1 / m1) <= 1).
    { intros e EB. apply power_le_1; [|unfold m1; lra]. split; [apply pq_inner_ge0; lra|]. unfold pq_inner.
      apply Rmult_le_reg_r with (c2 - c3 * e); [unfold c2, c3; lra|]. unfold Rdiv. rewrite Rmult_assoc, Rinv_l by (unfold c2, c3; lra).
      rewrite Rmult_1_r. apply Rmax_lub; unfold c1, c2, c3; lra. }
    rewrite pq_decode_eq. pose proof (W (power v (1 / m2))) as W1.
    assert (PV : 0 <= power v (1 / m2) <= 1).
    { split; [apply power_ge0|]. unfold power at 1. destruct (Rle_dec v 0) as [Z|Z]; [lra|]. rewrite <- power_pos by lra. apply power_le_1; [lra|unfold m2; lra]. }
    specialize (W1 PV). lra. }
  split; [|exact VB]. eapply approx_weaken; [exact D|]. assert (Rabs (pq_decode (fval x) - pq_decode v) <= (1 + pq_decode v) / 1000) by (apply Rabs_le; lra). lra.
Qed.

(** * Matrices: the error is relative to the brightest channel, [K] *)

Lemma dot_scaled : forall K a b c A B C x y z CA CB CC e vx vy vz, 1 <= K <= 40000 ->
  approx a A (15 / 100000000) -> approx b B (15 / 100000000) -> approx c C (15 / 100000000) ->
  Rabs A <= CA -> Rabs B <= CB -> Rabs C <= CC -> CA + CB + CC <= 6 ->
  approx x vx e -> approx y vy e -> approx z vz e -> Rabs vx <= K -> Rabs vy <= K -> Rabs vz <= K -> 0 <= e <= K / 100000 ->
  approx (dot a b c x y z) (vx * A + vy * B + vz * C) ((CA + CB + CC) * e + (47 / 100000000 + 20 / 100000000 * (CA + CB + CC)) * K).
Proof.
  intros K a b c A B C x y z CA CB CC e vx vy vz HK HA HB HC BA BB BC S HX HY HZ BX BY BZ E.
  pose proof (Rabs_pos A). pose proof (Rabs_pos B). pose proof (Rabs_pos C).
  assert (M : forall q Q w vw CQ, approx q Q (15 / 100000000) -> Rabs Q <= CQ -> 0 <= CQ <= 6 -> approx w vw e -> Rabs vw <= K ->
    approx (f32_mul w q) (vw * Q) (CQ * e + 151 / 1000000000 * K + 61 / 1000000000 * (CQ * K)) /\ Rabs (vw * Q) <= CQ * K).
  { intros q Q w vw CQ HQ BQ CB' HW BW. assert (CK : 0 <= CQ * K <= 6 * K) by (split; [apply Rmult_le_pos|apply Rmult_le_compat_r]; lra).
    assert (CE : 0 <= CQ * e <= CQ * K / 100000) by (split; [apply Rmult_le_pos; lra|unfold Rdiv; rewrite Rmult_assoc; apply Rmult_le_compat_l; lra]).
    split.
    - eapply approx_le; [apply (approx_mul _ _ _ _ _ _ K CQ (1001 / 1000 * (CQ * K) + 1 / 1000000 * K) HW HQ BW BQ); nra|]. unfold half_ulp. nra.
    - rewrite Rabs_mult, Rmult_comm. apply Rmult_le_compat; try apply Rabs_pos; assumption. }
  destruct (M a A x vx CA HA BA ltac:(lra) HX BX) as (M1 & B1).
  destruct (M b B y vy CB HB BB ltac:(lra) HY BY) as (M2 & B2).
  destruct (M c C z vz CC HC BC ltac:(lra) HZ BZ) as (M3 & B3). clear M.
  assert (KA : 0 <= CA * K) by nra. assert (KB : 0 <= CB * K) by nra. assert (KC : 0 <= CC * K) by nra.
  assert (ES : 0 <= CA * e <= CA * K / 100000 /\ 0 <= CB * e <= CB * K / 100000 /\ 0 <= CC * e <= CC * K / 100000)
    by (repeat split; try (apply Rmult_le_pos; lra); unfold Rdiv; rewrite Rmult_assoc; apply Rmult_le_compat_l; lra).
  assert (KS : (CA + CB + CC) * K <= 6 * K) by (apply Rmult_le_compat_r; lra).
  unfold dot. cbn [fadd fmul f32_ops].
  pose proof (approx_add _ _ _ _ _ _ (1001 / 1000 * (CA * K + CB * K) + 1 / 1000 * K) M1 M2) as S1.
  pose proof (Rabs_triang (vx * A) (vy * B)) as T1. specialize (S1 ltac:(lra) ltac:(lra)).
  pose proof (approx_add _ _ _ _ _ _ (1002 / 1000 * (CA * K + CB * K + CC * K) + 1 / 500 * K) S1 M3) as S2.
  pose proof (Rabs_triang (vx * A + vy * B) (vz * C)) as T2. unfold half_ulp in S2. specialize (S2 ltac:(lra) ltac:(lra)).
  eapply approx_le; [exact S2|]. lra.
Qed.

Ltac row_scaled K HK E := eapply approx_le;
  [eapply (dot_scaled K); [exact HK|coef|coef|coef|apply Rle_refl|apply Rle_refl|apply Rle_refl|abs_lits|eassumption|eassumption|eassumption|assumption|assumption|assumption|exact E]|
   match goal with |- (?s * _ + (_ + _ * ?s) * _ <= ?c * _ + _) => let S := fresh in assert (S : 0 <= s <= c) by (split; [repeat apply Rplus_le_le_0_compat; apply Rabs_pos|abs_lits]); revert S; generalize s; intros; nra end].

Lemma to_xyz_scaled : forall K p v w, 1 <= K <= 40000 -> approx3 v w 0 -> within3 w K ->
  approx3 (to_xyz p v) (to_xyz p w) (111 / 100 * 0 + 7 / 10000000 * K) /\ within3 (to_xyz p w) (111 / 100 * K).
Proof.
  intros K p ((a, b), c) ((x, y), z) HK (HA & HB & HC) (BX & BY & BZ).
  assert (E : 0 <= 0 <= K / 100000) by lra.
  split.
  - destruct p; cbn [to_xyz approx3]; (split; [|split]); row_scaled K HK E.
  - apply Rabs_le_inv in BX. apply Rabs_le_inv in BY. apply Rabs_le_inv in BZ.
    destruct p; cbn [to_xyz within3]; (split; [|split]); unfold dot; cbn [fadd fmul flit R_ops]; lits; apply Rabs_le; lra.
Qed.

Lemma from_xyz_scaled : forall K p v w e, 1 <= K <= 40000 -> approx3 v w e -> within3 w K -> 0 <= e <= K / 100000 ->
  approx3 (from_xyz p v) (from_xyz p w) (58 / 10 * e + 17 / 10000000 * K).
Proof.
  intros K p ((a, b), c) ((x, y), z) e HK (HA & HB & HC) (BX & BY & BZ) E.
  destruct p; cbn [from_xyz approx3]; (split; [|split]); row_scaled K HK E.
Qed.

Lemma light_scaled : forall K ps pd v w e, 1 <= K <= 15000 -> approx3 v w e -> between3 0 K w -> 0 <= e <= K / 100 ->
  approx3 (from_xyz pd (to_xyz ps v)) (from_xyz pd (to_xyz ps w)) (256 / 100 * e + 7 / 1000000 * K).
Proof.
  intros K ps pd ((a, b), c) ((x, y), z) e HK ((NA & HA) & (NB & HB) & (NC & HC)) (BX & BY & BZ) E.
  set (w' := (fval a, fval b, fval c)).
  assert (A0 : approx3 (a, b, c) w' 0) by (repeat split; try apply NA; try apply NB; try apply NC; rewrite Rminus_diag_eq, Rabs_R0 by reflexivity; lra).
  pose proof HA as HA'. pose proof HB as HB'. pose proof HC as HC'. apply Rabs_le_inv in HA'. apply Rabs_le_inv in HB'. apply Rabs_le_inv in HC'.
  destruct (to_xyz_scaled (101 / 100 * K) ps (a, b, c) w' ltac:(lra) A0) as (X1 & X2); [cbn; (split; [|split]); apply Rabs_le; lra|].
  pose proof (from_xyz_scaled (111 / 100 * (101 / 100 * K)) pd _ _ _ ltac:(lra) X1 X2 ltac:(lra)) as F1.
  pose proof (light_lip ps pd w' (x, y, z) e ltac:(split; [exact HA|split; [exact HB|exact HC]])) as F2.
  destruct (from_xyz pd (to_xyz ps (a, b, c))) as ((q1, q2), q3). destruct (from_xyz pd (to_xyz ps w')) as ((p1, p2), p3).
  destruct (from_xyz pd (to_xyz ps (x, y, z))) as ((r1, r2), r3).
  destruct F1 as (G1 & G2 & G3). destruct F2 as (K1 & K2 & K3).
  split; [|split]; (eapply approx_weaken; [eassumption|]); lra.
Qed.

(** * Encoding light that is far outside of 0 .. 1, and storing it in RGB *)

(** [encode_negative] for more light *)
Lemma encode_far_negative : forall L t x, accurate L -> pow_negative (l_pow L) -> t <> TBT2100PQ -> is_num x -> -9000 <= fval x < 0 ->
  oetf L t x = S754_nan \/ (is_num (oetf L t x) /\ -120000 <= fval (oetf L t x) <= 5 / 1000000).
Proof.
  intros L t x A PN T N B.
  assert (G : forall y Y, approx y Y (2 / 100000000) -> 35 / 100 <= Y <= 46 / 100 ->
    l_pow L x y = S754_nan \/ (is_num (l_pow L x y) /\ 0 <= fval (l_pow L x y) <= 1 / 1000000)).
  { intros y Y (NY & EY) YB. apply Rabs_le_inv in EY. apply PN; [exact N|lra|exact NY|lra]. }
  assert (H : forall a b Av y Y, approx a Av (1 / 10000000) -> 1 <= Av <= 2 -> approx b (1 / 10) (1 / 20) -> approx y Y (2 / 100000000) -> 35 / 100 <= Y <= 46 / 100 ->
    f32_sub (f32_mul a (l_pow L x y)) b = S754_nan \/ (is_num (f32_sub (f32_mul a (l_pow L x y)) b) /\ -120000 <= fval (f32_sub (f32_mul a (l_pow L x y)) b) <= 5 / 1000000)).
  { intros a b Av y Y HA AB HB HY YB. destruct (G y Y HY YB) as [-> |(NP & BP)].
    - left. destruct a as [[|]|[|]| |[|] m e]; destruct b as [[|]|[|]| |[|] m' e']; reflexivity.
    - right. assert (HP : approx (l_pow L x y) 0 (1 / 1000000)) by (split; [exact NP|apply Rabs_le; lra]).
      pose proof (approx_mul _ _ _ _ _ _ 2 0 (1 / 1000) HA HP ltac:(apply Rabs_le; lra) ltac:(rewrite Rabs_R0; lra) ltac:(lra) ltac:(lra)) as Q1.
      rewrite Rmult_0_r in Q1.
      pose proof (approx_sub _ _ _ _ _ _ 1 Q1 HB ltac:(unfold half_ulp; rewrite Rabs_left by lra; lra) ltac:(lra)) as Q2.
      destruct Q2 as (N2 & E2). split; [exact N2|]. unfold half_ulp in E2. apply Rabs_le_inv in E2. lra. }
  assert (M : forall c C, approx c C (1 / 1000000) -> 4 <= C <= 13 ->
    (is_num (f32_mul x c) /\ -120000 <= fval (f32_mul x c) <= 5 / 1000000) /\ (is_num (f32_mul c x) /\ -120000 <= fval (f32_mul c x) <= 5 / 1000000)).
  { intros c C (NC & EC) CB. apply Rabs_le_inv in EC. assert (V : Rabs (fval x * fval c) <= 117001) by (apply Rabs_le; nra).
    assert (R' : -120000 <= rnd (fval x * fval c) <= 5 / 1000000).
    { pose proof (rnd_half _ _ V) as R. unfold half_ulp in R. apply Rabs_le_inv in R. assert (fval x * fval c <= 0) by nra. assert (-117001 <= fval x * fval c) by nra.
      assert (rnd (fval x * fval c) <= 0) by (apply Rle_trans with (rnd 0); [apply rnd_mono; lra|unfold rnd; rewrite round_0; [lra|typeclasses eauto]]). lra. }
    destruct (f32_mul_num x c N NC) as (N1 & V1); [apply big_bound; lra|]. destruct (f32_mul_num c x NC N) as (N2 & V2); [rewrite Rmult_comm; apply big_bound; lra|].
    rewrite (Rmult_comm (fval c)) in V2. rewrite V1, V2. tauto. }
  assert (W : forall v, 0 <= v <= 1 / 1000000 -> -120000 <= v <= 5 / 1000000) by (intros; lra).
  destruct t; try congruence.
  - right. split; [exact N|]. cbn [oetf]. lra.
  - run_f32. assert (C : approx (f32_div (f32_lit 1 0) (f32_lit 22 1)) (10 / 22) (2 / 100000000)) by const_approx.
    destruct (G _ _ C ltac:(lra)) as [H1|(H1 & H2)]; [left; exact H1|right; split; [exact H1|apply W; exact H2]].
  - run_f32. assert (C : approx (f32_div (f32_lit 1 0) (f32_lit 28 1)) (10 / 28) (2 / 100000000)) by const_approx.
    destruct (G _ _ C ltac:(lra)) as [H1|(H1 & H2)]; [left; exact H1|right; split; [exact H1|apply W; exact H2]].
  - run_f32. destruct (l_le L x (f32_lit 31308 7)).
    + right. eapply proj1, (M _ (1292 / 100)); [const_approx|lra].
    + apply (H _ _ (1055 / 1000) _ (10 / 24)); try lra; const_approx.
  - run_f32. destruct (l_lt L x (f32_lit 1805397 8)).
    + right. eapply proj2, (M _ (45 / 10)); [const_approx|lra].
    + apply (H _ _ (1099 / 1000) _ (45 / 100)); try lra; const_approx.
  - right. destruct (hlg_enc_max L x A N ltac:(lra)) as (N1 & E1). split; [exact N1|].
    rewrite Rmax_right in E1 by lra. pose proof (encoded_0 TBT2100HLG ltac:(discriminate)) as Z0. cbn [encoded] in Z0. rewrite Z0 in E1.
    apply Rabs_le_inv in E1. lra.
Qed.

Lemma root_far : forall x y, 39 / 10 <= x <= 18000 -> 34 / 100 <= y <= 46 / 100 -> 3 / 2 <= power x y <= 100.
Proof.
  intros x y X Y.
  assert (M : forall z w, 1 / 3 <= z -> z <= w -> power x z <= power x w).
  { intros z w Z W. rewrite !power_pos by lra. unfold Rpower. apply exp_le.
    assert (0 <= ln x) by (left; rewrite <- ln_1; apply ln_increasing; lra). nra. }
  split.
  - apply Rle_trans with (power x (1 / 3)); [|apply M; lra]. left. apply (power_above _ _ _ 1 3); simpl; lra.
  - apply Rle_trans with (power x (23 / 50)); [apply M; lra|]. apply Rle_trans with (power 18000 (23 / 50)); [apply power_le; lra|].
    left. apply (power_below _ _ _ 23 50); [lra|lra|rewrite !INR_IZR_INZ; cbn; lra|lra].
Qed.

Lemma ln_18000 : 0 < ln 18000 <= 105 / 10.
Proof.
  split; [rewrite <- ln_1; apply ln_increasing; lra|]. pose proof ln_2 as L2.
  apply Rle_trans with (ln (2 ^ 15)); [apply ln_le; lra|]. rewrite ln_pow by lra. rewrite INR_IZR_INZ. cbn. lra.
Qed.

(** Bright light is encoded as more than 1 *)
Lemma encode_far : forall L t x, accurate L -> t <> TBT2100PQ -> is_num x -> 39 / 10 <= fval x <= 18000 -> (t = TLinear -> fval x <= 128) ->
  is_num (oetf L t x) /\ 102 / 100 <= fval (oetf L t x) <= 128.
Proof.
  intros L t x A T N B LI. pose proof ln_18000 as L18.
  assert (LX : 0 < ln (fval x) <= 105 / 10) by (split; [rewrite <- ln_1; apply ln_increasing; lra|apply Rle_trans with (ln 18000); [apply ln_le; lra|lra]]).
  assert (TX : tiny <= fval x) by (assert (tiny <= 1) by (unfold tiny; apply Rle_trans with (bpow radix2 0); [apply bpow_le; lia|simpl; lra]); lra).
  assert (P : forall y Y, approx y Y (2 / 100000000) -> 35 / 100 <= Y <= 4599 / 10000 ->
    exists q, approx (l_pow L x y) q (1 / 1000) /\ 3 / 2 <= q <= 100).
  { intros y Y (NY & EY) YB. apply Rabs_le_inv in EY. exists (power (fval x) (fval y)).
    pose proof (root_far (fval x) (fval y) ltac:(lra) ltac:(lra)) as R. split; [|exact R].
    destruct (acc_pow _ A x y N NY ltac:(lra)) as (Q1 & _); [rewrite Rabs_pos_eq; lra|].
    assert (YL : 0 <= fval y * ln (fval x) <= 6) by (split; [apply Rmult_le_pos; lra|apply Rle_trans with (1 / 2 * (105 / 10)); [apply Rmult_le_compat; lra|lra]]).
    specialize (Q1 TX ltac:(lra)). rewrite <- power_pos in Q1 by lra. eapply approx_le; [exact Q1|].
    assert (PE : 0 <= pow_error (fval x) (fval y) <= 1 / 100000) by (unfold pow_error; rewrite (Rabs_pos_eq (fval y)), (Rabs_pos_eq (_ * _)) by lra; lra).
    apply Rle_trans with (1 / 100000 * 100); [apply Rmult_le_compat; lra|lra]. }
  assert (C : forall a Av c Cv y Y, approx a Av (1 / 10000000) -> 1 <= Av <= 11 / 10 -> approx c Cv (1 / 10000000) -> 0 <= Cv <= 1 / 10 ->
    approx y Y (2 / 100000000) -> 35 / 100 <= Y <= 4599 / 10000 ->
    is_num (f32_sub (f32_mul a (l_pow L x y)) c) /\ 102 / 100 <= fval (f32_sub (f32_mul a (l_pow L x y)) c) <= 128).
  { intros a Av c Cv y Y HA AB HC CB' HY YB. destruct (P y Y HY YB) as (q & HQ & QB).
    pose proof (approx_mul _ _ _ _ _ _ (11 / 10) 100 111 HA HQ ltac:(apply Rabs_le; lra) ltac:(apply Rabs_le; lra) ltac:(lra) ltac:(lra)) as M1.
    assert (AQ : 3 / 2 <= Av * q <= 110) by nra.
    pose proof (approx_sub _ _ _ _ _ _ 112 M1 HC) as M2. unfold half_ulp in M2.
    assert (Rabs (Av * q - Cv) <= 111) by (apply Rabs_le; lra). specialize (M2 ltac:(lra) ltac:(lra)).
    destruct M2 as (N2 & E2). apply Rabs_le_inv in E2. split; [exact N2|lra]. }
  destruct t; try congruence.
  - cbn [oetf]. specialize (LI eq_refl). split; [exact N|lra].
  - run_f32. assert (K : approx (f32_div (f32_lit 1 0) (f32_div (f32_lit 22 0) (f32_lit 10 0))) (10 / 22) (2 / 100000000)) by const_approx.
    destruct (P _ _ K ltac:(lra)) as (q & (NQ & EQ) & QB). apply Rabs_le_inv in EQ. split; [exact NQ|lra].
  - run_f32. assert (K : approx (f32_div (f32_lit 1 0) (f32_div (f32_lit 28 0) (f32_lit 10 0))) (10 / 28) (2 / 100000000)) by const_approx.
    destruct (P _ _ K ltac:(lra)) as (q & (NQ & EQ) & QB). apply Rabs_le_inv in EQ. split; [exact NQ|lra].
  - assert (CT : approx (f32_lit 31308 7) (31308 / 10000000) (1 / 1000000)) by const_approx. destruct CT as (NT & VT). apply Rabs_le_inv in VT.
    run_f32. pose proof (acc_le _ A x (f32_lit 31308 7) N NT ltac:(lra) ltac:(lra)) as CMP.
    destruct (l_le L x (f32_lit 31308 7)); [exfalso; assert (fval x <= fval (f32_lit 31308 7)) by (apply CMP; reflexivity); lra|].
    apply (C _ (1055 / 1000) _ (55 / 1000) _ (10 / 24)); try lra; const_approx.
  - assert (CT : approx (f32_lit 1805397 8) (1805397 / 100000000) (1 / 1000000)) by const_approx. destruct CT as (NT & VT). apply Rabs_le_inv in VT.
    run_f32. pose proof (acc_lt _ A x (f32_lit 1805397 8) N NT ltac:(lra) ltac:(lra)) as CMP.
    destruct (l_lt L x (f32_lit 1805397 8)); [exfalso; assert (fval x < fval (f32_lit 1805397 8)) by (apply CMP; reflexivity); lra|].
    apply (C _ (1099 / 1000) _ (99 / 1000) _ (9 / 20)); try lra; const_approx.
  - assert (N0 : is_num (f32_lit 0 0)) by (split; reflexivity). assert (W0 : fval (f32_lit 0 0) = 0) by reflexivity.
    destruct (acc_max _ A x (f32_lit 0 0) N N0) as (NM & VM). rewrite W0, Rmax_left in VM by lra.
    assert (CT : approx (f32_div (f32_lit 1 0) (f32_lit 12 0)) (1 / 12) (1 / 100000000)) by const_approx. destruct CT as (NT & VT). apply Rabs_le_inv in VT.
    assert (K12 : approx (f32_lit 12 0) 12 0) by const_approx. assert (KB : approx (f32_lit 28466892 8) (28466892 / 100000000) (1 / 10000000)) by const_approx.
    assert (KA : approx (f32_lit 17883277 8) (17883277 / 100000000) (1 / 10000000)) by const_approx.
    assert (KC : approx (f32_lit 5599107 7) (5599107 / 10000000) (1 / 10000000)) by const_approx.
    run_f32. cbv zeta. set (e := l_max L x (f32_lit 0 0)) in *.
    pose proof (acc_le _ A e _ NM NT ltac:(lra) ltac:(lra)) as CMP.
    destruct (l_le L e (f32_div (f32_lit 1 0) (f32_lit 12 0))); [exfalso; assert (fval e <= fval (f32_div (f32_lit 1 0) (f32_lit 12 0))) by (apply CMP; reflexivity); lra|].
    pose proof (exact_approx e NM) as HE. rewrite VM in HE.
    pose proof (approx_mul _ _ _ _ _ _ 12 18000 216001 K12 HE ltac:(apply Rabs_le; lra) ltac:(apply Rabs_le; lra) ltac:(lra) ltac:(lra)) as M1.
    pose proof (approx_sub _ _ _ _ _ _ 216010 M1 KB) as M2. assert (Rabs (12 * fval x - 28466892 / 100000000) <= 216000) by (apply Rabs_le; lra).
    unfold half_ulp in M2. specialize (M2 ltac:(lra) ltac:(lra)). destruct M2 as (N2 & E2). apply Rabs_le_inv in E2.
    set (s := f32_sub _ _) in *. assert (SB : 46 <= fval s <= 216010) by lra.
    assert (TS : tiny <= fval s) by (assert (tiny <= 1) by (unfold tiny; apply Rle_trans with (bpow radix2 0); [apply bpow_le; lia|simpl; lra]); lra).
    destruct (acc_ln _ A s N2 TS) as (N3 & E3). pose proof ln_2 as L2.
    assert (LB : 5 * ln 2 <= ln (fval s) <= 18 * ln 2).
    { split.
      - replace (5 * ln 2) with (ln (2 ^ 5)) by (rewrite ln_pow by lra; rewrite INR_IZR_INZ; cbn; lra). apply ln_le; lra.
      - replace (18 * ln 2) with (ln (2 ^ 18)) by (rewrite ln_pow by lra; rewrite INR_IZR_INZ; cbn; lra). apply ln_le; lra. }
    rewrite (Rabs_pos_eq (ln (fval s))) in E3 by lra.
    assert (H3 : approx (l_ln L s) (ln (fval s)) (1 / 1000000)) by (split; [exact N3|lra]).
    pose proof (approx_mul _ _ _ _ _ _ (2 / 10) 13 3 KA H3 ltac:(apply Rabs_le; lra) ltac:(apply Rabs_le; lra) ltac:(lra) ltac:(lra)) as M4.
    pose proof (approx_add _ _ _ _ _ _ 4 M4 KC) as M5. assert (Rabs (17883277 / 100000000 * ln (fval s) + 5599107 / 10000000) <= 3) by (apply Rabs_le; lra).
    unfold half_ulp in M5. specialize (M5 ltac:(lra) ltac:(lra)). destruct M5 as (N5 & E5). apply Rabs_le_inv in E5. split; [exact N5|lra].
Qed.

Lemma encoded_far : forall t x, t <> TBT2100PQ -> 39 / 10 <= x <= 18000 -> 102 / 100 <= encoded t x.
Proof.
  intros t x T X. pose proof (fun y => root_far x y X) as P.
  destruct t; cbn [encoded]; try congruence.
  - lra.
  - pose proof (P (10 / 22) ltac:(lra)). lra.
  - pose proof (P (10 / 28) ltac:(lra)). lra.
  - unfold srgb_encode. destruct (Rle_dec x _); [lra|]. pose proof (P (5 / 12) ltac:(lra)). lra.
  - unfold sdr_encode. destruct (Rlt_dec x _); [lra|]. pose proof (P (9 / 20) ltac:(lra)). lra.
  - unfold hlg_encode. destruct (Rle_dec x _); [lra|]. pose proof ln_2 as L2.
    assert (5 * ln 2 <= ln (12 * x - hb)).
    { replace (5 * ln 2) with (ln (2 ^ 5)) by (rewrite ln_pow by lra; rewrite INR_IZR_INZ; cbn; lra). apply ln_le; unfold hb; lra. }
    unfold ha, hc. lra.
Qed.

(** Negative numbers are stored as 0 in RGB, however large they are *)
Lemma quantise_negative : forall cb f v, sampling_of f = SRGB -> let x := f32_mul v (f32_of_Z 255) in
  is_num x -> -1000000000 < fval x <= 0 -> quantise (quant_of cb) f v = 0%Z.
Proof.
  intros cb f v S x N B.
  assert (MF : max_level f = 255%Z) by (destruct f; try discriminate S; reflexivity).
  assert (TF : top f = 255%Z) by (destruct f; try discriminate S; reflexivity).
  assert (Q : quantise (quant_of cb) f v = q_u8i (quant_of cb) x) by (unfold quantise; rewrite MF; destruct f; try discriminate S; reflexivity).
  rewrite Q. clear Q.
  assert (AB : f32_abs_below 2147483647 x) by (apply abs_below_val; [exact N|apply Rabs_def1; lra]).
  assert (NN : forall s m e, x = S754_finite s m e -> let '(n, d) := num_den s m e in (n <= 0 < d)%Z).
  { intros s m e EX. destruct (num_den s m e) as (n, d) eqn:ND. destruct (num_den_val _ _ _ _ _ ND) as (D & E). split; [|exact D].
    rewrite EX in B. apply le_IZR. rewrite <- E. apply IZR_lt in D. nra. }
  assert (A2 : avx2_q8 x = 0%Z).
  { destruct (cvt_spec 2147483647 x) as (_ & CV); [lia|exact AB|]. unfold avx2_q8.
    assert (C0 : (cvtps_epi32 x <= 0)%Z).
    { destruct x as [s|s| |s m e]; try (rewrite CV; lia). specialize (NN s m e eq_refl). destruct (num_den s m e) as (n, d). nia. }
    unfold sat_u8, sat_u16, clampZ. destruct (Z.ltb_spec (Z.max 0 (Z.min 65535 (cvtps_epi32 x))) 32768); lia. }
  assert (A1 : as_u8 x = 0%Z).
  { pose proof (f32_as_trunc 255 x ltac:(lia)) as T. unfold as_u8. destruct N as (VX & FX).
    destruct x as [s|s| |s m e]; cbn [is_trunc_sat] in T; try exact T; try discriminate FX.
    specialize (NN s m e eq_refl). destruct (num_den s m e) as (n, d). destruct (Z.leb_spec n 0); [exact T|lia]. }
  destruct cb; cbn [quant_of scalar_quant avx2_quant avx512_quant neon_quant q_u8i]; rewrite ?neon_u8_as; assumption.
Qed.

(** [store_wide] for the light of PQ sources *)
Lemma store_far : forall L cb f t x, accurate L -> pow_negative (l_pow L) -> t <> TBT2100PQ -> sampling_of f = SRGB ->
  is_num x -> -9000 <= fval x <= 18000 -> (t = TLinear -> fval x <= 128) ->
  exists X, Rabs (X - fval x) <= 1 / 100000000 /\
    stored_for cb (255 * (56 / 10000000)) (clamp 255 (255 * encoded t (Rmax 0 X))) (quantise (quant_of cb) f (oetf L t x)) /\
    (0 <= quantise (quant_of cb) f (oetf L t x) <= 255)%Z.
Proof.
  intros L cb f t x A PN T S N B LI.
  assert (K : approx (f32_of_Z 255) 255 0) by (apply (approx_of_Z 255); lia). destruct K as (NK & EK).
  assert (VK : fval (f32_of_Z 255) = 255) by (apply Rabs_le_inv in EK; lra).
  destruct (Rle_dec (- (81 / 10)) (fval x)) as [P|P]; [destruct (Rle_dec (fval x) 17) as [Q|Q]|].
  - apply store_wide; try assumption. lra.
  - exists (fval x). split; [rewrite Rminus_diag_eq, Rabs_R0 by reflexivity; lra|]. rewrite Rmax_right by lra.
    assert (MF : max_level f = 255%Z) by (destruct f; try discriminate S; reflexivity).
    assert (TF : top f = 255%Z) by (destruct f; try discriminate S; reflexivity).
    pose proof (encoded_far t (fval x) T ltac:(lra)) as EB. destruct (encode_far L t x A T N ltac:(lra) LI) as (NV & BV).
    assert (C1 : clamp 255 (255 * encoded t (fval x)) = 255) by (destruct (clamp_cases 255 (255 * encoded t (fval x)) ltac:(lra)) as [(? & ->)|[(? & ->)|(? & ->)]]; lra).
    rewrite C1. set (v := oetf L t x) in *.
    destruct (f32_mul_num v _ NV NK) as (N1 & V1); [apply big_bound, Rabs_le; rewrite VK; lra|].
    assert (B1 : 256 <= fval (f32_mul v (f32_of_Z 255)) <= 32641).
    { rewrite V1, VK. assert (R : Rabs (fval v * 255) <= 32640) by (apply Rabs_le; lra). pose proof (rnd_half _ _ R) as R1. unfold half_ulp in R1.
      apply Rabs_le_inv in R1. lra. }
    pose proof (quantise_val cb f v) as Q1. rewrite MF, TF in Q1. specialize (Q1 N1 ltac:(apply Rabs_def1; lra) ltac:(left; exact S)).
    destruct (clamp_cases 255 (fval (f32_mul v (f32_of_Z 255))) ltac:(lra)) as [(C & E)|[(C & E)|(C & E)]]; try lra. rewrite E in Q1.
    split; [eapply stored_for_weaken; [exact Q1|lra]|].
    assert (HZ : -1 < IZR (quantise (quant_of cb) f v) < 256); [|destruct HZ as (H1 & H2); apply lt_IZR in H1; apply lt_IZR in H2; lia].
    destruct cb; cbn [stored_for] in Q1; unfold truncated, rounded in Q1; try (apply Rabs_le_inv in Q1); lra.
  - exists (fval x). split; [rewrite Rminus_diag_eq, Rabs_R0 by reflexivity; lra|]. rewrite Rmax_left by lra. rewrite encoded_0 by exact T.
    replace (clamp 255 (255 * 0)) with 0 by (rewrite Rmult_0_r; destruct (clamp_cases 255 0 ltac:(lra)) as [(? & ->)|[(? & ->)|(? & ->)]]; lra).
    assert (Z : quantise (quant_of cb) f (oetf L t x) = 0%Z \/ (stored_for cb (255 * (56 / 10000000)) 0 (quantise (quant_of cb) f (oetf L t x)) /\ (0 <= quantise (quant_of cb) f (oetf L t x) <= 255)%Z)).
    { destruct (encode_far_negative L t x A PN T N ltac:(lra)) as [E|(NV & BV)]; [left; rewrite E; apply store_nan, S|].
      set (v := oetf L t x) in *. destruct (f32_mul_num v _ NV NK) as (N1 & V1).
      { apply Rle_trans with 100000000; [rewrite VK; apply Rabs_le; lra|]. change (bpow radix2 127) with (IZR (2 ^ 127)). apply IZR_le. lia. }
      destruct (Rle_dec (fval v) 0) as [V0|V0].
      - left. apply quantise_negative; [exact S|exact N1|]. rewrite V1, VK. split.
        + apply Rlt_le_trans with (rnd (- (2 ^ 25))); [|apply rnd_mono; lra].
          unfold rnd. rewrite round_generic; [lra|typeclasses eauto|]. replace (- 2 ^ 25) with (- bpow radix2 25) by (simpl; lra).
          apply generic_format_opp, generic_format_bpow. unfold SpecFloat.fexp, FLT_exp. cbn. lia.
        + apply Rle_trans with (rnd 0); [apply rnd_mono; lra|unfold rnd; rewrite round_0; [lra|typeclasses eauto]].
      - right.
        assert (MF : max_level f = 255%Z) by (destruct f; try discriminate S; reflexivity).
        assert (TF : top f = 255%Z) by (destruct f; try discriminate S; reflexivity).
        assert (B1 : - (1 / 1000) <= fval (f32_mul v (f32_of_Z 255)) <= 255 * (56 / 10000000)).
        { rewrite V1, VK. assert (R : Rabs (fval v * 255) <= 1 / 100) by (apply Rabs_le; lra). pose proof (rnd_half _ _ R) as R1. unfold half_ulp in R1.
          apply Rabs_le_inv in R1. lra. }
        pose proof (quantise_val cb f v) as Q1. rewrite MF, TF in Q1. specialize (Q1 N1 ltac:(apply Rabs_def1; lra) ltac:(left; exact S)).
        assert (Q2 : stored_for cb (255 * (56 / 10000000)) 0 (quantise (quant_of cb) f v)).
        { eapply stored_for_near; [|exact Q1].
          destruct (clamp_cases 255 (fval (f32_mul v (f32_of_Z 255))) ltac:(lra)) as [(C & ->)|[(C & ->)|(C & ->)]]; apply Rabs_le; lra. }
        split; [exact Q2|].
        assert (HZ : -1 < IZR (quantise (quant_of cb) f v) < 256); [|destruct HZ as (H1 & H2); apply lt_IZR in H1; apply lt_IZR in H2; lia].
        destruct (clamp_cases 255 (fval (f32_mul v (f32_of_Z 255))) ltac:(lra)) as [(C & E)|[(C & E)|(C & E)]]; rewrite E in Q1;
        destruct cb; cbn [stored_for] in Q1; unfold truncated, rounded in Q1; try (apply Rabs_le_inv in Q1); lra. }
    destruct Z as [-> |Z]; [|exact Z]. split; [|lia].
    destruct cb; cbn [stored_for]; unfold truncated, rounded; try lra; rewrite Rminus_diag_eq, Rabs_R0 by reflexivity; lra.
Qed.
