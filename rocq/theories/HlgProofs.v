(** Lemmas for HLG sources with colors above 1: light of up to a few thousand,
    the error relative to it. *)

From Coq Require Import List ZArith Bool Arith Reals Lia Lra Psatz.
From Coq Require Import Floats.SpecFloat.
From Flocq Require Import Core.
From Verif Require Import Base Types Planes ImageM F32 Vector Simd SpecVector SimdProofs QuantProofs SpecGeom GeomProofs
  SpecColor SpecConvert SpecRun Formats Visit Convert VisitProofs ColorProofs ConvertProofs ExactProofs PropConvert PropFidelity
  SpecReal FloatProofs AccProofs TargetProofs PropColor ColorR SpecTransfer PowerProofs MathProofs SpecMath LaneProofs TransferProofs
  Math NegProofs RecolorProofs PropRecolor GamutProofs PropGamut WideProofs.
Import ListNotations.
Local Open Scope R_scope.

Lemma exp_ten : exp 10 <= 28561.
Proof.
  replace 10 with (25 / 10 + (25 / 10 + (25 / 10 + 25 / 10))) by lra. rewrite !exp_plus. pose proof exp_25 as E. pose proof (exp_pos (25 / 10)) as P.
  set (a := exp (25 / 10)) in *. assert (S1 : 0 <= a * a <= 169) by nra. assert (a * (a * (a * a)) = (a * a) * (a * a)) by ring. nra.
Qed.

Lemma hlg_dec_above : forall L x v, accurate L -> approx x v (19 / 1000000) -> 1 <= v <= 11 / 5 ->
  approx (eotf L TBT2100HLG x) (hlg_decode v) (2 / 10000 * hlg_decode v) /\ 0 <= hlg_decode v <= 2400.
Proof.
  intros L x v A HX VB. pose proof HX as (N & EX). apply Rabs_le_inv in EX.
  assert (N0 : is_num (f32_lit 0 0)) by (split; reflexivity).
  assert (V0 : fval (f32_lit 0 0) = 0) by reflexivity.
  destruct (acc_max _ A x (f32_lit 0 0) N N0) as (NM & VM). rewrite V0, Rmax_left in VM by lra.
  run_f32. cbv zeta. set (e := l_max L x (f32_lit 0 0)) in *.
  assert (HE : approx e v (19 / 1000000)) by (split; [exact NM|rewrite VM; apply Rabs_le; lra]).
  assert (CT : approx (f32_lit 5 1) (1 / 2) 0) by const_approx. apply const_val in CT. destruct CT as (VT & NT & _).
  assert (C12 : approx (f32_lit 12 0) 12 0) by const_approx. apply const_val in C12. destruct C12 as (V12 & N12 & _).
  assert (CA : approx (f32_lit 17883277 8) ha (1 / 100000000)) by (unfold ha; const_approx).
  assert (CB : approx (f32_lit 28466892 8) hb (3 / 100000000)) by (unfold hb; const_approx).
  assert (CC : approx (f32_lit 5599107 7) hc (3 / 100000000)) by (unfold hc; const_approx).
  assert (CE : approx (f32_lit 271828182845904523536 20) (11401300 / 4194304) 0) by const_approx. apply const_val in CE. destruct CE as (VE & NE & _).
  pose proof (acc_le _ A e _ NM NT ltac:(lra) ltac:(lra)) as CMP. rewrite VT, VM in CMP.
  destruct (l_le L e (f32_lit 5 1)); [exfalso; assert (fval x <= 1 / 2) by (apply CMP; reflexivity); lra|]. clear CMP.
  unfold hlg_decode. destruct (Rle_dec v (1 / 2)) as [C|_]; [lra|].
  (* exponent *)
  pose proof (approx_sub _ _ _ _ _ _ 2 HE CC) as H1.
  assert (XC : Rabs (v - hc) <= 17 / 10) by (unfold hc; apply Rabs_le; lra). specialize (H1 ltac:(lra) ltac:(lra)).
  assert (QB : 0 <= (v - hc) / ha <= 918 / 100).
  { assert (E : (v - hc) / ha * ha = v - hc) by (unfold ha; field). split; apply Rmult_le_reg_r with ha; try (unfold ha; lra); rewrite E; unfold ha, hc; lra. }
  pose proof (approx_div2 _ _ _ _ _ _ (1788 / 10000) (918 / 100) 10 H1 CA) as H2.
  assert (QA : Rabs ((v - hc) / ha) <= 918 / 100) by (apply Rabs_le; lra).
  unfold half_ulp in H2. specialize (H2 ltac:(lra) ltac:(unfold ha; lra) QA ltac:(lra) ltac:(lra)).
  set (y := f32_div _ _) in *. set (Y := (v - hc) / ha) in *. destruct H2 as (NY & EY).
  assert (EY2 : Rabs (fval y - Y) <= 11 / 100000) by lra. pose proof EY2 as EY3. apply Rabs_le_inv in EY3.
  (* power *)
  set (g := f32_lit 271828182845904523536 20) in *. set (b := 11401300 / 4194304) in *. set (y' := fval y) in *.
  pose proof ln_e' as LE.
  assert (LB : Rabs (ln b - ln e') <= 5 / 100000000).
  { eapply Rle_trans; [apply (ln_lip b e' 2); unfold b, e'; lra|]. assert (Rabs (b - e') <= 1 / 10000000) by (unfold b, e'; apply Rabs_le; lra). lra. }
  apply Rabs_le_inv in LE. pose proof LB as LB'. apply Rabs_le_inv in LB.
  assert (L1 : 999 / 1000 <= ln b <= 1001 / 1000) by lra.
  assert (LO : - (1 / 10) <= y' * ln b <= 95 / 10) by (split; nra).
  destruct (acc_pow _ A g y NE NY) as (P1 & _ & _); [rewrite VE; unfold b; lra|fold y'; apply Rabs_le; lra|].
  rewrite VE in P1. fold y' in P1.
  destruct P1 as (NP & EP); [apply Rle_trans with (bpow radix2 0); [apply bpow_le; lia|change (bpow radix2 0) with 1; unfold b; lra]|lra|].
  rewrite power_pos by (unfold e'; lra). unfold Rpower in EP |- *.
  set (E := exp (Y * ln e')).
  assert (PE : 0 < E <= 28561).
  { split; [apply exp_pos|]. eapply Rle_trans; [|apply exp_ten]. apply exp_le. nra. }
  assert (D : Rabs (y' * ln b - Y * ln e') <= 111 / 1000000).
  { replace (y' * ln b - Y * ln e') with ((y' - Y) * ln b + Y * (ln b - ln e')) by ring.
    eapply Rle_trans; [apply Rabs_triang|]. rewrite !Rabs_mult.
    assert (Rabs (y' - Y) * Rabs (ln b) <= 11 / 100000 * (1001 / 1000)) by (apply Rmult_le_compat; try apply Rabs_pos; [exact EY2|apply Rabs_le; lra]).
    assert (Rabs Y * Rabs (ln b - ln e') <= 918 / 100 * (5 / 100000000)) by (apply Rmult_le_compat; try apply Rabs_pos; [exact QA|exact LB']).
    lra. }
  pose proof (exp_near_one _ _ D ltac:(lra)) as R1.
  assert (EB : exp (y' * ln b) = E * exp (y' * ln b - Y * ln e')) by (unfold E; rewrite <- exp_plus; f_equal; ring).
  set (k := exp (y' * ln b - Y * ln e')) in *. apply Rabs_le_inv in R1.
  assert (PO : 0 <= pow_error b y' <= 3 / 1000000).
  { unfold pow_error. assert (Rabs y' <= 95 / 10) by (apply Rabs_le; lra). assert (Rabs (y' * ln b) <= 95 / 10) by (apply Rabs_le; lra).
    pose proof (Rabs_pos y'). pose proof (Rabs_pos (y' * ln b)). lra. }
  assert (HP : approx (l_pow L g y) E (12 / 100000 * E)).
  { split; [exact NP|]. rewrite EB in EP.
    replace (fval (l_pow L g y) - E) with ((fval (l_pow L g y) - E * k) + E * (k - 1)) by ring.
    eapply Rle_trans; [apply Rabs_triang|].
    assert (K1 : Rabs (E * (k - 1)) <= E * (112 / 1000000)) by (rewrite Rabs_mult, (Rabs_pos_eq E) by lra; apply Rmult_le_compat_l; [lra|apply Rabs_le; lra]).
    assert (K2 : pow_error b y' * (E * k) <= 3 / 1000000 * (E * (1001 / 1000))) by (apply Rmult_le_compat; [lra|nra|lra|apply Rmult_le_compat_l; lra]).
    lra. }
  assert (E1 : 1 <= E).
  { unfold E. rewrite <- exp_0. apply exp_le. apply Rmult_le_pos; lra. }
  pose proof (approx_add _ _ _ _ _ _ (2 * E) HP CB) as H3. rewrite (Rabs_pos_eq (_ + hb)) in H3 by (unfold hb; lra).
  specialize (H3 ltac:(unfold hb; lra) ltac:(lra)). split; [|unfold hb; lra].
  eapply approx_le; [apply (approx_div _ _ _ _ 12 (2 * E) H3 N12 V12)|].
  + lra.
  + rewrite Rabs_pos_eq by (unfold hb; lra). unfold half_ulp, hb. lra.
  + lra.
  + unfold half_ulp, hb. lra.
Qed.

(** Colors on both sides of 0 .. 1 *)
Lemma hlg_dec_far : forall sp sl b x v, let L := lane_of (libm_of sp sl) b in
  accurate L -> approx x v (19 / 1000000) -> - (6 / 5) <= v <= 11 / 5 ->
  approx (eotf L TBT2100HLG x) (hlg_decode (Rmax 0 v)) (3 / 10000 * (1 + hlg_decode (Rmax 0 v))) /\ 0 <= hlg_decode (Rmax 0 v) <= 2400.
Proof.
  intros sp sl b x v L A HX VB. destruct (Rle_dec v 1) as [C|C].
  - assert (M : 0 <= Rmax 0 v <= 1) by (unfold Rmax; destruct (Rle_dec 0 v); lra).
    pose proof (decoded_unit TBT2100HLG (Rmax 0 v) ltac:(discriminate) M) as U. cbn [decoded] in U.
    pose proof (decode_wide sp sl b TBT2100HLG x v A) as D. unfold decoded_all in D. cbn [decoded readable] in D. fold L in D.
    split; [eapply approx_le; [apply D; [eapply approx_le; [exact HX|unfold u7; lra]|lra]|lra]|lra].
  - rewrite Rmax_right by lra. destruct (hlg_dec_above L x v A HX ltac:(lra)) as (H & B). split; [eapply approx_le; [exact H|lra]|exact B].
Qed.
