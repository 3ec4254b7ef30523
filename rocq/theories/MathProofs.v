(** Accuracy of the logarithm, exponential and power function of the SIMD
    back ends. *)

From Coq Require Import ZArith Bool Reals Lia Lra Psatz List.
From Coq Require Import Floats.SpecFloat.
From Flocq Require Import Core.
From Flocq Require Import BinarySingleNaN Mult_error.
From Verif Require Import F32 Simd Math FloatProofs AccProofs PowerProofs PolyProofs.
Import ListNotations.
Local Open Scope R_scope.


(** * ln 2 *)

Lemma ln_2 : 693147180559 / 1000000000000 <= ln 2 <= 693147180560 / 1000000000000.
Proof.
  assert (H : forall t, 0 <= t <= 1 -> exp (- (4 * t)) = exp (- t) ^ 4).
  { intros t T. replace (- (4 * t)) with (- t + (- t + (- t + - t))) by ring. rewrite !exp_plus. ring. }
  split.
  - assert (L : exp (693147180559 / 1000000000000) < 2); [|apply Rnot_lt_le; intros N; apply exp_increasing in N; rewrite exp_ln in N by lra; lra].
    set (t := 693147180559 / 4000000000000). assert (T : 0 <= t <= 1) by (unfold t; lra).
    pose proof (H t T) as E. replace (4 * t) with (693147180559 / 1000000000000) in E by (unfold t; field).
    pose proof (exp_close t T) as (C & _). assert (P : 8408964152538 / 10000000000000 < exp (- t)) by (eapply Rlt_le_trans; [|exact C]; unfold exp_poly, t; lra).
    rewrite exp_Ropp in E. pose proof (exp_pos (693147180559 / 1000000000000)) as EP.
    assert (Q : 1 / 2 < / exp (693147180559 / 1000000000000)).
    { rewrite E. assert (8408964152538 / 10000000000000 * (8408964152538 / 10000000000000) < exp (- t) ^ 2) by nra. nra. }
    apply Rmult_lt_compat_r with (r := exp (693147180559 / 1000000000000)) in Q; [|exact EP]. rewrite Rinv_l in Q by lra. lra.
  - assert (L : 2 < exp (693147180560 / 1000000000000)); [|apply Rnot_lt_le; intros N; apply exp_increasing in N; rewrite exp_ln in N by lra; lra].
    set (t := 693147180560 / 4000000000000). assert (T : 0 <= t <= 1) by (unfold t; lra).
    pose proof (H t T) as E. replace (4 * t) with (693147180560 / 1000000000000) in E by (unfold t; field).
    pose proof (exp_close t T) as (_ & C). pose proof (exp_pos (- t)) as P0.
    assert (P : exp (- t) < 84089641525371451 / 100000000000000000) by (eapply Rle_lt_trans; [exact C|]; unfold exp_poly, t; lra).
    rewrite exp_Ropp in E. pose proof (exp_pos (693147180560 / 1000000000000)) as EP.
    assert (Q : / exp (693147180560 / 1000000000000) < 1 / 2).
    { rewrite E. assert (exp (- t) ^ 2 < 84089641525371451 / 100000000000000000 * (84089641525371451 / 100000000000000000)) by nra. assert (0 < exp (- t) ^ 2) by nra. nra. }
    apply Rmult_lt_compat_r with (r := exp (693147180560 / 1000000000000)) in Q; [|exact EP]. rewrite Rinv_l in Q by lra. lra.
Qed.

(** * Multiply and add *)

Lemma fma_exact : forall (sx : bool) (mx : positive) (ex : Z) (sy : bool) (my : positive) (ey : Z) (sz : bool) (mz : positive) (ez : Z),
  let p := (if xorb sx sy then Z.neg (mx * my) else Z.pos (mx * my)) in
  let q := (if sz then Z.neg mz else Z.pos mz)%Z in
  let e := Z.min (ex + ey)%Z ez in
  F2R (Float radix2 (p * 2 ^ (ex + ey - e) + q * 2 ^ (ez - e)) e) =
  fval (S754_finite sx mx ex) * fval (S754_finite sy my ey) + fval (S754_finite sz mz ez).
Proof.
  intros sx mx ex sy my ey sz mz ez p q e. rewrite !fval_finite. fold q. unfold F2R. cbn [Fnum Fexp].
  rewrite plus_IZR, !mult_IZR. change 2%Z with (radix_val radix2). rewrite !IZR_Zpower by (unfold e; lia).
  rewrite Rmult_plus_distr_r, !Rmult_assoc, <- !bpow_plus.
  replace (ex + ey - e + e)%Z with (ex + ey)%Z by lia. replace (ez - e + e)%Z with ez by lia. rewrite bpow_plus.
  replace (IZR p) with (IZR (if sx then Z.neg mx else Z.pos mx) * IZR (if sy then Z.neg my else Z.pos my)); [ring|].
  rewrite <- mult_IZR. f_equal. unfold p. destruct sx, sy; cbn [xorb]; lia.
Qed.

Lemma f32_fma_num : forall a b c, is_num a -> is_num b -> is_num c ->
  Rabs (fval a * fval b + fval c) <= bpow radix2 127 -> Rabs (fval a * fval b) <= bpow radix2 127 ->
  is_num (f32_fma a b c) /\ fval (f32_fma a b c) = rnd (fval a * fval b + fval c).
Proof.
  intros a b c A B C H HP.
  assert (Z0 : rnd 0 = 0) by (apply round_0; typeclasses eauto).
  assert (GEN : fval a * fval b = 0 -> is_num (f32_add (f32_mul a b) c) /\ fval (f32_add (f32_mul a b) c) = rnd (fval a * fval b + fval c)).
  { intros E. destruct (f32_mul_num a b A B HP) as (N & V). rewrite E, Z0 in V.
    destruct (f32_add_num (f32_mul a b) c N C) as (N' & V'); [rewrite V; rewrite E in H; exact H|].
    split; [exact N'|]. rewrite V', V, E. reflexivity. }
  destruct A as (A & FA), B as (B & FB), C as (C & FC).
  destruct a as [sa|sa| |sa ma ea]; try discriminate FA; [apply GEN; unfold fval; cbn; ring|].
  destruct b as [sb|sb| |sb mb eb]; try discriminate FB; [apply GEN; unfold fval; cbn; ring|].
  destruct c as [sc|sc| |sc mc ec]; try discriminate FC.
  - cbn [f32_fma]. replace (fval (S754_zero sc)) with 0 in * by reflexivity. rewrite Rplus_0_r in *.
    apply f32_mul_num; [split; assumption..|exact HP].
  - cbn [f32_fma]. unfold f32_prec, f32_emax. rewrite normalize_equiv.
    set (e := Z.min (ea + eb) ec). set (m := (_ + _)%Z).
    pose proof (binary_normalize_correct 24 128 prec_pos prec_max mode_NE m e false) as CC. cbv zeta in CC.
    unfold m, e in CC. rewrite fma_exact in CC. rewrite no_overflow in CC by exact H. destruct CC as (C1 & C2 & _).
    destruct (num_lower _ C2) as (N & V). split; [exact N|]. unfold m, e. rewrite V, C1. reflexivity.
Qed.

(** What the polynomials use: fused on x86, two roundings on NEON *)
Definition mul_add (y x c : f32) : f32 := f32_add (f32_mul y x) c.
Definition step_ok (op : f32 -> f32 -> f32 -> f32) : Prop :=
  forall y x c A B, is_num y -> is_num x -> is_num c ->
  Rabs (fval y * fval x) <= A -> Rabs (fval y * fval x + fval c) <= B -> A <= 1 -> B <= 10 ->
  is_num (op y x c) /\ Rabs (fval (op y x c) - (fval y * fval x + fval c)) <= half_ulp A + half_ulp B + 1 / 100000000000000.

Lemma rnd_half : forall x M, Rabs x <= M -> Rabs (rnd x - x) <= half_ulp M.
Proof. intros x M H. eapply Rle_trans; [apply rnd_error_below, H|]. unfold half_ulp. lra. Qed.

Lemma half_pos : forall M, 0 <= M -> 0 <= half_ulp M.
Proof. intros. unfold half_ulp. lra. Qed.

Lemma fma_step : step_ok f32_fma.
Proof.
  intros y x c A B Y X C HA HB LA LB. destruct (f32_fma_num y x c Y X C) as (N & V); [apply big_bound; lra..|].
  split; [exact N|]. rewrite V. pose proof (rnd_half _ _ HB). pose proof (half_pos A ltac:(pose proof (Rabs_pos (fval y * fval x)); lra)). lra.
Qed.

Lemma mul_add_step : step_ok mul_add.
Proof.
  intros y x c A B Y X C HA HB LA LB. unfold mul_add.
  destruct (f32_mul_num y x Y X) as (N & V); [apply big_bound; lra|]. pose proof (rnd_half _ _ HA) as R1. rewrite <- V in R1.
  set (p := fval y * fval x) in *. set (p' := fval (f32_mul y x)) in *.
  assert (S : Rabs (p' + fval c) <= B + half_ulp A).
  { replace (p' + fval c) with ((p' - p) + (p + fval c)) by ring. eapply Rle_trans; [apply Rabs_triang|]. lra. }
  assert (HS : half_ulp A <= 1 / 10000000) by (unfold half_ulp; lra).
  destruct (f32_add_num (f32_mul y x) c N C) as (N' & V'); [apply big_bound; fold p'; lra|]. fold p' in V'. split; [exact N'|].
  pose proof (rnd_half _ _ S) as R2. rewrite V'.
  replace (rnd (p' + fval c) - (p + fval c)) with ((rnd (p' + fval c) - (p' + fval c)) + (p' - p)) by ring.
  eapply Rle_trans; [apply Rabs_triang|]. unfold half_ulp in *. lra.
Qed.

Lemma horner : forall op y x c v e t T A C, step_ok op -> approx y v e -> is_num x -> fval x = t -> approx c (fval c) 0 ->
  Rabs v <= A -> Rabs t <= T -> Rabs (fval c) <= C -> 0 <= e <= 1 / 1000000 -> T <= 1 / 2 -> A <= 1 -> C <= 2 ->
  approx (op y x c) (v * t + fval c) (T * e + (2 * A * T + C) / 16777216 + 1 / 10000000000000) /\ Rabs (v * t + fval c) <= A * T + C.
Proof.
  intros op y x c v e t T A C OP (NY & HY) NX EX (NC & _) HA HT HC E LT LA LC.
  pose proof (Rabs_pos t) as T0. pose proof (Rabs_pos v) as V0. pose proof (Rabs_pos (fval c)) as C0.
  assert (B : Rabs (v * t + fval c) <= A * T + C).
  { eapply Rle_trans; [apply Rabs_triang|]. rewrite Rabs_mult. pose proof (Rmult_le_compat _ _ _ _ V0 T0 HA HT). lra. }
  split; [|exact B].
  assert (Y : Rabs (fval y) <= A + e) by (replace (fval y) with ((fval y - v) + v) by ring; eapply Rle_trans; [apply Rabs_triang|]; lra).
  assert (P : Rabs (fval y * fval x) <= (A + e) * T) by (rewrite Rabs_mult, EX; apply Rmult_le_compat; try apply Rabs_pos; assumption).
  assert (Q : Rabs (fval y * fval x + fval c) <= (A + e) * T + C) by (eapply Rle_trans; [apply Rabs_triang|]; lra).
  assert (ET : (A + e) * T <= 1) by nra.
  destruct (OP y x c _ _ NY NX NC P Q ET ltac:(lra)) as (N & V). split; [exact N|].
  rewrite EX in V. replace (fval (op y x c) - (v * t + fval c)) with ((fval (op y x c) - (fval y * t + fval c)) + (fval y - v) * t) by ring.
  eapply Rle_trans; [apply Rabs_triang|]. rewrite Rabs_mult.
  assert (D : Rabs (fval y - v) * Rabs t <= T * e) by (rewrite Rmult_comm; apply Rmult_le_compat; try apply Rabs_pos; assumption).
  assert (F : e * T <= 1 / 2000000) by nra.
  unfold half_ulp in V. lra.
Qed.

(** * The logarithm after the reduction of the argument *)

Definition log_core (op : f32 -> f32 -> f32 -> f32) (x e : f32) : f32 :=
  let z := f32_mul x x in
  let y := op (op (op (op (op (op (op (op LOG_P0 x LOG_P1) x LOG_P2) x LOG_P3) x LOG_P4) x LOG_P5) x LOG_P6) x LOG_P7) x LOG_P8 in
  f32_add (f32_add x (f32_sub (f32_add (f32_mul (f32_mul y x) z) (f32_mul e LOG_Q1)) (f32_mul z m_half))) (f32_mul e LOG_Q2).

Lemma const_val : forall x v, approx x v 0 -> fval x = v /\ approx x (fval x) 0.
Proof.
  intros x v (N & H). assert (E : fval x = v).
  { destruct (Req_dec (fval x - v) 0) as [|NE]; [lra|]. apply Rabs_pos_lt in NE. lra. }
  split; [exact E|]. split; [exact N|]. rewrite Rminus_diag_eq, Rabs_R0 by reflexivity. lra.
Qed.

Ltac const c v := let H := fresh "H" in assert (H : approx c v 0) by const_approx; apply const_val in H.

Lemma c_p0 : fval LOG_P0 = 9445819 / 134217728 /\ approx LOG_P0 (fval LOG_P0) 0. Proof. const LOG_P0 (9445819 / 134217728); assumption. Qed.
Lemma c_p1 : fval LOG_P1 = - (1931831 / 16777216) /\ approx LOG_P1 (fval LOG_P1) 0. Proof. const LOG_P1 (- (1931831 / 16777216)); assumption. Qed.
Lemma c_p2 : fval LOG_P2 = 7836301 / 67108864 /\ approx LOG_P2 (fval LOG_P2) 0. Proof. const LOG_P2 (7836301 / 67108864); assumption. Qed.
Lemma c_p3 : fval LOG_P3 = - (16670031 / 134217728) /\ approx LOG_P3 (fval LOG_P3) 0. Proof. const LOG_P3 (- (16670031 / 134217728)); assumption. Qed.
Lemma c_p4 : fval LOG_P4 = 9562559 / 67108864 /\ approx LOG_P4 (fval LOG_P4) 0. Proof. const LOG_P4 (9562559 / 67108864); assumption. Qed.
Lemma c_p5 : fval LOG_P5 = - (699109 / 4194304) /\ approx LOG_P5 (fval LOG_P5) 0. Proof. const LOG_P5 (- (699109 / 4194304)); assumption. Qed.
Lemma c_p6 : fval LOG_P6 = 3355563 / 16777216 /\ approx LOG_P6 (fval LOG_P6) 0. Proof. const LOG_P6 (3355563 / 16777216); assumption. Qed.
Lemma c_p7 : fval LOG_P7 = - (4194303 / 16777216) /\ approx LOG_P7 (fval LOG_P7) 0. Proof. const LOG_P7 (- (4194303 / 16777216)); assumption. Qed.
Lemma c_p8 : fval LOG_P8 = 5592405 / 16777216 /\ approx LOG_P8 (fval LOG_P8) 0. Proof. const LOG_P8 (5592405 / 16777216); assumption. Qed.
Lemma c_half : fval m_half = 1 / 2 /\ approx m_half (fval m_half) 0. Proof. const m_half (1 / 2); assumption. Qed.
Lemma c_one : fval m_one = 1 /\ approx m_one (fval m_one) 0. Proof. const m_one 1; assumption. Qed.
Lemma c_q2 : fval LOG_Q2 = 355 / 512 /\ approx LOG_Q2 (fval LOG_Q2) 0. Proof. const LOG_Q2 (355 / 512); assumption. Qed.
Lemma c_q1 : fval LOG_Q1 = - (14581891 / 68719476736) /\ approx LOG_Q1 (fval LOG_Q1) 0. Proof. const LOG_Q1 (- (14581891 / 68719476736)); assumption. Qed.

Lemma rnd_exact : forall n ex, (Z.abs n < 2 ^ 24)%Z -> (-149 <= ex)%Z -> rnd (IZR n * bpow radix2 ex) = IZR n * bpow radix2 ex.
Proof.
  intros n ex N E. apply round_generic; [typeclasses eauto|]. change (SpecFloat.fexp 24 128) with (FLT_exp (-149) 24).
  apply generic_format_FLT. exists (Float radix2 n ex); [reflexivity|exact N|exact E].
Qed.

Lemma mul_355 : forall e k c, is_num e -> fval e = IZR k -> (Z.abs k <= 200)%Z -> is_num c -> fval c = 355 / 512 ->
  is_num (f32_mul e c) /\ fval (f32_mul e c) = IZR k * (355 / 512).
Proof.
  intros e k c N E K NC EC.
  assert (B : Rabs (IZR k) <= 200) by (rewrite <- abs_IZR; apply IZR_le, K).
  destruct (f32_mul_num e c N NC) as (M & V).
  { rewrite E, EC. apply big_bound. rewrite Rabs_mult, (Rabs_pos_eq (355 / 512)) by lra. nra. }
  split; [exact M|]. rewrite V, E, EC. replace (IZR k * (355 / 512)) with (IZR (k * 355) * bpow radix2 (-9)).
  - apply rnd_exact; lia.
  - rewrite mult_IZR. change (bpow radix2 (-9)) with (/ 512). field.
Qed.

Lemma log_core_ok : forall op x e t k, step_ok op -> is_num x -> fval x = t -> - (75 / 256) <= t <= 107 / 256 ->
  is_num e -> fval e = IZR k -> (Z.abs k <= 128)%Z ->
  let v := ln (1 + t) + IZR k * ln 2 in
  approx (log_core op x e) v (9 / 100000000 + Rabs v / 16777216).
Proof.
  intros op x e t k OP NX EX T NE EE K v. unfold log_core.
  destruct c_p0 as (V0 & C0), c_p1 as (V1 & C1), c_p2 as (V2 & C2), c_p3 as (V3 & C3), c_p4 as (V4 & C4), c_p5 as (V5 & C5),
    c_p6 as (V6 & C6), c_p7 as (V7 & C7), c_p8 as (V8 & C8), c_half as (VH & CH), c_q1 as (VQ1 & CQ1), c_q2 as (VQ2 & CQ2).
  assert (TB : Rabs t <= 107 / 256) by (apply Rabs_le; lra).
  assert (XA : approx x t 0) by (split; [exact NX|]; rewrite EX, Rminus_diag_eq, Rabs_R0 by reflexivity; lra).
  assert (KB : Rabs (IZR k) <= 128) by (rewrite <- abs_IZR; apply IZR_le, K).
  assert (EA : approx e (IZR k) 0) by (split; [exact NE|]; rewrite EE, Rminus_diag_eq, Rabs_R0 by reflexivity; lra).
  set (y1 := op LOG_P0 x LOG_P1). set (y2 := op y1 x LOG_P2). set (y3 := op y2 x LOG_P3). set (y4 := op y3 x LOG_P4).
  set (y5 := op y4 x LOG_P5). set (y6 := op y5 x LOG_P6). set (y7 := op y6 x LOG_P7). set (y8 := op y7 x LOG_P8).
  set (w0 := fval LOG_P0) in *. set (w1 := w0 * t + fval LOG_P1). set (w2 := w1 * t + fval LOG_P2). set (w3 := w2 * t + fval LOG_P3).
  set (w4 := w3 * t + fval LOG_P4). set (w5 := w4 * t + fval LOG_P5). set (w6 := w5 * t + fval LOG_P6). set (w7 := w6 * t + fval LOG_P7). set (w8 := w7 * t + fval LOG_P8).
  assert (ST : forall y v0 e0 c A C e1, approx y v0 e0 /\ Rabs v0 <= A -> approx c (fval c) 0 -> Rabs (fval c) <= C -> 0 <= e0 <= 1 / 1000000 -> A <= 1 -> C <= 2 ->
     107 / 256 * e0 + (2 * A * (107 / 256) + C) / 16777216 + 1 / 10000000000000 <= e1 ->
     approx (op y x c) (v0 * t + fval c) e1 /\ Rabs (v0 * t + fval c) <= A * (107 / 256) + C).
  { intros y v0 e0 c A C e1 (HY & HA) HC HCB E0 A1 C2' LE.
    destruct (horner op y x c v0 e0 t (107 / 256) A C OP HY NX EX HC HA TB HCB E0 ltac:(lra) A1 C2') as (R1 & R2).
    split; [apply (approx_le _ _ _ _ R1 LE)|exact R2]. }
  assert (S0 : approx LOG_P0 w0 0 /\ Rabs w0 <= 704 / 10000) by (split; [exact C0|]; rewrite V0; apply Rabs_le; lra).
  assert (S1 : approx y1 w1 (11 / 1000000000) /\ Rabs w1 <= 1447 / 10000).
  { destruct (ST _ _ _ LOG_P1 _ (1152 / 10000) (11 / 1000000000) S0 C1) as (R1 & R2); try lra; [rewrite V1; apply Rabs_le; lra|]. split; [exact R1|]. eapply Rle_trans; [exact R2|lra]. }
  assert (S2 : approx y2 w2 (19 / 1000000000) /\ Rabs w2 <= 1773 / 10000).
  { destruct (ST _ _ _ LOG_P2 _ (1168 / 10000) (19 / 1000000000) S1 C2) as (R1 & R2); try lra; [rewrite V2; apply Rabs_le; lra|]. split; [exact R1|]. eapply Rle_trans; [exact R2|lra]. }
  assert (S3 : approx y3 w3 (25 / 1000000000) /\ Rabs w3 <= 1985 / 10000).
  { destruct (ST _ _ _ LOG_P3 _ (1243 / 10000) (25 / 1000000000) S2 C3) as (R1 & R2); try lra; [rewrite V3; apply Rabs_le; lra|]. split; [exact R1|]. eapply Rle_trans; [exact R2|lra]. }
  assert (S4 : approx y4 w4 (29 / 1000000000) /\ Rabs w4 <= 2256 / 10000).
  { destruct (ST _ _ _ LOG_P4 _ (1425 / 10000) (29 / 1000000000) S3 C4) as (R1 & R2); try lra; [rewrite V4; apply Rabs_le; lra|]. split; [exact R1|]. eapply Rle_trans; [exact R2|lra]. }
  assert (S5 : approx y5 w5 (34 / 1000000000) /\ Rabs w5 <= 2611 / 10000).
  { destruct (ST _ _ _ LOG_P5 _ (1667 / 10000) (34 / 1000000000) S4 C5) as (R1 & R2); try lra; [rewrite V5; apply Rabs_le; lra|]. split; [exact R1|]. eapply Rle_trans; [exact R2|lra]. }
  assert (S6 : approx y6 w6 (40 / 1000000000) /\ Rabs w6 <= 3093 / 10000).
  { destruct (ST _ _ _ LOG_P6 _ (2001 / 10000) (40 / 1000000000) S5 C6) as (R1 & R2); try lra; [rewrite V6; apply Rabs_le; lra|]. split; [exact R1|]. eapply Rle_trans; [exact R2|lra]. }
  assert (S7 : approx y7 w7 (48 / 1000000000) /\ Rabs w7 <= 3794 / 10000).
  { destruct (ST _ _ _ LOG_P7 _ (2500 / 10000) (48 / 1000000000) S6 C7) as (R1 & R2); try lra; [rewrite V7; apply Rabs_le; lra|]. split; [exact R1|]. eapply Rle_trans; [exact R2|lra]. }
  assert (S8 : approx y8 w8 (60 / 1000000000) /\ Rabs w8 <= 4920 / 10000).
  { destruct (ST _ _ _ LOG_P8 _ (3334 / 10000) (60 / 1000000000) S7 C8) as (R1 & R2); try lra; [rewrite V8; apply Rabs_le; lra|]. split; [exact R1|]. eapply Rle_trans; [exact R2|lra]. }
  clear ST S0 S1 S2 S3 S4 S5 S6 S7. destruct S8 as (S8 & B8).
  assert (Z : approx (f32_mul x x) (t * t) (11 / 1000000000)).
  { eapply approx_le; [apply (approx_mul x t 0 x t 0 (107 / 256) (107 / 256) (1748 / 10000) XA XA TB TB); lra|]. unfold half_ulp. lra. }
  assert (ZB : Rabs (t * t) <= 1748 / 10000) by (rewrite Rabs_mult; pose proof (Rabs_pos t); nra).
  assert (YX : approx (f32_mul y8 x) (w8 * t) (38 / 1000000000)).
  { eapply approx_le; [apply (approx_mul y8 w8 _ x t 0 (4920 / 10000) (107 / 256) (2057 / 10000) S8 XA B8 TB); lra|]. unfold half_ulp. lra. }
  assert (YXB : Rabs (w8 * t) <= 2057 / 10000) by (rewrite Rabs_mult; pose proof (Rabs_pos t); pose proof (Rabs_pos w8); nra).
  assert (YZ : approx (f32_mul (f32_mul y8 x) (f32_mul x x)) (w8 * t * (t * t)) (12 / 1000000000)).
  { eapply approx_le; [apply (approx_mul _ _ _ _ _ _ (2057 / 10000) (1748 / 10000) (36 / 1000) YX Z YXB ZB); lra|]. unfold half_ulp. lra. }
  assert (YZB : Rabs (w8 * t * (t * t)) <= 36 / 1000) by (rewrite Rabs_mult; pose proof (Rabs_pos (w8 * t)); pose proof (Rabs_pos (t * t)); nra).
  assert (Q1B : Rabs (fval LOG_Q1) <= 2122 / 10000000) by (rewrite VQ1; apply Rabs_le; lra).
  assert (EQ : approx (f32_mul e LOG_Q1) (IZR k * fval LOG_Q1) (2 / 1000000000)).
  { eapply approx_le; [apply (approx_mul e (IZR k) 0 LOG_Q1 (fval LOG_Q1) 0 128 (2122 / 10000000) (272 / 10000) EA CQ1 KB Q1B); lra|]. unfold half_ulp. lra. }
  assert (EQB : Rabs (IZR k * fval LOG_Q1) <= 272 / 10000) by (rewrite Rabs_mult; pose proof (Rabs_pos (IZR k)); pose proof (Rabs_pos (fval LOG_Q1)); nra).
  assert (A1 : approx (f32_add (f32_mul (f32_mul y8 x) (f32_mul x x)) (f32_mul e LOG_Q1)) (w8 * t * (t * t) + IZR k * fval LOG_Q1) (18 / 1000000000)).
  { eapply approx_le; [apply (approx_add _ _ _ _ _ _ (633 / 10000) YZ EQ); [|lra]|unfold half_ulp; lra]. pose proof (Rabs_triang (w8 * t * (t * t)) (IZR k * fval LOG_Q1)). lra. }
  assert (A1B : Rabs (w8 * t * (t * t) + IZR k * fval LOG_Q1) <= 633 / 10000) by (eapply Rle_trans; [apply Rabs_triang|lra]).
  assert (ZH : approx (f32_mul (f32_mul x x) m_half) (t * t * fval m_half) (11 / 1000000000)).
  { eapply approx_le; [apply (approx_mul _ _ _ _ _ 0 (1748 / 10000) (1 / 2) (875 / 10000) Z CH ZB); [rewrite VH; apply Rabs_le; lra|lra|lra]|]. unfold half_ulp. lra. }
  assert (ZHB : Rabs (t * t * fval m_half) <= 875 / 10000) by (rewrite Rabs_mult, VH, (Rabs_pos_eq (1 / 2)) by lra; lra).
  assert (A2 : approx (f32_sub (f32_add (f32_mul (f32_mul y8 x) (f32_mul x x)) (f32_mul e LOG_Q1)) (f32_mul (f32_mul x x) m_half))
     (w8 * t * (t * t) + IZR k * fval LOG_Q1 - t * t * fval m_half) (39 / 1000000000)).
  { eapply approx_le; [apply (approx_sub _ _ _ _ _ _ (151 / 1000) A1 ZH); [|lra]|unfold half_ulp; lra].
    unfold Rminus. pose proof (Rabs_triang (w8 * t * (t * t) + IZR k * fval LOG_Q1) (- (t * t * fval m_half))). rewrite Rabs_Ropp in H. lra. }
  assert (A2B : Rabs (w8 * t * (t * t) + IZR k * fval LOG_Q1 - t * t * fval m_half) <= 151 / 1000).
  { unfold Rminus. eapply Rle_trans; [apply Rabs_triang|]. rewrite Rabs_Ropp. lra. }
  assert (A3 : approx (f32_add x (f32_sub (f32_add (f32_mul (f32_mul y8 x) (f32_mul x x)) (f32_mul e LOG_Q1)) (f32_mul (f32_mul x x) m_half)))
     (t + (w8 * t * (t * t) + IZR k * fval LOG_Q1 - t * t * fval m_half)) (74 / 1000000000)).
  { eapply approx_le; [apply (approx_add _ _ _ _ _ _ (57 / 100) XA A2); [|lra]|unfold half_ulp; lra].
    pose proof (Rabs_triang t (w8 * t * (t * t) + IZR k * fval LOG_Q1 - t * t * fval m_half)). lra. }
  set (s := f32_add x _) in *. set (vs := t + (w8 * t * (t * t) + IZR k * fval LOG_Q1 - t * t * fval m_half)) in *.
  destruct A3 as (NS & HS).
  destruct (mul_355 e k LOG_Q2 NE EE ltac:(lia) (proj1 CQ2) VQ2) as (NM & VM).
  (* the value being approximated *)
  assert (W : Rabs (vs + IZR k * (355 / 512) - v) <= 12 / 1000000000).
  { assert (EV : vs = vlog_poly t + IZR k * fval LOG_Q1).
    { unfold vs, vlog_poly, w8, w7, w6, w5, w4, w3, w2, w1. rewrite V0, V1, V2, V3, V4, V5, V6, V7, V8, VH. ring. }
    rewrite EV, VQ1. unfold v. pose proof (vlog_poly_ok t T) as LP. pose proof ln_2 as L2.
    replace (vlog_poly t + IZR k * - (14581891 / 68719476736) + IZR k * (355 / 512) - (ln (1 + t) + IZR k * ln 2))
      with (- (ln (1 + t) - vlog_poly t) + IZR k * (- (14581891 / 68719476736) + 355 / 512 - ln 2)) by ring.
    eapply Rle_trans; [apply Rabs_triang|]. rewrite Rabs_Ropp, Rabs_mult.
    assert (Rabs (- (14581891 / 68719476736) + 355 / 512 - ln 2) <= 4 / 1000000000000) by (apply Rabs_le; lra).
    pose proof (Rabs_pos (IZR k)). pose proof (Rabs_pos (- (14581891 / 68719476736) + 355 / 512 - ln 2)). nra. }
  assert (HV : Rabs (fval s + IZR k * (355 / 512) - v) <= 86 / 1000000000).
  { replace (fval s + IZR k * (355 / 512) - v) with ((fval s - vs) + (vs + IZR k * (355 / 512) - v)) by ring. eapply Rle_trans; [apply Rabs_triang|lra]. }
  assert (BV : Rabs (fval s + IZR k * (355 / 512)) <= Rabs v + 86 / 1000000000).
  { replace (fval s + IZR k * (355 / 512)) with ((fval s + IZR k * (355 / 512) - v) + v) by ring. eapply Rle_trans; [apply Rabs_triang|lra]. }
  assert (BIG : Rabs v <= 1000).
  { unfold v. eapply Rle_trans; [apply Rabs_triang|]. rewrite Rabs_mult, (Rabs_pos_eq (ln 2)) by (pose proof ln_2; lra).
    assert (Rabs (ln (1 + t)) <= 1).
    { pose proof (vlog_poly_ok t T) as LP. unfold vs in *.
      assert (Rabs (vlog_poly t) <= 9 / 10).
      { replace (vlog_poly t) with (t + (w8 * t * (t * t) - t * t * fval m_half)).
        2:{ unfold vlog_poly, w8, w7, w6, w5, w4, w3, w2, w1. rewrite V0, V1, V2, V3, V4, V5, V6, V7, V8, VH. ring. }
        eapply Rle_trans; [apply Rabs_triang|]. unfold Rminus. pose proof (Rabs_triang (w8 * t * (t * t)) (- (t * t * fval m_half))) as TR. rewrite Rabs_Ropp in TR. lra. }
      replace (ln (1 + t)) with ((ln (1 + t) - vlog_poly t) + vlog_poly t) by ring. eapply Rle_trans; [apply Rabs_triang|lra]. }
    pose proof ln_2. pose proof (Rabs_pos (IZR k)). nra. }
  destruct (f32_add_num s (f32_mul e LOG_Q2) NS NM) as (NF & VF); [apply big_bound; rewrite VM; lra|].
  split; [exact NF|]. rewrite VF, VM. pose proof (rnd_half _ _ BV) as RH.
  set (q := fval s + IZR k * (355 / 512)) in *. replace (rnd q - v) with ((rnd q - q) + (q - v)) by ring.
  eapply Rle_trans; [apply Rabs_triang|]. unfold half_ulp in RH. lra.
Qed.

(** * Reduction of the argument of the logarithm *)

Definition log_tail (op : f32 -> f32 -> f32 -> f32) (imm0 : Z) (x : f32) : f32 :=
  let e := f32_add (f32_of_Z imm0) m_one in
  let mask := f32_lt x SQRT_HF in
  log_core op (f32_add (f32_sub x m_one) (masked mask x)) (f32_sub e (masked mask m_one)).

Lemma avx_log_tail : forall x, avx_log x =
  if negb (f32_le m_zero x) then S754_nan
  else log_tail f32_fma (i32_wrap (f32_bits (x86_max m_zero x) / 2 ^ 23 - 127))
         (f32_of_bits (Z.lor (f32_bits m_half) (Z.land INV_MANT_MASK (f32_bits (x86_max m_zero x))))).
Proof. intros x. exact eq_refl. Qed.

Lemma neon_log_tail : forall x, neon_log x =
  if negb (f32_is_nan x)
  then log_tail mul_add (i32_wrap (i32_wrap (f32_bits x) / 2 ^ 23 - 127))
         (f32_of_bits (Z.lor (Z.land (f32_bits x) INV_MANT_MASK) (f32_bits m_half)))
  else S754_nan.
Proof. intros x. exact eq_refl. Qed.

Lemma add_exact : forall a b n ex, is_num a -> is_num b -> fval a + fval b = IZR n * bpow radix2 ex -> (Z.abs n < 2 ^ 24)%Z -> (-149 <= ex <= 0)%Z ->
  is_num (f32_add a b) /\ fval (f32_add a b) = IZR n * bpow radix2 ex.
Proof.
  intros a b n ex A B E N X. assert (BB : Rabs (IZR n * bpow radix2 ex) <= bpow radix2 127).
  { rewrite Rabs_mult, <- abs_IZR, (Rabs_pos_eq (bpow radix2 ex)) by apply bpow_ge_0.
    apply Rle_trans with (bpow radix2 24 * bpow radix2 ex).
    - apply Rmult_le_compat_r; [apply bpow_ge_0|]. change (bpow radix2 24) with (IZR (2 ^ 24)). apply IZR_le. lia.
    - rewrite <- bpow_plus. apply bpow_le. lia. }
  destruct (f32_add_num a b A B) as (M & V); [rewrite E; exact BB|]. split; [exact M|]. rewrite V, E. apply rnd_exact; lia.
Qed.

Lemma sub_exact : forall a b n ex, is_num a -> is_num b -> fval a - fval b = IZR n * bpow radix2 ex -> (Z.abs n < 2 ^ 24)%Z -> (-149 <= ex <= 0)%Z ->
  is_num (f32_sub a b) /\ fval (f32_sub a b) = IZR n * bpow radix2 ex.
Proof.
  intros a b n ex A B E N X. assert (BB : Rabs (IZR n * bpow radix2 ex) <= bpow radix2 127).
  { rewrite Rabs_mult, <- abs_IZR, (Rabs_pos_eq (bpow radix2 ex)) by apply bpow_ge_0.
    apply Rle_trans with (bpow radix2 24 * bpow radix2 ex).
    - apply Rmult_le_compat_r; [apply bpow_ge_0|]. change (bpow radix2 24) with (IZR (2 ^ 24)). apply IZR_le. lia.
    - rewrite <- bpow_plus. apply bpow_le. lia. }
  destruct (f32_sub_num a b A B) as (M & V); [rewrite E; exact BB|]. split; [exact M|]. rewrite V, E. apply rnd_exact; lia.
Qed.

Lemma zero_num : is_num m_zero /\ fval m_zero = 0.
Proof. split; [split; reflexivity|reflexivity]. Qed.

Lemma bounded_24 : forall m e, (2 ^ 23 <= Z.pos m < 2 ^ 24)%Z -> (-149 <= e <= 104)%Z -> bounded 24 128 m e = true.
Proof.
  intros m e M E. unfold bounded, canonical_mantissa. apply andb_true_intro. split; [|apply Z.leb_le; lia].
  apply Zeq_is_eq_bool. rewrite Digits.Zpos_digits2_pos.
  assert (D : Digits.Zdigits radix2 (Z.pos m) = 24%Z).
  { apply Digits.Zdigits_unique. change (Zpower radix2 (24 - 1)) with (2 ^ 23)%Z. change (Zpower radix2 24) with (2 ^ 24)%Z. rewrite Z.abs_eq by lia. exact M. }
  rewrite D. unfold SpecFloat.fexp, SpecFloat.emin. lia.
Qed.

Lemma c_sqrt : approx SQRT_HF (11863283 / 16777216) 0. Proof. const_approx. Qed.

Lemma ln_scaled : forall s k, 0 < s -> ln (s * bpow radix2 k) = ln s + IZR k * ln 2.
Proof.
  intros s k S. rewrite ln_mult by (try apply bpow_gt_0; assumption). f_equal.
  rewrite bpow_powerRZ. change (IZR radix2) with 2. rewrite powerRZ_Rpower by lra. unfold Rpower. apply ln_exp.
Qed.

Lemma log_tail_ok : forall op ex fr, step_ok op -> (0 <= ex <= 254)%Z -> (0 <= fr < 2 ^ 23)%Z ->
  let v := ln (IZR (2 ^ 23 + fr) * bpow radix2 (ex - 150)) in
  approx (log_tail op (ex - 127) (S754_finite false (Z.to_pos (fr + 2 ^ 23)) (-24))) v (9 / 100000000 + Rabs v / 16777216).
Proof.
  intros op ex fr OP EX FR v. unfold log_tail.
  set (x := S754_finite false (Z.to_pos (fr + 2 ^ 23)) (-24)).
  assert (PX : Z.pos (Z.to_pos (fr + 2 ^ 23)) = (fr + 2 ^ 23)%Z) by (apply Z2Pos.id; lia).
  assert (NX : is_num x) by (split; [apply bounded_24; rewrite ?PX; lia|reflexivity]).
  assert (VX : fval x = IZR (fr + 2 ^ 23) * bpow radix2 (-24)) by (unfold x; rewrite fval_finite, PX; reflexivity).
  destruct (const_val _ _ c_sqrt) as (VS & (NS & _)). destruct c_one as (V1 & (N1 & _)). destruct zero_num as (N0 & V0).
  assert (B24 : bpow radix2 (-24) = / 16777216) by reflexivity.
  destruct (f32_of_Z_num (ex - 127)) as (NZ & VZ); [lia|].
  destruct (add_exact (f32_of_Z (ex - 127)) m_one (ex - 126) 0 NZ N1) as (NE & VE); [rewrite VZ, V1, !minus_IZR; change (bpow radix2 0) with 1; ring|lia|lia|].
  set (e0 := f32_add (f32_of_Z (ex - 127)) m_one) in *. change (bpow radix2 0) with 1 in VE. rewrite Rmult_1_r in VE.
  destruct (sub_exact x m_one (fr - 2 ^ 23) (-24) NX N1) as (NX1 & VX1); [rewrite VX, V1, plus_IZR, minus_IZR, B24; change (IZR (2 ^ 23)) with 8388608; field|lia|lia|].
  set (x1 := f32_sub x m_one) in *.
  rewrite (f32_lt_num x SQRT_HF NX NS), VS.
  assert (FB : 0 <= IZR fr <= 8388607) by (split; [apply IZR_le; lia|change 8388607 with (IZR (2 ^ 23 - 1)); apply IZR_le; lia]).
  rewrite plus_IZR in VX. rewrite minus_IZR in VX1. change (IZR (2 ^ 23)) with 8388608 in VX, VX1.
  destruct (Rlt_bool_spec (fval x) (11863283 / 16777216)) as [L|L]; cbn [masked].
  - destruct (add_exact x1 x (2 * fr) (-24) NX1 NX) as (NT & VT); [rewrite VX1, VX, mult_IZR, B24; field|lia|lia|].
    destruct (sub_exact e0 m_one (ex - 127) 0 NE N1) as (NK & VK); [rewrite VE, V1, !minus_IZR; change (bpow radix2 0) with 1; ring|lia|lia|].
    change (bpow radix2 0) with 1 in VK. rewrite Rmult_1_r in VK.
    rewrite mult_IZR, B24 in VT. rewrite VX, B24 in L.
    pose proof (log_core_ok op _ _ _ (ex - 127) OP NT VT ltac:(lra) NK VK ltac:(lia)) as C. cbv zeta in C.
    replace (ln (1 + 2 * IZR fr * / 16777216) + IZR (ex - 127) * ln 2) with v in C; [exact C|].
    unfold v. rewrite plus_IZR. change (IZR (2 ^ 23)) with 8388608. rewrite <- ln_scaled by lra. f_equal.
    replace (ex - 150)%Z with ((ex - 127) + -23)%Z by lia. rewrite bpow_plus. change (bpow radix2 (-23)) with (/ 8388608). field.
  - destruct (add_exact x1 m_zero (fr - 2 ^ 23) (-24) NX1 N0) as (NT & VT); [rewrite VX1, V0, minus_IZR; change (IZR (2 ^ 23)) with 8388608; ring|lia|lia|].
    destruct (sub_exact e0 m_zero (ex - 126) 0 NE N0) as (NK & VK); [rewrite VE, V0, !minus_IZR; change (bpow radix2 0) with 1; ring|lia|lia|].
    change (bpow radix2 0) with 1 in VK. rewrite Rmult_1_r in VK.
    rewrite minus_IZR, B24 in VT. change (IZR (2 ^ 23)) with 8388608 in VT. rewrite VX, B24 in L.
    pose proof (log_core_ok op _ _ _ (ex - 126) OP NT VT ltac:(lra) NK VK ltac:(lia)) as C. cbv zeta in C.
    replace (ln (1 + (IZR fr - 8388608) * / 16777216) + IZR (ex - 126) * ln 2) with v in C; [exact C|].
    unfold v. rewrite plus_IZR. change (IZR (2 ^ 23)) with 8388608. rewrite <- ln_scaled by lra. f_equal.
    replace (ex - 150)%Z with ((ex - 126) + -24)%Z by lia. rewrite bpow_plus, B24. field.
Qed.

(** The bits of a nonnegative number *)
Lemma bits_split : forall x, is_num x -> 0 <= fval x -> x <> S754_zero true ->
  exists ex fr, (0 <= ex <= 254)%Z /\ (0 <= fr < 2 ^ 23)%Z /\ f32_bits x = (ex * 2 ^ 23 + fr)%Z /\
    ((1 <= ex)%Z /\ fval x = IZR (2 ^ 23 + fr) * bpow radix2 (ex - 150) \/ ex = 0%Z /\ fval x = IZR fr * bpow radix2 (-149)).
Proof.
  intros x (V & F) P NZ. destruct x as [s|s| |s m e]; try discriminate F.
  - destruct s; [congruence|]. exists 0%Z, 0%Z. split; [lia|split; [lia|split; [reflexivity|right; split; [reflexivity|]]]]. unfold fval. cbn. lra.
  - destruct s.
    { exfalso. rewrite fval_finite in P. pose proof (bpow_gt_0 radix2 e). assert (IZR (Z.neg m) < 0) by (apply IZR_lt; lia). nra. }
    cbn [valid_binary] in V. unfold bounded, canonical_mantissa in V. apply andb_prop in V. destruct V as (V1 & V2).
    apply Zeq_bool_eq in V1. apply Z.leb_le in V2. rewrite Digits.Zpos_digits2_pos in V1.
    pose proof (Digits.Zdigits_correct radix2 (Z.pos m)) as D. set (d := Digits.Zdigits radix2 (Z.pos m)) in *.
    change (Zpower radix2 (d - 1)) with (2 ^ (d - 1))%Z in D. change (Zpower radix2 d) with (2 ^ d)%Z in D.
    rewrite Z.abs_eq in D by lia.
    assert (DP : (0 < d)%Z) by (apply Digits.Zdigits_gt_0; discriminate).
    unfold SpecFloat.fexp, SpecFloat.emin in V1.
    cbn [f32_bits]. rewrite fval_finite. cbv iota.
    destruct (Z.ltb_spec (Z.pos m) (2 ^ 23)) as [L|L].
    + exists 0%Z, (Z.pos m). split; [lia|split; [lia|split; [lia|right; split; [reflexivity|]]]]. do 2 f_equal.
      assert (d <= 23)%Z; [|lia]. destruct (Z_le_gt_dec d 23) as [|G]; [assumption|].
      assert (2 ^ 23 <= 2 ^ (d - 1))%Z by (apply Z.pow_le_mono_r; lia). lia.
    + assert (d = 24)%Z.
      { destruct (Z_le_gt_dec d 23) as [G|G].
        - assert (2 ^ d <= 2 ^ 23)%Z by (apply Z.pow_le_mono_r; lia). lia.
        - lia. }
      assert (LM : (Z.pos m < 2 ^ 24)%Z) by (replace 24%Z with d by assumption; lia).
      exists (e + 150)%Z, (Z.pos m - 2 ^ 23)%Z. split; [lia|split; [lia|split; [lia|left; split; [lia|]]]].
      f_equal; [f_equal; lia|f_equal; lia].
Qed.

Lemma land_high : forall b, (0 <= b < 2 ^ 31)%Z -> Z.land (2 ^ 31) b = 0%Z.
Proof.
  intros b B. rewrite Z.land_comm. apply Z.bits_inj_0. intros n. rewrite Z.land_spec.
  destruct (Z.eq_dec n 31) as [-> |NE].
  - replace (Z.testbit b 31) with false; [reflexivity|]. symmetry.
    destruct (Z.eq_dec b 0) as [-> |NB]; [reflexivity|]. apply Z.bits_above_log2; [lia|]. apply Z.log2_lt_pow2; lia.
  - rewrite Z.pow2_bits_false by congruence. apply andb_false_r.
Qed.

Lemma mant_mask : forall ex fr, (0 <= ex <= 254)%Z -> (0 <= fr < 2 ^ 23)%Z -> Z.land INV_MANT_MASK (ex * 2 ^ 23 + fr) = fr.
Proof.
  intros ex fr E F. change INV_MANT_MASK with (Z.lor (2 ^ 31) (Z.ones 23)). rewrite Z.land_lor_distr_l.
  rewrite land_high by lia. rewrite Z.lor_0_l, Z.land_comm, Z.land_ones by lia.
  rewrite Z.add_comm, Z.mod_add by lia. apply Z.mod_small, F.
Qed.

Lemma half_bits : forall fr, (0 <= fr < 2 ^ 23)%Z -> Z.lor (f32_bits m_half) fr = (126 * 2 ^ 23 + fr)%Z.
Proof.
  intros fr F. replace (f32_bits m_half) with (126 * 2 ^ 23)%Z by (vm_compute; reflexivity).
  assert (L : Z.land (126 * 2 ^ 23) fr = 0%Z).
  { apply Z.bits_inj_0. intros n. rewrite Z.land_spec. destruct (Z_lt_le_dec n 23) as [C|C].
    - rewrite Z.mul_pow2_bits_low by exact C. reflexivity.
    - replace (Z.testbit fr n) with false; [apply andb_false_r|]. symmetry.
      destruct (Z.eq_dec fr 0) as [-> |NB]; [apply Z.testbit_0_l|]. apply Z.bits_above_log2; [lia|].
      assert (Z.log2 fr < 23)%Z by (apply Z.log2_lt_pow2; lia). lia. }
  rewrite <- Z.lxor_lor by exact L. symmetry. apply Z.add_nocarry_lxor, L.
Qed.

Lemma of_bits_mant : forall fr, (0 <= fr < 2 ^ 23)%Z -> f32_of_bits (126 * 2 ^ 23 + fr) = S754_finite false (Z.to_pos (fr + 2 ^ 23)) (-24).
Proof.
  intros fr F. unfold f32_of_bits.
  rewrite (Z.mod_small (126 * 2 ^ 23 + fr) (2 ^ 31)) by lia.
  replace ((126 * 2 ^ 23 + fr) / 2 ^ 23)%Z with 126%Z by (rewrite Z.div_add_l, Z.div_small by lia; lia).
  replace ((126 * 2 ^ 23 + fr) mod 2 ^ 23)%Z with fr by (rewrite Z.add_comm, Z.mod_add, Z.mod_small by lia; lia).
  destruct (Z.leb_spec (2 ^ 31) (126 * 2 ^ 23 + fr)); [lia|]. reflexivity.
Qed.

Lemma i32_small : forall z, (- 2 ^ 31 <= z < 2 ^ 31)%Z -> i32_wrap z = z.
Proof. intros z Z. unfold i32_wrap. rewrite Z.mod_small by lia. lia. Qed.

(** The number the logarithm is taken of: [x] itself if it is not subnormal *)
Definition log_arg (x w : R) : Prop :=
  (/ IZR (2 ^ 126) <= x /\ w = x) \/ (0 <= x < / IZR (2 ^ 126) /\ w = / IZR (2 ^ 127) + x / 2).

Lemma bits_arg : forall x, is_num x -> 0 <= fval x -> x <> S754_zero true ->
  exists ex fr, (0 <= ex <= 254)%Z /\ (0 <= fr < 2 ^ 23)%Z /\ f32_bits x = (ex * 2 ^ 23 + fr)%Z /\
    log_arg (fval x) (IZR (2 ^ 23 + fr) * bpow radix2 (ex - 150)).
Proof.
  intros x N P NZ. destruct (bits_split x N P NZ) as (ex & fr & EX & FR & B & C). exists ex, fr.
  split; [exact EX|split; [exact FR|split; [exact B|]]]. unfold log_arg.
  change (/ IZR (2 ^ 126)) with (bpow radix2 (-126)). change (/ IZR (2 ^ 127)) with (bpow radix2 (-127)).
  assert (FB : 0 <= IZR fr <= 8388607) by (split; [apply IZR_le; lia|change 8388607 with (IZR (2 ^ 23 - 1)); apply IZR_le; lia]).
  rewrite plus_IZR in *. change (IZR (2 ^ 23)) with 8388608 in *.
  destruct C as [(C1 & C2)|(-> & C2)]; rewrite C2.
  - left. split; [|reflexivity]. apply Rle_trans with (8388608 * bpow radix2 (ex - 150)).
    + replace 8388608 with (bpow radix2 23) by reflexivity. rewrite <- bpow_plus. apply bpow_le. lia.
    + apply Rmult_le_compat_r; [apply bpow_ge_0|lra].
  - right. assert (BP : 0 < bpow radix2 (-150)) by apply bpow_gt_0.
    replace (bpow radix2 (-149)) with (2 * bpow radix2 (-150)) by (change (-149)%Z with (1 + -150)%Z; rewrite bpow_plus; reflexivity).
    replace (bpow radix2 (-126)) with (16777216 * bpow radix2 (-150)) by (change (-126)%Z with (24 + -150)%Z; rewrite bpow_plus; reflexivity).
    replace (bpow radix2 (-127)) with (8388608 * bpow radix2 (-150)) by (change (-127)%Z with (23 + -150)%Z; rewrite bpow_plus; reflexivity).
    change (0 - 150)%Z with (-150)%Z. split; [split; nra|field].
Qed.

Lemma avx_log_ok : forall x, is_num x -> 0 <= fval x -> x <> S754_zero true ->
  exists w, log_arg (fval x) w /\ approx (avx_log x) (ln w) (9 / 100000000 + Rabs (ln w) / 16777216).
Proof.
  intros x N P NZ. destruct (bits_arg x N P NZ) as (ex & fr & EX & FR & B & LA).
  exists (IZR (2 ^ 23 + fr) * bpow radix2 (ex - 150)). split; [exact LA|].
  destruct zero_num as (N0 & V0).
  rewrite avx_log_tail. rewrite (f32_le_num _ _ N0 N), V0. destruct (Rle_bool_spec 0 (fval x)) as [L|L]; [|lra]. cbn [negb].
  assert (M : x86_max m_zero x = x).
  { unfold x86_max. rewrite (f32_lt_num _ _ N N0), V0. destruct (Rlt_bool_spec (fval x) 0); [lra|reflexivity]. }
  rewrite M, B, mant_mask, half_bits, of_bits_mant by assumption.
  replace ((ex * 2 ^ 23 + fr) / 2 ^ 23)%Z with ex by (rewrite Z.div_add_l, Z.div_small by lia; lia).
  rewrite i32_small by lia. apply (log_tail_ok f32_fma ex fr fma_step EX FR).
Qed.

Lemma neon_log_ok : forall x, is_num x -> 0 <= fval x -> x <> S754_zero true ->
  exists w, log_arg (fval x) w /\ approx (neon_log x) (ln w) (9 / 100000000 + Rabs (ln w) / 16777216).
Proof.
  intros x N P NZ. destruct (bits_arg x N P NZ) as (ex & fr & EX & FR & B & LA).
  exists (IZR (2 ^ 23 + fr) * bpow radix2 (ex - 150)). split; [exact LA|].
  rewrite neon_log_tail. replace (f32_is_nan x) with false by (destruct N as (_ & F), x; try discriminate F; reflexivity). cbn [negb].
  rewrite B, Z.land_comm, mant_mask, Z.lor_comm, half_bits, of_bits_mant by assumption.
  rewrite (i32_small (ex * 2 ^ 23 + fr)) by lia.
  replace ((ex * 2 ^ 23 + fr) / 2 ^ 23)%Z with ex by (rewrite Z.div_add_l, Z.div_small by lia; lia).
  rewrite i32_small by lia. apply (log_tail_ok mul_add ex fr mul_add_step EX FR).
Qed.

(** * The exponential after the reduction of the argument *)

Definition exp_core (op : f32 -> f32 -> f32 -> f32) (x n : f32) : f32 :=
  let x := f32_sub (f32_sub x (f32_mul n EXP_C1)) (f32_mul n EXP_C2) in
  let z := f32_mul x x in
  let y := op (op (op (op (op EXP_P0 x EXP_P1) x EXP_P2) x EXP_P3) x EXP_P4) x EXP_P5 in
  f32_add (op y z x) m_one.

Lemma c_e0 : fval EXP_P0 = 13658471 / 68719476736 /\ approx EXP_P0 (fval EXP_P0) 0. Proof. const EXP_P0 (13658471 / 68719476736); assumption. Qed.
Lemma c_e1 : fval EXP_P1 = 6005223 / 4294967296 /\ approx EXP_P1 (fval EXP_P1) 0. Proof. const EXP_P1 (6005223 / 4294967296); assumption. Qed.
Lemma c_e2 : fval EXP_P2 = 1118497 / 134217728 /\ approx EXP_P2 (fval EXP_P2) 0. Proof. const EXP_P2 (1118497 / 134217728); assumption. Qed.
Lemma c_e3 : fval EXP_P3 = 11184577 / 268435456 /\ approx EXP_P3 (fval EXP_P3) 0. Proof. const EXP_P3 (11184577 / 268435456); assumption. Qed.
Lemma c_e4 : fval EXP_P4 = 5592405 / 33554432 /\ approx EXP_P4 (fval EXP_P4) 0. Proof. const EXP_P4 (5592405 / 33554432); assumption. Qed.
Lemma c_e5 : fval EXP_P5 = 1 / 2 /\ approx EXP_P5 (fval EXP_P5) 0. Proof. const EXP_P5 (1 / 2); assumption. Qed.
Lemma c_c1 : fval EXP_C1 = 355 / 512 /\ approx EXP_C1 (fval EXP_C1) 0. Proof. const EXP_C1 (355 / 512); assumption. Qed.
Lemma c_c2 : fval EXP_C2 = - (14581891 / 68719476736) /\ approx EXP_C2 (fval EXP_C2) 0. Proof. const EXP_C2 (- (14581891 / 68719476736)); assumption. Qed.
Lemma c_l2e : fval L2E = 12102203 / 8388608 /\ approx L2E (fval L2E) 0. Proof. const L2E (12102203 / 8388608); assumption. Qed.

Lemma exp_near_one : forall d D, Rabs d <= D -> D <= 1 / 2 -> Rabs (exp d - 1) <= D + 2 * D * D.
Proof.
  intros d D H L. pose proof (exp_ineq1_le d) as E1. pose proof (exp_ineq1_le (- d)) as E2. rewrite exp_Ropp in E2.
  pose proof (exp_pos d) as EP. pose proof (Rabs_pos d).
  assert (DB : - D <= d <= D) by (apply Rabs_le_inv, H).
  assert (U : exp d * (1 - d) <= 1).
  { apply Rmult_le_compat_l with (r := exp d) in E2; [|lra]. rewrite Rinv_r in E2 by lra. lra. }
  apply Rabs_le. split; [nra|]. assert (exp d * (1 - D) <= 1) by nra.
  assert ((1 + D + 2 * D * D) * (1 - D) >= 1) by nra. nra.
Qed.

Lemma exp_le : forall a b, a <= b -> exp a <= exp b.
Proof. intros a b [H| ->]; [left; apply exp_increasing, H|lra]. Qed.

Lemma exp_core_ok : forall op x n xv k, step_ok op -> is_num x -> fval x = xv -> is_num n -> fval n = IZR k -> (Z.abs k <= 128)%Z ->
  Rabs (xv - IZR k * ln 2) <= 3468 / 10000 ->
  let v := exp (xv - IZR k * ln 2) in
  approx (exp_core op x n) v (25 / 100000000 * v).
Proof.
  intros op x n xv k OP NX EX NN EN K RHO v. unfold exp_core.
  destruct c_e0 as (V0 & C0), c_e1 as (V1 & C1), c_e2 as (V2 & C2), c_e3 as (V3 & C3), c_e4 as (V4 & C4), c_e5 as (V5 & C5),
    c_c1 as (VC1 & CC1), c_c2 as (VC2 & CC2), c_one as (VO & CO).
  assert (KB : Rabs (IZR k) <= 128) by (rewrite <- abs_IZR; apply IZR_le, K).
  assert (NA : approx n (IZR k) 0) by (split; [exact NN|]; rewrite EN, Rminus_diag_eq, Rabs_R0 by reflexivity; lra).
  assert (XA : approx x xv 0) by (split; [exact NX|]; rewrite EX, Rminus_diag_eq, Rabs_R0 by reflexivity; lra).
  destruct (mul_355 n k EXP_C1 NN EN ltac:(lia) (proj1 CC1) VC1) as (NM & VM).
  assert (MA : approx (f32_mul n EXP_C1) (IZR k * (355 / 512)) 0) by (split; [exact NM|]; rewrite VM, Rminus_diag_eq, Rabs_R0 by reflexivity; lra).
  assert (C2B : Rabs (fval EXP_C2) <= 2122 / 10000000) by (rewrite VC2; apply Rabs_le; lra).
  assert (Z2 : approx (f32_mul n EXP_C2) (IZR k * fval EXP_C2) (17 / 10000000000)).
  { eapply approx_le; [apply (approx_mul n (IZR k) 0 EXP_C2 (fval EXP_C2) 0 128 (2122 / 10000000) (272 / 10000) NA CC2 KB C2B); lra|]. unfold half_ulp. lra. }
  assert (Z2B : Rabs (IZR k * fval EXP_C2) <= 272 / 10000) by (rewrite Rabs_mult; pose proof (Rabs_pos (IZR k)); pose proof (Rabs_pos (fval EXP_C2)); nra).
  assert (SM : Rabs (IZR k * (355 / 512 + fval EXP_C2 - ln 2)) <= 1 / 1000000000).
  { rewrite Rabs_mult. pose proof ln_2 as L2. assert (Rabs (355 / 512 + fval EXP_C2 - ln 2) <= 4 / 1000000000000) by (rewrite VC2; apply Rabs_le; lra).
    pose proof (Rabs_pos (IZR k)). pose proof (Rabs_pos (355 / 512 + fval EXP_C2 - ln 2)). nra. }
  set (rho := xv - IZR k * ln 2) in *.
  apply Rabs_le_inv in RHO, Z2B, SM.
  assert (R1 : approx (f32_sub x (f32_mul n EXP_C1)) (xv - IZR k * (355 / 512)) (225 / 10000000000)).
  { eapply approx_le; [apply (approx_sub _ _ _ _ _ _ (3742 / 10000) XA MA); [|lra]|unfold half_ulp; lra].
    replace (xv - IZR k * (355 / 512)) with (rho - IZR k * (355 / 512 + fval EXP_C2 - ln 2) + IZR k * fval EXP_C2) by (unfold rho; ring).
    assert (Rabs (rho - IZR k * (355 / 512 + fval EXP_C2 - ln 2) + IZR k * fval EXP_C2) <= 37401 / 100000) by (apply Rabs_le; lra). lra. }
  assert (R2 : approx (f32_sub (f32_sub x (f32_mul n EXP_C1)) (f32_mul n EXP_C2)) (xv - IZR k * (355 / 512) - IZR k * fval EXP_C2) (451 / 10000000000)).
  { eapply approx_le; [apply (approx_sub _ _ _ _ _ _ (3470 / 10000) R1 Z2); [|lra]|unfold half_ulp; lra].
    replace (xv - IZR k * (355 / 512) - IZR k * fval EXP_C2) with (rho - IZR k * (355 / 512 + fval EXP_C2 - ln 2)) by (unfold rho; ring).
    assert (Rabs (rho - IZR k * (355 / 512 + fval EXP_C2 - ln 2)) <= 34681 / 100000) by (apply Rabs_le; lra). lra. }
  set (rf := f32_sub (f32_sub x (f32_mul n EXP_C1)) (f32_mul n EXP_C2)) in *. set (r := fval rf).
  destruct R2 as (NR & HR). fold r in HR.
  assert (RR : Rabs (r - rho) <= 462 / 10000000000).
  { replace (r - rho) with ((r - (xv - IZR k * (355 / 512) - IZR k * fval EXP_C2)) - IZR k * (355 / 512 + fval EXP_C2 - ln 2)) by (unfold rho; ring).
    apply Rabs_le_inv in HR. apply Rabs_le. lra. }
  assert (RB : Rabs r <= 347 / 1000) by (apply Rabs_le_inv in RR; apply Rabs_le; lra).
  clear R1 HR Z2 Z2B SM MA NM VM.
  assert (RA : approx rf r 0) by (split; [exact NR|]; unfold r; rewrite Rminus_diag_eq, Rabs_R0 by reflexivity; lra).
  set (y1 := op EXP_P0 rf EXP_P1). set (y2 := op y1 rf EXP_P2). set (y3 := op y2 rf EXP_P3). set (y4 := op y3 rf EXP_P4). set (y5 := op y4 rf EXP_P5).
  set (w0 := fval EXP_P0) in *. set (w1 := w0 * r + fval EXP_P1). set (w2 := w1 * r + fval EXP_P2). set (w3 := w2 * r + fval EXP_P3).
  set (w4 := w3 * r + fval EXP_P4). set (w5 := w4 * r + fval EXP_P5).
  assert (ST : forall y v0 e0 c A C e1, approx y v0 e0 /\ Rabs v0 <= A -> approx c (fval c) 0 -> Rabs (fval c) <= C -> 0 <= e0 <= 1 / 1000000 -> A <= 1 -> C <= 2 ->
     347 / 1000 * e0 + (2 * A * (347 / 1000) + C) / 16777216 + 1 / 10000000000000 <= e1 ->
     approx (op y rf c) (v0 * r + fval c) e1 /\ Rabs (v0 * r + fval c) <= A * (347 / 1000) + C).
  { intros y v0 e0 c A C e1 (HY & HA) HC HCB E0 A1 C2' LE.
    destruct (horner op y rf c v0 e0 r (347 / 1000) A C OP HY NR eq_refl HC HA RB HCB E0 ltac:(lra) A1 C2') as (Q1 & Q2).
    split; [apply (approx_le _ _ _ _ Q1 LE)|exact Q2]. }
  assert (S0 : approx EXP_P0 w0 0 /\ Rabs w0 <= 2 / 10000) by (split; [exact C0|]; rewrite V0; apply Rabs_le; lra).
  assert (S1 : approx y1 w1 (1 / 10000000000) /\ Rabs w1 <= 15 / 10000).
  { destruct (ST _ _ _ EXP_P1 _ (14 / 10000) (1 / 10000000000) S0 C1) as (Q1 & Q2); try lra; [rewrite V1; apply Rabs_le; lra|]. split; [exact Q1|]. eapply Rle_trans; [exact Q2|lra]. }
  assert (S2 : approx y2 w2 (7 / 10000000000) /\ Rabs w2 <= 89 / 10000).
  { destruct (ST _ _ _ EXP_P2 _ (834 / 100000) (7 / 10000000000) S1 C2) as (Q1 & Q2); try lra; [rewrite V2; apply Rabs_le; lra|]. split; [exact Q1|]. eapply Rle_trans; [exact Q2|lra]. }
  assert (S3 : approx y3 w3 (32 / 10000000000) /\ Rabs w3 <= 448 / 10000).
  { destruct (ST _ _ _ EXP_P3 _ (417 / 10000) (32 / 10000000000) S2 C3) as (Q1 & Q2); try lra; [rewrite V3; apply Rabs_le; lra|]. split; [exact Q1|]. eapply Rle_trans; [exact Q2|lra]. }
  assert (S4 : approx y4 w4 (130 / 10000000000) /\ Rabs w4 <= 1823 / 10000).
  { destruct (ST _ _ _ EXP_P4 _ (1667 / 10000) (130 / 10000000000) S3 C4) as (Q1 & Q2); try lra; [rewrite V4; apply Rabs_le; lra|]. split; [exact Q1|]. eapply Rle_trans; [exact Q2|lra]. }
  assert (S5 : approx y5 w5 (420 / 10000000000) /\ Rabs w5 <= 5633 / 10000).
  { destruct (ST _ _ _ EXP_P5 _ (1 / 2) (420 / 10000000000) S4 C5) as (Q1 & Q2); try lra; [rewrite V5; apply Rabs_le; lra|]. split; [exact Q1|]. eapply Rle_trans; [exact Q2|lra]. }
  clear ST S0 S1 S2 S3 S4. destruct S5 as (S5 & B5).
  assert (Z : approx (f32_mul rf rf) (r * r) (73 / 10000000000)).
  { eapply approx_le; [apply (approx_mul rf r 0 rf r 0 (347 / 1000) (347 / 1000) (1205 / 10000) RA RA RB RB); lra|]. unfold half_ulp. lra. }
  destruct Z as (NZ & HZ). set (zf := f32_mul rf rf) in *. set (z := fval zf) in *.
  assert (ZB : Rabs z <= 121 / 1000).
  { replace z with ((z - r * r) + r * r) by ring. eapply Rle_trans; [apply Rabs_triang|]. rewrite (Rabs_mult r r). pose proof (Rabs_pos r). nra. }
  assert (RC : approx rf (fval rf) 0) by exact RA.
  destruct (horner op y5 zf rf w5 (420 / 10000000000) z (121 / 1000) (5633 / 10000) (347 / 1000) OP S5 NZ eq_refl RC B5 ZB RB ltac:(lra) ltac:(lra) ltac:(lra) ltac:(lra)) as (Y6 & _).
  fold r in Y6.
  assert (Y6' : approx (op y5 zf rf) (w5 * (r * r) + r) (39 / 1000000000)).
  { eapply approx_weaken; [exact Y6|]. replace (w5 * z + r - (w5 * (r * r) + r)) with (w5 * (z - r * r)) by ring. rewrite Rabs_mult.
    pose proof (Rabs_pos w5). pose proof (Rabs_pos (z - r * r)). nra. }
  assert (Y7 : approx (f32_add (op y5 zf rf) m_one) (w5 * (r * r) + r + fval m_one) (1237 / 10000000000)).
  { eapply approx_le; [apply (approx_add _ _ _ _ _ _ (1417 / 1000) Y6' CO); [|lra]|unfold half_ulp; lra]. rewrite VO.
    assert (Rabs (w5 * (r * r) + r + 1) <= 14161 / 10000); [|lra].
    eapply Rle_trans; [apply Rabs_triang|]. rewrite Rabs_R1. pose proof (Rabs_triang (w5 * (r * r)) r) as TR. rewrite (Rabs_mult w5), (Rabs_mult r r) in TR.
    pose proof (Rabs_pos r). pose proof (Rabs_pos w5). assert (Rabs r * Rabs r <= 12041 / 100000) by nra. assert (0 <= Rabs r * Rabs r) by nra. nra. }
  (* from the polynomial to the exponential *)
  assert (EP : w5 * (r * r) + r + fval m_one = vexp_poly r).
  { unfold vexp_poly, w5, w4, w3, w2, w1. rewrite V0, V1, V2, V3, V4, V5, VO. ring. }
  rewrite EP in Y7. apply Rabs_le_inv in RB. pose proof (vexp_poly_ok r ltac:(lra)) as PO.
  eapply approx_weaken; [exact Y7|].
  assert (VP : 0 < v) by apply exp_pos.
  assert (VL : 695 / 1000 <= v).
  { unfold v. apply Rle_trans with (exp (- (3468 / 10000))); [|apply exp_le; lra].
    replace (- (3468 / 10000)) with (- (867 / 10000) + - (867 / 10000) + (- (867 / 10000) + - (867 / 10000))) by field. rewrite !exp_plus.
    pose proof (exp_ineq1_le (- (867 / 10000))) as Q. set (q := exp (- (867 / 10000))) in *. assert (83411 / 100000 <= q * q) by nra. nra. }
  assert (ER : Rabs (exp r - v) <= 463 / 10000000000 * v).
  { replace (exp r - v) with ((exp (r - rho) - 1) * v) by (unfold v, rho; rewrite Rmult_minus_distr_r, <- exp_plus; replace (r - (xv - IZR k * ln 2) + (xv - IZR k * ln 2)) with r by ring; ring).
    rewrite Rabs_mult, (Rabs_pos_eq v) by lra. apply Rmult_le_compat_r; [lra|]. eapply Rle_trans; [apply (exp_near_one _ _ RR); lra|lra]. }
  replace (vexp_poly r - v) with ((vexp_poly r - exp r) + (exp r - v)) by ring. eapply Rle_trans; [apply Rabs_triang|].
  apply Rabs_le_inv in ER. assert (exp r <= 2 * v) by lra. assert (Rabs (exp r - v) <= 463 / 10000000000 * v) by (apply Rabs_le; lra). lra.
Qed.

(** * Reduction of the argument of the exponential *)

(** [n * 2^23 + 127 * 2^23] as a float: [2^n] *)
Definition scale_of (k : Z) : f32 := f32_of_bits (u32_wrap (i32_wrap (k + 127) * 2 ^ 23)).

Lemma avx_exp_tail : forall x,
  let x' := x86_max EXP_LO (x86_min EXP_HI x) in
  let fx := f32_add (f32_mul x' L2E) m_half in
  let n := f32_sub (f32_floor fx) (masked (f32_lt fx (f32_floor fx)) m_one) in
  avx_exp x = f32_mul (exp_core f32_fma x' n) (scale_of (cvttps_epi32 n)).
Proof. intros x. unfold avx_exp, exp_core, scale_of. cbv beta zeta. reflexivity. Qed.

Lemma neon_exp_tail : forall x,
  let x' := neon_max (neon_min x EXP_HI) EXP_LO in
  let fx := f32_add m_half (f32_mul x' L2E) in
  let t := f32_of_Z (neon_cvt_s32 fx) in
  let n := f32_sub t (masked (f32_lt fx t) m_one) in
  neon_exp x = f32_mul (exp_core mul_add x' n) (scale_of (neon_cvt_s32 n)).
Proof. intros x. unfold neon_exp, exp_core, scale_of, mul_add. cbv beta zeta. reflexivity. Qed.

Lemma scale_ok : forall k, (-126 <= k <= 127)%Z -> is_num (scale_of k) /\ fval (scale_of k) = bpow radix2 k.
Proof.
  intros k K. unfold scale_of. rewrite i32_small by lia. unfold u32_wrap. rewrite Z.mod_small by lia.
  unfold f32_of_bits. rewrite (Z.mod_small _ (2 ^ 31)) by lia. rewrite Z.div_mul, Z.mod_mul by lia.
  destruct (Z.leb_spec (2 ^ 31) ((k + 127) * 2 ^ 23)); [lia|]. destruct (Z.eqb_spec (k + 127) 255); [lia|]. destruct (Z.eqb_spec (k + 127) 0); [lia|].
  split; [split; [apply bounded_24; cbn; lia|reflexivity]|]. rewrite fval_finite. cbv iota. change (Z.pos (Z.to_pos (0 + 2 ^ 23))) with (2 ^ 23)%Z.
  change (IZR (2 ^ 23)) with (bpow radix2 23). rewrite <- bpow_plus. f_equal. lia.
Qed.

Lemma scale_zero : scale_of (-127) = S754_zero false.
Proof. vm_compute. reflexivity. Qed.

(** Conversion of a whole number *)
Lemma trunc_exact : forall s m e k, fval (S754_finite s m e) = IZR k -> f32_trunc s m e = k.
Proof.
  intros s m e k H. rewrite fval_finite in H. unfold f32_trunc.
  assert (G : forall z, (0 <= z)%Z -> bpow radix2 z = IZR (2 ^ z)) by (intros z Hz; symmetry; apply (IZR_Zpower radix2), Hz).
  destruct e as [|d|d].
  - rewrite G, <- mult_IZR in H by lia. apply eq_IZR in H. destruct s; lia.
  - rewrite G, <- mult_IZR in H by lia. apply eq_IZR in H. destruct s; [change (Z.neg m) with (- Z.pos m)%Z in H|]; lia.
  - rewrite bpow_inv in H. assert (P : (0 < 2 ^ Z.pos d)%Z) by (apply Z.pow_pos_nonneg; lia).
    assert (E : IZR (if s then Z.neg m else Z.pos m) = IZR (k * 2 ^ Z.pos d)).
    { rewrite mult_IZR, <- H. field. apply IZR_lt in P. lra. }
    apply eq_IZR in E. destruct s.
    + assert (F : (Z.pos m = (- k) * 2 ^ Z.pos d)%Z) by (change (Z.neg m) with (- Z.pos m)%Z in E; lia). rewrite F, Z.div_mul by lia. lia.
    + rewrite E, Z.div_mul by lia. reflexivity.
Qed.

Lemma cvt_exact : forall n k, is_num n -> fval n = IZR k -> (Z.abs k <= 2 ^ 24)%Z -> cvttps_epi32 n = k /\ neon_cvt_s32 n = k.
Proof.
  intros n k (V & F) H K. destruct n as [s|s| |s m e]; try discriminate F; cbn [cvttps_epi32 neon_cvt_s32].
  - assert (k = 0)%Z by (apply eq_IZR; rewrite <- H; reflexivity). lia.
  - rewrite (trunc_exact _ _ _ _ H). split.
    + destruct (Z.leb_spec (- 2 ^ 31) k); [|lia]. destruct (Z.leb_spec k (2 ^ 31 - 1)); [reflexivity|lia].
    + unfold clampZ. lia.
Qed.

Lemma floor_ok : forall x, is_num x -> Rabs (fval x) <= 1000 ->
  exists k, is_num (f32_floor x) /\ fval (f32_floor x) = IZR k /\ IZR k <= fval x < IZR k + 1.
Proof.
  intros x N B. pose proof N as (V & F). destruct x as [s|s| |s m e]; try discriminate F.
  - exists 0%Z. split; [exact N|]. split; [reflexivity|]. unfold fval. cbn. lra.
  - assert (BIG : forall z, (0 <= z)%Z -> e = z -> exists k, is_num (f32_floor (S754_finite s m e)) /\ fval (f32_floor (S754_finite s m e)) = IZR k /\ IZR k <= fval (S754_finite s m e) < IZR k + 1).
    { intros z Hz ->. exists ((if s then Z.neg m else Z.pos m) * 2 ^ z)%Z.
      assert (E : f32_floor (S754_finite s m z) = S754_finite s m z) by (destruct z; [reflexivity|reflexivity|lia]).
      rewrite E. split; [exact N|]. rewrite fval_finite, mult_IZR. change 2%Z with (radix_val radix2). rewrite IZR_Zpower by exact Hz. split; [reflexivity|lra]. }
    destruct e as [|d|d]; [apply (BIG 0%Z); lia|apply (BIG (Z.pos d)); lia|]. clear BIG.
    set (a := (if s then Z.neg m else Z.pos m)). set (z := (a / 2 ^ Z.pos d)%Z). exists z.
    assert (P : (0 < 2 ^ Z.pos d)%Z) by (apply Z.pow_pos_nonneg; lia).
    assert (FV : fval (S754_finite s m (Z.neg d)) = IZR a / IZR (2 ^ Z.pos d)) by (rewrite fval_finite, bpow_inv; reflexivity).
    pose proof (Z.div_mod a (2 ^ Z.pos d) ltac:(lia)) as DM. pose proof (Z.mod_pos_bound a (2 ^ Z.pos d) P) as MB. fold z in DM.
    assert (PR : 0 < IZR (2 ^ Z.pos d)) by (apply IZR_lt, P).
    assert (ZB : IZR z <= fval (S754_finite s m (Z.neg d)) < IZR z + 1).
    { rewrite FV. split.
      - apply Rmult_le_reg_r with (IZR (2 ^ Z.pos d)); [exact PR|]. unfold Rdiv. rewrite Rmult_assoc, Rinv_l, Rmult_1_r by lra. rewrite <- mult_IZR. apply IZR_le. lia.
      - apply Rmult_lt_reg_r with (IZR (2 ^ Z.pos d)); [exact PR|]. unfold Rdiv. rewrite Rmult_assoc, Rinv_l, Rmult_1_r by lra. change 1 with (IZR 1). rewrite <- plus_IZR, <- mult_IZR. apply IZR_lt. lia. }
    apply Rabs_le_inv in B.
    assert (ZK : (-1001 <= z <= 1000)%Z).
    { split; [assert (-1001 < z)%Z; [|lia]; apply lt_IZR; lra|apply le_IZR; lra]. }
    cbn [f32_floor]. fold a. fold z. destruct (Z.eqb_spec z 0) as [E0|NE0].
    + split; [split; reflexivity|]. split; [rewrite E0; reflexivity|exact ZB].
    + destruct (f32_of_Z_num z) as (NN & VV); [lia|]. split; [exact NN|]. split; [exact VV|exact ZB].
Qed.

(** The rounded product with log2 e, plus a half *)
Lemma fx_ok : forall x, is_num x -> Rabs (fval x) <= 89 ->
  is_num (f32_mul x L2E) /\ fval (f32_mul x L2E) = rnd (fval x * fval L2E) /\
  Rabs (rnd (rnd (fval x * fval L2E) + 1 / 2) - (fval x * (12102203 / 8388608) + 1 / 2)) <= 16 / 1000000 /\ Rabs (rnd (fval x * fval L2E) + 1 / 2) <= 130.
Proof.
  intros x N B. destruct c_l2e as (VL & (NL & _)).
  assert (PB : Rabs (fval x * fval L2E) <= 1285 / 10).
  { rewrite VL, Rabs_mult, (Rabs_pos_eq (12102203 / 8388608)) by lra. nra. }
  destruct (f32_mul_num x L2E N NL) as (M & V); [apply big_bound; lra|]. split; [exact M|split; [exact V|]].
  pose proof (rnd_half _ _ PB) as R1. set (p := fval x * fval L2E) in *.
  assert (R1' : Rabs (rnd p - p) <= 77 / 10000000) by (unfold half_ulp in R1; lra). apply Rabs_le_inv in R1', PB.
  assert (QB : Rabs (rnd p + 1 / 2) <= 1291 / 10) by (apply Rabs_le; lra).
  pose proof (rnd_half _ _ QB) as R2. assert (R2' : Rabs (rnd (rnd p + 1 / 2) - (rnd p + 1 / 2)) <= 78 / 10000000) by (unfold half_ulp in R2; lra).
  apply Rabs_le_inv in R2'. split; [|lra]. replace (fval x * (12102203 / 8388608)) with p by (unfold p; rewrite VL; reflexivity). apply Rabs_le. lra.
Qed.

Lemma nearest_multiple : forall x fx k, Rabs x <= 89 -> Rabs (fx - (x * (12102203 / 8388608) + 1 / 2)) <= 16 / 1000000 -> IZR k <= fx < IZR k + 1 ->
  Rabs (x - IZR k * ln 2) <= 3468 / 10000.
Proof.
  intros x fx k X F K. pose proof ln_2 as L. apply Rabs_le_inv in X, F.
  set (q := 12102203 / 8388608) in *. assert (QL : 1 - 14 / 1000000000 <= q * ln 2 <= 1) by (unfold q; lra).
  assert (D : IZR k - 1 / 2 - 16 / 1000000 <= x * q <= IZR k + 1 / 2 + 16 / 1000000) by lra.
  assert (E1 : (IZR k - 1 / 2 - 16 / 1000000) * ln 2 <= x * q * ln 2) by (apply Rmult_le_compat_r; lra).
  assert (E2 : x * q * ln 2 <= (IZR k + 1 / 2 + 16 / 1000000) * ln 2) by (apply Rmult_le_compat_r; lra).
  assert (E3 : Rabs (x * (q * ln 2) - x) <= 2 / 1000000).
  { replace (x * (q * ln 2) - x) with (x * (q * ln 2 - 1)) by ring. rewrite Rabs_mult.
    assert (Rabs (q * ln 2 - 1) <= 14 / 1000000000) by (apply Rabs_le; lra). assert (Rabs x <= 89) by (apply Rabs_le; lra).
    pose proof (Rabs_pos x). pose proof (Rabs_pos (q * ln 2 - 1)). nra. }
  apply Rabs_le_inv in E3. rewrite <- Rmult_assoc in E3. apply Rabs_le. lra.
Qed.

(** The whole computation, given the whole part *)
Lemma exp_scaled : forall op x n k, step_ok op -> is_num x -> is_num n -> fval n = IZR k ->
  Rabs (fval x - IZR k * ln 2) <= 3468 / 10000 ->
  ((-124 <= k <= 126)%Z -> approx (f32_mul (exp_core op x n) (scale_of k)) (exp (fval x)) (25 / 100000000 * exp (fval x))) /\
  ((-127 <= k <= -123)%Z -> is_num (f32_mul (exp_core op x n) (scale_of k)) /\ 0 <= fval (f32_mul (exp_core op x n) (scale_of k)) <= bpow radix2 (-122)).
Proof.
  intros op x n k OP NX NN EN R.
  assert (CORE : (Z.abs k <= 128)%Z -> approx (exp_core op x n) (exp (fval x - IZR k * ln 2)) (25 / 100000000 * exp (fval x - IZR k * ln 2)))
    by (intros K; apply (exp_core_ok op x n (fval x) k OP NX eq_refl NN EN K R)).
  set (v := exp (fval x - IZR k * ln 2)) in *. assert (VP : 0 < v) by apply exp_pos.
  assert (VB : 69 / 100 <= v <= 145 / 100).
  { apply Rabs_le_inv in R. unfold v. split.
    - apply Rle_trans with (exp (- (3468 / 10000))); [|apply exp_le; lra].
      replace (- (3468 / 10000)) with (- (867 / 10000) + - (867 / 10000) + (- (867 / 10000) + - (867 / 10000))) by field. rewrite !exp_plus.
      pose proof (exp_ineq1_le (- (867 / 10000))) as Q. set (q := exp (- (867 / 10000))) in *. assert (83411 / 100000 <= q * q) by nra. nra.
    - apply Rle_trans with (exp (3468 / 10000)); [apply exp_le; lra|].
      pose proof (exp_ineq1_le (- (867 / 10000))) as Q. pose proof (exp_pos (867 / 10000)) as EP. rewrite exp_Ropp in Q.
      assert (U : exp (867 / 10000) <= 1095 / 1000).
      { apply Rmult_le_compat_l with (r := exp (867 / 10000)) in Q; [|lra]. rewrite Rinv_r in Q by lra. lra. }
      replace (3468 / 10000) with (867 / 10000 + 867 / 10000 + (867 / 10000 + 867 / 10000)) by field. rewrite !exp_plus.
      set (q := exp (867 / 10000)) in *. assert (q * q <= 12 / 10) by nra. nra. }
  assert (SC : v * bpow radix2 k = exp (fval x)).
  { rewrite bpow_powerRZ. change (IZR radix2) with 2. rewrite powerRZ_Rpower by lra. unfold Rpower, v. rewrite <- exp_plus. f_equal. ring. }
  split; intros K.
  - destruct (CORE ltac:(lia)) as (NY & HY). set (y := exp_core op x n) in *. destruct (scale_ok k ltac:(lia)) as (NS & VS).
    assert (HY' : Rabs (fval y - v) <= 1 / 1000000) by lra. apply Rabs_le_inv in HY'.
    assert (EXACT : rnd (fval y * bpow radix2 k) = fval y * bpow radix2 k).
    { apply round_generic; [typeclasses eauto|]. change (SpecFloat.fexp 24 128) with (FLT_exp (-149) 24).
      apply mult_bpow_exact_FLT; [apply (num_format y NY)|].
      assert (0 <= mag radix2 (fval y))%Z; [|lia]. apply mag_ge_bpow. change (bpow radix2 (0 - 1)) with (/ 2). rewrite Rabs_pos_eq; lra. }
    destruct (f32_mul_num y (scale_of k) NY NS) as (NM & VM).
    { rewrite VS, Rabs_mult, (Rabs_pos_eq (bpow radix2 k)) by apply bpow_ge_0. rewrite Rabs_pos_eq by lra.
      apply Rle_trans with (2 * bpow radix2 k); [apply Rmult_le_compat_r; [apply bpow_ge_0|lra]|].
      change 2 with (bpow radix2 1). rewrite <- bpow_plus. apply bpow_le. lia. }
    split; [exact NM|]. rewrite VM, VS, EXACT, <- SC. rewrite <- Rmult_minus_distr_r, Rabs_mult, (Rabs_pos_eq (bpow radix2 k)) by apply bpow_ge_0.
    rewrite <- Rmult_assoc. apply Rmult_le_compat_r; [apply bpow_ge_0|exact HY].
  - destruct (CORE ltac:(lia)) as (NY & HY). set (y := exp_core op x n) in *.
    assert (HY' : Rabs (fval y - v) <= 1 / 1000000) by lra. apply Rabs_le_inv in HY'.
    assert (Z0 : rnd 0 = 0) by (apply round_0; typeclasses eauto).
    destruct (Z.eq_dec k (-127)) as [-> |NE].
    + rewrite scale_zero. destruct zero_num as (N0 & V0). destruct (f32_mul_num y (S754_zero false) NY N0) as (NM & VM).
      { change (fval (S754_zero false)) with 0. rewrite Rmult_0_r, Rabs_R0. apply bpow_ge_0. }
      split; [exact NM|]. rewrite VM. change (fval (S754_zero false)) with 0. rewrite Rmult_0_r, Z0. split; [lra|apply bpow_ge_0].
    + destruct (scale_ok k ltac:(lia)) as (NS & VS).
      assert (B : fval y * bpow radix2 k <= bpow radix2 (-122)).
      { apply Rle_trans with (2 * bpow radix2 k); [apply Rmult_le_compat_r; [apply bpow_ge_0|lra]|].
        change 2 with (bpow radix2 1). rewrite <- bpow_plus. apply bpow_le. lia. }
      assert (P : 0 <= fval y * bpow radix2 k) by (apply Rmult_le_pos; [lra|apply bpow_ge_0]).
      destruct (f32_mul_num y (scale_of k) NY NS) as (NM & VM).
      { rewrite VS, Rabs_pos_eq by exact P. eapply Rle_trans; [exact B|apply bpow_le; lia]. }
      split; [exact NM|]. rewrite VM, VS. split.
      * rewrite <- Z0. apply rnd_mono, P.
      * pose proof (rnd_bound (fval y * bpow radix2 k) (-122) ltac:(lia) ltac:(lia)) as RB. rewrite (Rabs_pos_eq (fval y * _)) in RB by exact P.
        specialize (RB B). apply Rabs_le_inv in RB. lra.
Qed.

Definition fx_of (x : R) : R := rnd (rnd (x * (12102203 / 8388608)) + 1 / 2).

Lemma avx_whole : forall x, is_num x -> Rabs (fval x) <= 89 ->
  let fx := f32_add (f32_mul x L2E) m_half in
  let n := f32_sub (f32_floor fx) (masked (f32_lt fx (f32_floor fx)) m_one) in
  exists k, is_num n /\ fval n = IZR k /\ cvttps_epi32 n = k /\ IZR k <= fx_of (fval x) < IZR k + 1.
Proof.
  intros x N B fx n. destruct (fx_ok x N B) as (NM & VM & ERR & FB). destruct c_half as (VH & (NH & _)). destruct c_l2e as (VL & _).
  destruct (f32_add_num (f32_mul x L2E) m_half NM NH) as (NF & VF); [rewrite VM, VH; apply big_bound; lra|]. fold fx in NF, VF.
  assert (FE : fval fx = fx_of (fval x)) by (rewrite VF, VM, VH, VL; reflexivity).
  assert (FXB : Rabs (fval fx) <= 1000).
  { rewrite VF, VM, VH. apply Rabs_le_inv in ERR, B. apply Rabs_le. lra. }
  destruct (floor_ok fx NF FXB) as (k & NK & VK & HK). exists k.
  assert (LT : f32_lt fx (f32_floor fx) = false) by (rewrite (f32_lt_num _ _ NF NK), VK; destruct (Rlt_bool_spec (fval fx) (IZR k)); [lra|reflexivity]).
  unfold n. rewrite LT. cbn [masked]. destruct zero_num as (N0 & V0). apply Rabs_le_inv in FXB.
  assert (KB : (-1001 <= k <= 1000)%Z) by (split; [assert (-1001 < k)%Z; [apply lt_IZR; lra|lia]|apply le_IZR; lra]).
  destruct (sub_exact (f32_floor fx) m_zero k 0 NK N0) as (NS & VS); [rewrite VK, V0; change (bpow radix2 0) with 1; ring|lia|lia|].
  change (bpow radix2 0) with 1 in VS. rewrite Rmult_1_r in VS.
  split; [exact NS|split; [exact VS|split; [apply (cvt_exact _ k NS VS); lia|rewrite <- FE; exact HK]]].
Qed.

Lemma trunc_near : forall x, is_num x -> Rabs (fval x) <= 1000 ->
  (0 <= fval x -> IZR (neon_cvt_s32 x) <= fval x < IZR (neon_cvt_s32 x) + 1) /\
  (fval x <= 0 -> IZR (neon_cvt_s32 x) - 1 < fval x <= IZR (neon_cvt_s32 x)).
Proof.
  intros x (V & F) B. destruct x as [s|s| |s m e]; try discriminate F.
  - cbn [neon_cvt_s32]. unfold fval. cbn. split; intros; lra.
  - cbn [neon_cvt_s32].
    assert (NEG : s = true -> fval (S754_finite s m e) < 0).
    { intros ->. rewrite fval_finite. pose proof (bpow_gt_0 radix2 e). assert (IZR (Z.neg m) < 0) by (apply IZR_lt; lia). nra. }
    assert (POS : s = false -> 0 < fval (S754_finite s m e)).
    { intros ->. rewrite fval_finite. pose proof (bpow_gt_0 radix2 e). assert (0 < IZR (Z.pos m)) by (apply IZR_lt; lia). nra. }
    assert (AB : fval (S754_finite s m e) = (if s then -1 else 1) * (IZR (Z.pos m) * bpow radix2 e)).
    { rewrite fval_finite. destruct s; [change (Z.neg m) with (- Z.pos m)%Z; rewrite opp_IZR|]; ring. }
    assert (TR : exists a, (0 <= a)%Z /\ f32_trunc s m e = (if s then - a else a)%Z /\ IZR a <= IZR (Z.pos m) * bpow radix2 e < IZR a + 1).
    { unfold f32_trunc. assert (G : forall z, (0 <= z)%Z -> bpow radix2 z = IZR (2 ^ z)) by (intros z Hz; symmetry; apply (IZR_Zpower radix2), Hz).
      destruct e as [|d|d].
      - exists (Z.pos m * 2 ^ 0)%Z. split; [lia|split; [reflexivity|]]. rewrite G, mult_IZR by lia. lra.
      - exists (Z.pos m * 2 ^ Z.pos d)%Z. split; [lia|split; [reflexivity|]]. rewrite G, mult_IZR by lia. lra.
      - exists (Z.pos m / 2 ^ Z.pos d)%Z. assert (P : (0 < 2 ^ Z.pos d)%Z) by (apply Z.pow_pos_nonneg; lia).
        split; [apply Z.div_pos; lia|split; [reflexivity|]]. rewrite bpow_inv.
        pose proof (Z.div_mod (Z.pos m) (2 ^ Z.pos d) ltac:(lia)) as DM. pose proof (Z.mod_pos_bound (Z.pos m) (2 ^ Z.pos d) P) as MB.
        set (z := (Z.pos m / 2 ^ Z.pos d)%Z) in *. assert (PR : 0 < IZR (2 ^ Z.pos d)) by (apply IZR_lt, P). split.
        + apply Rmult_le_reg_r with (IZR (2 ^ Z.pos d)); [exact PR|]. rewrite Rmult_assoc, Rinv_l, Rmult_1_r by lra. rewrite <- mult_IZR. apply IZR_le. lia.
        + apply Rmult_lt_reg_r with (IZR (2 ^ Z.pos d)); [exact PR|]. rewrite Rmult_assoc, Rinv_l, Rmult_1_r by lra. change 1 with (IZR 1). rewrite <- plus_IZR, <- mult_IZR. apply IZR_lt. lia. }
    destruct TR as (a & A0 & -> & HA). apply Rabs_le_inv in B.
    assert (AK : (a <= 1000)%Z) by (apply le_IZR; destruct s; lra).
    unfold clampZ. destruct s.
    + specialize (NEG eq_refl). replace (Z.max (- 2 ^ 31) (Z.min (2 ^ 31 - 1) (- a))) with (- a)%Z by lia. rewrite opp_IZR. split; intros; lra.
    + specialize (POS eq_refl). replace (Z.max (- 2 ^ 31) (Z.min (2 ^ 31 - 1) a)) with a by lia. split; intros; lra.
Qed.

Lemma neon_whole : forall x, is_num x -> Rabs (fval x) <= 89 ->
  let fx := f32_add m_half (f32_mul x L2E) in
  let t := f32_of_Z (neon_cvt_s32 fx) in
  let n := f32_sub t (masked (f32_lt fx t) m_one) in
  exists k, is_num n /\ fval n = IZR k /\ neon_cvt_s32 n = k /\ IZR k <= fx_of (fval x) < IZR k + 1.
Proof.
  intros x N B fx t n. destruct (fx_ok x N B) as (NM & VM & ERR & FB). destruct c_half as (VH & (NH & _)). destruct c_l2e as (VL & _). destruct c_one as (V1 & (N1 & _)).
  destruct (f32_add_num m_half (f32_mul x L2E) NH NM) as (NF & VF); [rewrite VM, VH, Rplus_comm; apply big_bound; lra|]. fold fx in NF, VF.
  rewrite Rplus_comm in VF.
  assert (FE : fval fx = fx_of (fval x)) by (rewrite VF, VM, VH, VL; reflexivity).
  assert (FXB : Rabs (fval fx) <= 1000).
  { rewrite VF, VM, VH. apply Rabs_le_inv in ERR, B. apply Rabs_le. lra. }
  destruct (trunc_near fx NF FXB) as (TP & TN). set (z := neon_cvt_s32 fx) in *. apply Rabs_le_inv in FXB.
  assert (ZB : (-1001 <= z <= 1001)%Z).
  { destruct (Rle_dec 0 (fval fx)) as [C|C]; [specialize (TP C)|specialize (TN ltac:(lra))]; split; apply le_IZR; lra. }
  destruct (f32_of_Z_num z) as (NT & VT); [lia|]. fold t in NT, VT.
  destruct zero_num as (N0 & V0).
  unfold n. rewrite (f32_lt_num _ _ NF NT), VT. destruct (Rlt_bool_spec (fval fx) (IZR z)) as [L|L]; cbn [masked].
  - exists (z - 1)%Z. destruct (sub_exact t m_one (z - 1) 0 NT N1) as (NS & VS); [rewrite VT, V1, minus_IZR; change (bpow radix2 0) with 1; ring|lia|lia|].
    change (bpow radix2 0) with 1 in VS. rewrite Rmult_1_r in VS.
    split; [exact NS|split; [exact VS|split; [apply (cvt_exact _ (z - 1)%Z NS VS); lia|]]]. rewrite <- FE, minus_IZR.
    destruct (Rle_dec 0 (fval fx)) as [C|C]; [specialize (TP C)|specialize (TN ltac:(lra))]; lra.
  - exists z. destruct (sub_exact t m_zero z 0 NT N0) as (NS & VS); [rewrite VT, V0; change (bpow radix2 0) with 1; ring|lia|lia|].
    change (bpow radix2 0) with 1 in VS. rewrite Rmult_1_r in VS.
    split; [exact NS|split; [exact VS|split; [apply (cvt_exact _ z NS VS); lia|]]]. rewrite <- FE.
    destruct (Rle_dec 0 (fval fx)) as [C|C]; [specialize (TP C)|specialize (TN ltac:(lra))]; lra.
Qed.

(** The clamped argument *)
Lemma c_hi : fval EXP_HI = 11583653 / 131072 /\ approx EXP_HI (fval EXP_HI) 0. Proof. const EXP_HI (11583653 / 131072); assumption. Qed.
Lemma c_lo : fval EXP_LO = - (11583653 / 131072) /\ approx EXP_LO (fval EXP_LO) 0. Proof. const EXP_LO (- (11583653 / 131072)); assumption. Qed.

Lemma avx_clamped : forall x, is_num x ->
  let x' := x86_max EXP_LO (x86_min EXP_HI x) in
  is_num x' /\ Rabs (fval x') <= 11583653 / 131072 /\ (-88 <= fval x <= 88 -> fval x' = fval x) /\ (fval x <= -86 -> fval x' <= -86).
Proof.
  intros x N x'. destruct c_hi as (VH & (NH & _)), c_lo as (VL & (NL & _)). unfold x', x86_max, x86_min.
  rewrite (f32_lt_num _ _ NH N), VH. destruct (Rlt_bool_spec (11583653 / 131072) (fval x)) as [H|H].
  - rewrite (f32_lt_num _ _ NH NL), VH, VL. destruct (Rlt_bool_spec (11583653 / 131072) (- (11583653 / 131072))) as [H1|H1]; [lra|].
    split; [exact NH|]. rewrite VH. split; [rewrite Rabs_pos_eq; lra|split; intros; lra].
  - rewrite (f32_lt_num _ _ N NL), VL. destruct (Rlt_bool_spec (fval x) (- (11583653 / 131072))) as [H1|H1].
    + split; [exact NL|]. rewrite VL. split; [rewrite Rabs_Ropp, Rabs_pos_eq; lra|split; intros; lra].
    + split; [exact N|]. split; [apply Rabs_le; lra|split; intros; lra].
Qed.

Lemma num_not_nan : forall x, is_num x -> f32_is_nan x = false.
Proof. intros x (_ & F). destruct x; try discriminate F; reflexivity. Qed.

Lemma neon_min_num : forall a b, is_num a -> is_num b -> is_num (neon_min a b) /\ fval (neon_min a b) = Rmin (fval a) (fval b).
Proof.
  intros a b A B. unfold neon_min. rewrite (num_not_nan a A), (num_not_nan b B). cbn [orb].
  rewrite (f32_lt_num _ _ A B), (f32_lt_num _ _ B A). destruct (Rlt_bool_spec (fval a) (fval b)) as [L|L].
  - split; [exact A|]. rewrite Rmin_left by lra. reflexivity.
  - destruct (Rlt_bool_spec (fval b) (fval a)) as [L2|L2].
    + split; [exact B|]. rewrite Rmin_right by lra. reflexivity.
    + assert (E : fval a = fval b) by lra. rewrite Rmin_left by lra. destruct a as [[]| | |]; split; congruence || assumption || reflexivity.
Qed.

Lemma neon_max_num : forall a b, is_num a -> is_num b -> is_num (neon_max a b) /\ fval (neon_max a b) = Rmax (fval a) (fval b).
Proof.
  intros a b A B. unfold neon_max. rewrite (num_not_nan a A), (num_not_nan b B). cbn [orb].
  rewrite (f32_lt_num _ _ A B), (f32_lt_num _ _ B A). destruct (Rlt_bool_spec (fval a) (fval b)) as [L|L].
  - split; [exact B|]. rewrite Rmax_right by lra. reflexivity.
  - destruct (Rlt_bool_spec (fval b) (fval a)) as [L2|L2].
    + split; [exact A|]. rewrite Rmax_left by lra. reflexivity.
    + assert (E : fval a = fval b) by lra. rewrite Rmax_left by lra. destruct a as [[]| | |]; split; congruence || assumption || reflexivity.
Qed.

Lemma neon_clamped : forall x, is_num x ->
  let x' := neon_max (neon_min x EXP_HI) EXP_LO in
  is_num x' /\ Rabs (fval x') <= 11583653 / 131072 /\ (-88 <= fval x <= 88 -> fval x' = fval x) /\ (fval x <= -86 -> fval x' <= -86).
Proof.
  intros x N x'. destruct c_hi as (VH & (NH & _)), c_lo as (VL & (NL & _)).
  destruct (neon_min_num x EXP_HI N NH) as (NM & VM). destruct (neon_max_num _ EXP_LO NM NL) as (NX & VX). fold x' in NX, VX.
  split; [exact NX|]. rewrite VX, VM, VH, VL. unfold Rmax, Rmin. destruct (Rle_dec (fval x) (11583653 / 131072)); destruct (Rle_dec _ (- (11583653 / 131072)));
    (split; [apply Rabs_le; lra|split; intros; lra]).
Qed.

(** The lowest argument does not reach 2^-128 *)
Lemma fx_low : -127 <= fx_of (- (11583653 / 131072)).
Proof.
  assert (H : fx_of (- (11583653 / 131072)) = fval (f32_add (f32_mul EXP_LO L2E) m_half)).
  { destruct c_lo as (VL & (NL & _)), c_half as (VH & (NH & _)), c_l2e as (V2 & _).
    destruct (fx_ok EXP_LO NL) as (NM & VM & _ & FB); [rewrite VL, Rabs_Ropp, Rabs_pos_eq; lra|].
    destruct (f32_add_num (f32_mul EXP_LO L2E) m_half NM NH) as (_ & VF); [rewrite VM, VH; apply big_bound; lra|].
    rewrite VF, VM, VH, V2, VL. reflexivity. }
  rewrite H. assert (A : approx (f32_add (f32_mul EXP_LO L2E) m_half) (- (16646143 / 131072)) 0) by const_approx.
  apply const_val in A. destruct A as (-> & _). lra.
Qed.

(** * The three functions *)

Lemma exp_reduced : forall op x' n k, step_ok op -> is_num x' -> Rabs (fval x') <= 11583653 / 131072 -> is_num n -> fval n = IZR k ->
  IZR k <= fx_of (fval x') < IZR k + 1 ->
  (-86 <= fval x' <= 87 -> approx (f32_mul (exp_core op x' n) (scale_of k)) (exp (fval x')) (25 / 100000000 * exp (fval x'))) /\
  (fval x' <= -86 -> is_num (f32_mul (exp_core op x' n) (scale_of k)) /\ 0 <= fval (f32_mul (exp_core op x' n) (scale_of k)) <= bpow radix2 (-122)).
Proof.
  intros op x n k OP NX B NN EN K.
  destruct (fx_ok x NX ltac:(lra)) as (_ & _ & ERR & _). destruct c_l2e as (VL & _). rewrite VL in ERR. fold (fx_of (fval x)) in ERR.
  pose proof (nearest_multiple (fval x) (fx_of (fval x)) k ltac:(lra) ERR K) as NM.
  destruct (exp_scaled op x n k OP NX NN EN NM) as (E1 & E2). pose proof fx_low as LOW.
  assert (MONO : fx_of (- (11583653 / 131072)) <= fx_of (fval x)).
  { unfold fx_of. apply rnd_mono. apply Rplus_le_compat_r, rnd_mono. apply Rmult_le_compat_r; [lra|]. apply Rabs_le_inv in B. lra. }
  apply Rabs_le_inv in ERR. split; intros R.
  - apply E1. split; [assert (-125 < k)%Z; [apply lt_IZR; lra|lia]|assert (k < 127)%Z; [apply lt_IZR; lra|lia]].
  - apply E2. split; [assert (-128 < k)%Z; [apply lt_IZR; lra|lia]|assert (k < -122)%Z; [apply lt_IZR; lra|lia]].
Qed.

Definition exp_accurate (f : f32 -> f32) : Prop := forall x, is_num x ->
  (-86 <= fval x <= 87 -> approx (f x) (exp (fval x)) (25 / 100000000 * exp (fval x))) /\
  (fval x <= -86 -> is_num (f x) /\ 0 <= fval (f x) <= bpow radix2 (-122)).

Lemma avx_exp_ok : exp_accurate avx_exp.
Proof.
  intros x N. destruct (avx_clamped x N) as (NX & B & SAME & LOW).
  destruct (avx_whole _ NX ltac:(lra)) as (k & NN & EN & CV & K). rewrite (avx_exp_tail x). cbv zeta in *.
  set (x' := x86_max EXP_LO (x86_min EXP_HI x)) in *. set (n := f32_sub _ (masked _ m_one)) in *. rewrite CV.
  destruct (exp_reduced f32_fma x' n k fma_step NX B NN EN K) as (E1 & E2). split; intros R.
  - rewrite SAME in E1 by lra. apply E1, R.
  - apply E2, LOW, R.
Qed.

Lemma neon_exp_ok : exp_accurate neon_exp.
Proof.
  intros x N. destruct (neon_clamped x N) as (NX & B & SAME & LOW).
  destruct (neon_whole _ NX ltac:(lra)) as (k & NN & EN & CV & K). rewrite (neon_exp_tail x). cbv zeta in *.
  set (x' := neon_max (neon_min x EXP_HI) EXP_LO) in *. set (n := f32_sub _ (masked _ m_one)) in *. rewrite CV.
  destruct (exp_reduced mul_add x' n k mul_add_step NX B NN EN K) as (E1 & E2). split; intros R.
  - rewrite SAME in E1 by lra. apply E1, R.
  - apply E2, LOW, R.
Qed.

Definition log_accurate (f : f32 -> f32) : Prop := forall x, is_num x -> 0 <= fval x -> x <> S754_zero true ->
  exists w, log_arg (fval x) w /\ approx (f x) (ln w) (9 / 100000000 + Rabs (ln w) / 16777216).

Lemma log_arg_pos : forall x w, 0 <= x -> log_arg x w -> 0 < w.
Proof.
  intros x w X [(A & ->)|(A & ->)]; assert (0 < / IZR (2 ^ 126)) by (apply Rinv_0_lt_compat, IZR_lt; lia); assert (0 < / IZR (2 ^ 127)) by (apply Rinv_0_lt_compat, IZR_lt; lia); lra.
Qed.

Lemma pow_ok : forall lg ex, log_accurate lg -> exp_accurate ex -> forall x y, is_num x -> 0 <= fval x -> x <> S754_zero true -> is_num y -> Rabs (fval y) <= 1000 ->
  exists w, log_arg (fval x) w /\ Rabs (ln w) <= 1000 /\
  (-85 <= fval y * ln w <= 86 ->
     approx (ex (f32_mul y (lg x))) (exp (fval y * ln w)) ((3 / 10000000 + Rabs (fval y) / 10000000 + 125 / 1000000000 * Rabs (fval y * ln w)) * exp (fval y * ln w))) /\
  (fval y * ln w <= -85 -> is_num (ex (f32_mul y (lg x))) /\ 0 <= fval (ex (f32_mul y (lg x))) <= bpow radix2 (-122)).
Proof.
  intros lg ex LG EX x y NX PX NZ NY YB. destruct (LG x NX PX NZ) as (w & LA & NL & HL). exists w. split; [exact LA|].
  set (L := ln w) in *. set (a := fval (lg x)) in *. set (yv := fval y) in *.
  assert (LB : Rabs L <= 1000).
  { assert (bpow radix2 (-127) <= w <= bpow radix2 128).
    { assert (XU : fval x <= bpow radix2 128).
      { destruct NX as (V & F). destruct x as [s|s| |s m e]; try discriminate F; [change (fval (S754_zero s)) with 0; apply bpow_ge_0|].
        pose proof (abs_B2R_lt_emax 24 128 (SF2B (S754_finite s m e) V)) as AB. rewrite B2R_SF2B in AB. apply Rabs_def2 in AB. unfold fval. lra. }
      change (bpow radix2 (-127)) with (/ IZR (2 ^ 127)). change (bpow radix2 128) with (IZR (2 ^ 128)) in *.
      destruct LA as [(A & ->)|(A & ->)].
      - split; [|exact XU]. eapply Rle_trans; [|exact A]. apply Rinv_le; [apply IZR_lt; lia|apply IZR_le; lia].
      - assert (0 < / IZR (2 ^ 127)) by (apply Rinv_0_lt_compat, IZR_lt; lia).
        assert (/ IZR (2 ^ 126) <= 1) by (rewrite <- Rinv_1; apply Rinv_le; [lra|apply (IZR_le 1); lia]).
        assert (/ IZR (2 ^ 127) <= 1) by (rewrite <- Rinv_1; apply Rinv_le; [lra|apply (IZR_le 1); lia]).
        assert (2 <= IZR (2 ^ 128)) by (apply IZR_le; lia). lra. }
    assert (WP : 0 < w) by (pose proof (bpow_gt_0 radix2 (-127)); lra).
    pose proof ln_2 as L2.
    assert (LNB : forall k, ln (bpow radix2 k) = IZR k * ln 2).
    { intros k. replace (bpow radix2 k) with (1 * bpow radix2 k) by ring. rewrite ln_scaled by lra. rewrite ln_1. ring. }
    assert (LE : forall u v, 0 < u -> u <= v -> ln u <= ln v) by (intros u v U [UV| ->]; [left; apply ln_increasing; assumption|lra]).
    pose proof (LE _ _ (bpow_gt_0 radix2 (-127)) (proj1 H)) as H1. pose proof (LE _ _ WP (proj2 H)) as H2. rewrite LNB in H1, H2.
    unfold L. apply Rabs_le. lra. }
  split; [exact LB|].
  assert (AB : Rabs a <= 1001).
  { replace a with ((a - L) + L) by ring. eapply Rle_trans; [apply Rabs_triang|]. lra. }
  pose proof (Rabs_pos yv) as Y0. pose proof (Rabs_pos L) as L0.
  assert (ERR1 : Rabs (yv * a - yv * L) <= Rabs yv * (9 / 100000000) + Rabs (yv * L) / 16777216).
  { rewrite <- Rmult_minus_distr_l, !Rabs_mult. apply Rmult_le_compat_l with (r := Rabs yv) in HL; [|exact Y0]. lra. }
  destruct (f32_mul_num y (lg x) NY NL) as (NP & VP).
  { fold yv a. apply Rle_trans with 1001000; [rewrite Rabs_mult; pose proof (Rabs_pos a); nra|]. change (bpow radix2 127) with (IZR (2 ^ 127)). apply IZR_le. lia. }
  set (p := fval (f32_mul y (lg x))) in *. fold yv a in VP.
  assert (YA : Rabs (yv * a) <= Rabs (yv * L) + (Rabs yv * (9 / 100000000) + Rabs (yv * L) / 16777216)).
  { replace (yv * a) with ((yv * a - yv * L) + yv * L) by ring. eapply Rle_trans; [apply Rabs_triang|]. lra. }
  pose proof (rnd_half _ _ YA) as RH. rewrite <- VP in RH. unfold half_ulp in RH.
  set (D := 91 / 1000000000 * Rabs yv + 12 / 100000000 * Rabs (yv * L) + 1 / 100000000000000).
  pose proof (Rabs_pos (yv * L)) as YL0.
  assert (ERR : Rabs (p - yv * L) <= D).
  { replace (p - yv * L) with ((p - yv * a) + (yv * a - yv * L)) by ring. eapply Rle_trans; [apply Rabs_triang|]. unfold D. lra. }
  destruct (EX (f32_mul y (lg x)) NP) as (E1 & E2). fold p in E1, E2.
  assert (DB : Rabs (yv * L) <= 1000 -> D <= 3 / 10000) by (intros; unfold D; lra).
  assert (D0 : 0 <= D) by (unfold D; lra).
  split.
  - intros R. assert (RB : Rabs (yv * L) <= 86) by (apply Rabs_le; lra). specialize (DB ltac:(lra)).
    assert (PB : -86 <= p <= 87) by (apply Rabs_le_inv in ERR; lra). destruct (E1 PB) as (NE & HE). split; [exact NE|].
    set (v := exp (yv * L)) in *. assert (VPOS : 0 < v) by apply exp_pos.
    assert (EV : exp p = exp (p - yv * L) * v) by (unfold v; rewrite <- exp_plus; f_equal; ring).
    pose proof (exp_near_one _ _ ERR ltac:(lra)) as NO. set (q := exp (p - yv * L)) in *.
    assert (DD : D + 2 * D * D <= 1001 / 1000 * D) by nra.
    assert (NO' : Rabs (q - 1) <= 1001 / 1000 * D) by lra. apply Rabs_le_inv in NO'.
    replace (fval (ex (f32_mul y (lg x))) - v) with ((fval (ex (f32_mul y (lg x))) - exp p) + (q - 1) * v) by (rewrite EV; ring).
    eapply Rle_trans; [apply Rabs_triang|]. rewrite Rabs_mult, (Rabs_pos_eq v) by lra.
    assert (H1 : Rabs (q - 1) * v <= 1001 / 1000 * D * v) by (apply Rmult_le_compat_r; [lra|apply Rabs_le; lra]).
    assert (H2 : 25 / 100000000 * exp p <= 26 / 100000000 * v) by (rewrite EV; nra).
    assert (H3 : (26 / 100000000 + 1001 / 1000 * D) * v <= (3 / 10000000 + Rabs yv / 10000000 + 125 / 1000000000 * Rabs (yv * L)) * v).
    { apply Rmult_le_compat_r; [lra|]. unfold D. lra. }
    lra.
  - intros R. destruct (Rle_dec p (-86)) as [C|C]; [apply E2, C|].
    assert (YLB : Rabs (yv * L) <= 1000).
    { (* otherwise the product would be lower *)
      destruct (Rle_dec (yv * L) (-1000)) as [F|F]; [|apply Rabs_le; lra]. exfalso.
      assert (D <= 91 / 1000000 + 12 / 100000000 * Rabs (yv * L) + 1 / 100000000000000) by (unfold D; lra).
      rewrite (Rabs_left1 (yv * L)) in H by lra. apply Rabs_le_inv in ERR. lra. }
    specialize (DB YLB). apply Rabs_le_inv in ERR. destruct (E1 ltac:(lra)) as (NE & HE). split; [exact NE|].
    pose proof (exp_pos p) as PP. apply Rabs_le_inv in HE. split; [lra|].
    apply Rle_trans with (11 / 10 * exp p); [lra|].
    assert (B : exp p <= bpow radix2 (-122) * exp (- (3 / 10))).
    { replace (bpow radix2 (-122)) with (exp (-122 * ln 2)) by (rewrite bpow_powerRZ; change (IZR radix2) with 2; rewrite powerRZ_Rpower by lra; reflexivity).
      rewrite <- exp_plus. apply exp_le. pose proof ln_2. lra. }
    assert (T : exp (- (3 / 10)) <= 100 / 130).
    { rewrite exp_Ropp. pose proof (exp_ineq1_le (3 / 10)). replace (100 / 130) with (/ (13 / 10)) by field. apply Rinv_le; lra. }
    pose proof (bpow_gt_0 radix2 (-122)). nra.
Qed.
