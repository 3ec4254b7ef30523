(** Change of transfer function and primaries, in binary32. *)

From Coq Require Import ZArith Bool Reals Lia Lra Psatz.
From Coq Require Import Floats.SpecFloat.
From Flocq Require Import Core.
From Verif Require Import Types F32 Vector Simd SimdProofs FloatProofs AccProofs SpecColor ColorR SpecConvert SpecReal SpecTransfer PowerProofs MathProofs
  SpecMath LaneProofs TransferProofs TargetProofs.
Local Open Scope R_scope.

(** * Decoding the 256 levels *)

Lemma level_num : forall z, (0 <= z <= 255)%Z -> let x := fdiv (f32_of_Z z) (f32_of_Z 255) : f32 in
  is_num x /\ 0 <= fval x <= 1 /\ Rabs (fval x - IZR z / 255) <= u7.
Proof.
  intros z Z0 x. destruct (acc_norm z 255 Z0 ltac:(lia)) as (N & E). fold x in N, E. split; [exact N|]. split; [|exact E].
  destruct (f32_of_Z_num z ltac:(lia)) as (NZ & VZ). destruct (f32_of_Z_num 255 ltac:(lia)) as (N2 & V2).
  assert (Z1 : 0 <= IZR z <= 255) by (split; apply IZR_le; lia).
  destruct (f32_div_num (f32_of_Z z) (f32_of_Z 255) NZ N2) as (_ & V); [rewrite V2; lra|rewrite VZ, V2; apply big_bound, Rabs_le; lra|].
  unfold x. cbn [fdiv f32_ops]. rewrite V, VZ, V2. split.
  - replace 0 with (rnd 0) by (apply round_0; typeclasses eauto). apply rnd_mono. lra.
  - apply Rle_trans with (rnd 1); [apply rnd_mono; lra|]. right. replace 1 with (IZR 1 * bpow radix2 0) by (simpl; lra). apply rnd_exact; lia.
Qed.

Lemma decoded_close : forall t z a, t <> TBT2100PQ -> (0 <= z <= 255)%Z -> 0 <= a <= 1 -> Rabs (a - IZR z / 255) <= u7 ->
  Rabs (decoded t a - decoded t (IZR z / 255)) <= 7 * u7.
Proof.
  intros t z a T Z0 A E. set (b := IZR z / 255) in *.
  assert (B : 0 <= b <= 1) by (assert (0 <= IZR z <= 255) by (split; apply IZR_le; lia); unfold b; lra).
  assert (U : 0 < u7 <= 1 / 1000000) by (unfold u7; lra).
  assert (ST : forall k, (z <= k)%Z \/ (k + 1 <= z)%Z) by (intros; lia).
  assert (SPLIT : forall k, b <= IZR k / 255 \/ (IZR k + 1) / 255 <= b).
  { intros k. destruct (ST k) as [C|C]; apply IZR_le in C; [left|right; rewrite plus_IZR in C]; unfold b; lra. }
  pose proof E as E'. apply Rabs_le_inv in E'. clear ST. clearbody b.
  assert (P1 : forall y, power 1 y = 1) by apply power_1.
  destruct t; cbn [decoded]; try congruence.
  - lra.
  - pose proof (power_base (22 / 10) a b 1 ltac:(lra) A B) as H. rewrite P1 in H. lra.
  - pose proof (power_base (28 / 10) a b 1 ltac:(lra) A B) as H. rewrite P1 in H. lra.
  - unfold srgb_decode. destruct (SPLIT 10%Z) as [C|C].
    + destruct (Rle_dec a _) as [_|C']; [|lra]. destruct (Rle_dec b _) as [_|C']; [|lra].
      replace (a / (1292 / 100) - b / (1292 / 100)) with ((a - b) * (100 / 1292)) by field. rewrite Rabs_mult, (Rabs_pos_eq (100 / 1292)) by lra. lra.
    + destruct (Rle_dec a _) as [C'|_]; [lra|]. destruct (Rle_dec b _) as [C'|_]; [lra|].
      eapply Rle_trans; [apply (power_base (12 / 5) _ _ 1); lra|]. rewrite P1.
      match goal with |- context [Rabs ?q] => replace q with ((a - b) * (1000 / 1055)) by field end. rewrite Rabs_mult, (Rabs_pos_eq (1000 / 1055)) by lra. lra.
  - unfold sdr_decode. destruct (SPLIT 20%Z) as [C|C].
    + destruct (Rlt_dec a _) as [_|C']; [|lra]. destruct (Rlt_dec b _) as [_|C']; [|lra].
      replace (a / (9 / 2) - b / (9 / 2)) with ((a - b) * (2 / 9)) by field. rewrite Rabs_mult, (Rabs_pos_eq (2 / 9)) by lra. lra.
    + destruct (Rlt_dec a _) as [C'|_]; [lra|]. destruct (Rlt_dec b _) as [C'|_]; [lra|].
      assert (PB : power (1001 / 1000) (20 / 9 - 1) <= 101 / 100).
      { apply Rle_trans with (power (1001 / 1000) 2).
        - rewrite !power_pos by lra. unfold Rpower. apply exp_le. assert (0 <= ln (1001 / 1000)) by (left; rewrite <- ln_1; apply ln_increasing; lra). nra.
        - replace 2 with (1 + 1) by ring. rewrite power_add, power_1_x by lra. lra. }
      eapply Rle_trans; [apply (power_base (20 / 9) _ _ (1001 / 1000)); lra|].
      match goal with |- context [Rabs ?q] => replace q with ((a - b) * (1000 / 1099)) by field end. rewrite Rabs_mult, (Rabs_pos_eq (1000 / 1099)) by lra.
      pose proof (Rabs_pos (a - b)). pose proof (power_ge0 (1001 / 1000) (20 / 9 - 1)).
      assert (20 / 9 * power (1001 / 1000) (20 / 9 - 1) * (Rabs (a - b) * (1000 / 1099)) <= 20 / 9 * (101 / 100) * (u7 * (1000 / 1099)))
        by (apply Rmult_le_compat; try lra; apply Rmult_le_compat; lra). lra.
  - unfold hlg_decode. destruct (SPLIT 127%Z) as [C|C].
    + destruct (Rle_dec a _) as [_|C']; [|lra]. destruct (Rle_dec b _) as [_|C']; [|lra].
      replace (a * a / 3 - b * b / 3) with ((a - b) * ((a + b) / 3)) by field. rewrite Rabs_mult, (Rabs_pos_eq ((a + b) / 3)) by lra. pose proof (Rabs_pos (a - b)). nra.
    + destruct (Rle_dec a _) as [C'|_]; [lra|]. destruct (Rle_dec b _) as [C'|_]; [lra|].
      rewrite !power_pos by (unfold e'; lra).
      pose proof ln_e' as LE. apply Rabs_le_inv in LE. pose proof exp_25 as X25.
      assert (Q : forall w, w <= 1 -> Rpower e' ((w - hc) / ha) <= 13).
      { intros w W. eapply Rle_trans; [|exact X25]. unfold Rpower. apply exp_le.
        assert ((w - hc) / ha <= 247 / 100) by (apply Rmult_le_reg_r with ha; [unfold ha; lra|]; replace ((w - hc) / ha * ha) with (w - hc) by (unfold ha; field); unfold ha, hc; lra).
        destruct (Rle_dec 0 ((w - hc) / ha)); nra. }
      match goal with |- context [Rabs ?q] => replace q with ((Rpower e' ((a - hc) / ha) - Rpower e' ((b - hc) / ha)) / 12) by field end.
      unfold Rdiv at 1. rewrite Rabs_mult, (Rabs_pos_eq (/ 12)) by lra.
      pose proof (exp_lip ((a - hc) / ha * ln e') ((b - hc) / ha * ln e') 13 (Q a ltac:(lra)) (Q b ltac:(lra))) as H.
      replace ((a - hc) / ha * ln e' - (b - hc) / ha * ln e') with ((a - b) * (ln e' / ha)) in H by (unfold ha; field).
      rewrite Rabs_mult, (Rabs_pos_eq (ln e' / ha)) in H by (unfold ha; lra). unfold Rpower.
      assert (L5 : ln e' / ha <= 56 / 10) by (unfold ha; lra). assert (L0 : 0 <= ln e' / ha) by (unfold ha; lra). pose proof (Rabs_pos (a - b)).
      assert (Rabs (a - b) * (ln e' / ha) <= u7 * (56 / 10)) by (apply Rmult_le_compat; lra). lra.
Qed.

Lemma decoded_unit : forall t b, t <> TBT2100PQ -> 0 <= b <= 1 -> 0 <= decoded t b <= 12 / 10.
Proof.
  intros t b T B.
  assert (PU : forall x y, 0 <= x <= 1 -> 0 < y -> 0 <= power x y <= 1) by (intros; split; [apply power_ge0|apply power_le_1; assumption]).
  destruct t; cbn [decoded]; try congruence.
  - lra.
  - pose proof (PU b (22 / 10) B ltac:(lra)). lra.
  - pose proof (PU b (28 / 10) B ltac:(lra)). lra.
  - unfold srgb_decode. destruct (Rle_dec b _); [lra|]. pose proof (PU ((b + 55 / 1000) / (1055 / 1000)) (12 / 5) ltac:(lra) ltac:(lra)). lra.
  - unfold sdr_decode. destruct (Rlt_dec b _); [lra|]. split; [apply power_ge0|].
    apply Rle_trans with (power (1001 / 1000) (20 / 9)); [apply power_le; lra|].
    apply Rle_trans with (power (1001 / 1000) 3).
    + rewrite !power_pos by lra. unfold Rpower. apply exp_le. assert (0 <= ln (1001 / 1000)) by (left; rewrite <- ln_1; apply ln_increasing; lra). nra.
    + replace 3 with (1 + (1 + 1)) by ring. rewrite !power_add, power_1_x by lra. lra.
  - unfold hlg_decode. destruct (Rle_dec b _) as [C|C]; [nra|]. rewrite power_pos by (unfold e'; lra).
    pose proof ln_e' as LE. apply Rabs_le_inv in LE. pose proof exp_25 as X25.
    assert (Q : 0 < Rpower e' ((b - hc) / ha) <= 13).
    { split; [apply exp_pos|]. eapply Rle_trans; [|exact X25]. unfold Rpower. apply exp_le.
      assert ((b - hc) / ha <= 247 / 100) by (apply Rmult_le_reg_r with ha; [unfold ha; lra|]; replace ((b - hc) / ha * ha) with (b - hc) by (unfold ha; field); unfold ha, hc; lra).
      destruct (Rle_dec 0 ((b - hc) / ha)); nra. }
    unfold hb. lra.
Qed.

Lemma decoded_range : forall t z, t <> TBT2100PQ -> (0 <= z <= 255)%Z -> 0 <= decoded t (IZR z / 255) <= 12 / 10.
Proof. intros t z T Z0. apply decoded_unit; [exact T|]. assert (0 <= IZR z <= 255) by (split; apply IZR_le; lia). lra. Qed.

Lemma decode_level : forall L t z, accurate L -> t <> TBT2100PQ -> (0 <= z <= 255)%Z ->
  approx (eotf L t (fdiv (f32_of_Z z) (f32_of_Z 255))) (decoded t (IZR z / 255)) (57 / 10000000).
Proof.
  intros L t z A T Z0. destruct (level_num z Z0) as (N & B & E). set (x := fdiv _ _) in *.
  apply approx_weaken with (v := decoded t (fval x)) (e := 5 / 1000000).
  - destruct t; cbn [decoded]; try congruence.
    + eapply approx_le; [apply exact_approx, N|lra].
    + eapply approx_le; [apply (gamma_dec_ok L); assumption || lra|lra].
    + eapply approx_le; [apply (gamma_dec_ok L); assumption || lra|lra].
    + eapply approx_le; [apply srgb_dec_ok; assumption || lra|lra].
    + eapply approx_le; [apply sdr_dec_ok; assumption || lra|lra].
    + apply hlg_dec_ok; assumption || lra.
  - pose proof (decoded_close t z (fval x) T Z0 B E). unfold u7 in *. lra.
Qed.

(** * Matrices *)

Lemma dot_acc : forall a b c A B C x y z vx vy vz e CA CB CC,
  approx a A (15 / 100000000) -> approx b B (15 / 100000000) -> approx c C (15 / 100000000) ->
  Rabs A <= CA -> Rabs B <= CB -> Rabs C <= CC -> CA + CB + CC <= 6 ->
  approx x vx e -> approx y vy e -> approx z vz e -> Rabs vx <= 3 / 2 -> Rabs vy <= 3 / 2 -> Rabs vz <= 3 / 2 -> 0 <= e <= 1 / 10000 ->
  approx (dot a b c x y z) (vx * A + vy * B + vz * C) ((CA + CB + CC) * e + 7 / 10000000 + 3 / 10000000 * (CA + CB + CC)).
Proof.
  intros a b c A B C x y z vx vy vz e CA CB CC HA HB HC BA BB BC S HX HY HZ BX BY BZ E.
  pose proof (Rabs_pos A). pose proof (Rabs_pos B). pose proof (Rabs_pos C).
  assert (M : forall q Q w vw CQ, approx q Q (15 / 100000000) -> Rabs Q <= CQ -> 0 <= CQ <= 6 -> approx w vw e -> Rabs vw <= 3 / 2 ->
    approx (f32_mul w q) (vw * Q) (CQ * e + 23 / 100000000 + 91 / 1000000000 * CQ) /\ Rabs (vw * Q) <= 3 / 2 * CQ).
  { intros q Q w vw CQ HQ BQ CB' HW BW. split.
    - eapply approx_le; [apply (approx_mul _ _ _ _ _ _ (3 / 2) CQ (151 / 100 * CQ + 1 / 1000000) HW HQ BW BQ); nra|]. unfold half_ulp. nra.
    - rewrite Rabs_mult. apply Rmult_le_compat; try apply Rabs_pos; assumption. }
  destruct (M a A x vx CA HA BA ltac:(lra) HX BX) as (M1 & B1).
  destruct (M b B y vy CB HB BB ltac:(lra) HY BY) as (M2 & B2).
  destruct (M c C z vz CC HC BC ltac:(lra) HZ BZ) as (M3 & B3). clear M.
  unfold dot. cbn [fadd fmul f32_ops].
  pose proof (approx_add _ _ _ _ _ _ (151 / 100 * (CA + CB) + 1 / 1000000) M1 M2) as S1.
  pose proof (Rabs_triang (vx * A) (vy * B)) as T1. specialize (S1 ltac:(nra) ltac:(lra)).
  pose proof (approx_add _ _ _ _ _ _ (152 / 100 * (CA + CB + CC) + 1 / 100000) S1 M3) as S2.
  pose proof (Rabs_triang (vx * A + vy * B) (vz * C)) as T2. unfold half_ulp in S2. specialize (S2 ltac:(nra) ltac:(lra)).
  eapply approx_le; [exact S2|]. lra.
Qed.

Definition approx3 (v : f32 * f32 * f32) (w : R * R * R) (e : R) : Prop :=
  let '(a, b, c) := v in let '(x, y, z) := w in approx a x e /\ approx b y e /\ approx c z e.
Definition within3 (w : R * R * R) (M : R) : Prop := let '(x, y, z) := w in Rabs x <= M /\ Rabs y <= M /\ Rabs z <= M.

Ltac lits :=
  unfold R_lit;
  repeat match goal with
  | |- context [IZR (10 ^ ?k)] => let v := eval vm_compute in (10 ^ k)%Z in change (10 ^ k)%Z with v
  end.
Lemma zero_coef : approx (f32_lit 0 1) (0 / 10) (15 / 100000000).
Proof. split; [split; reflexivity|]. change (fval (f32_lit 0 1)) with 0. replace (0 - 0 / 10) with 0 by lra. rewrite Rabs_R0. lra. Qed.
Ltac coef := cbn [flit f32_ops R_ops]; lits; first [exact zero_coef|const_approx].
(** Absolute values of the coefficients *)
Ltac abs_lits := cbn [flit R_ops]; lits;
  repeat match goal with
  | |- context [Rabs (?n / ?d)] => first [rewrite (Rabs_pos_eq (n / d)) by lra|rewrite (Rabs_left1 (n / d)) by lra]
  end; lra.
Ltac row E := eapply approx_le;
  [eapply dot_acc; [coef|coef|coef|apply Rle_refl|apply Rle_refl|apply Rle_refl|abs_lits|eassumption|eassumption|eassumption|assumption|assumption|assumption|exact E]|
   match goal with |- (?s * _ + _ + _ * ?s <= ?c * _ + _) => let S := fresh in assert (S : s <= c) by abs_lits; revert S; generalize s; intros; nra end].

Lemma to_xyz_acc : forall p v w e, approx3 v w e -> (let '(x, y, z) := w in 0 <= x <= 12 / 10 /\ 0 <= y <= 12 / 10 /\ 0 <= z <= 12 / 10) ->
  0 <= e <= 1 / 10000 -> approx3 (to_xyz p v) (to_xyz p w) (111 / 100 * e + 11 / 10000000) /\ within3 (to_xyz p w) (3 / 2).
Proof.
  intros p ((a, b), c) ((x, y), z) e (HA & HB & HC) (BX & BY & BZ) E.
  assert (AX : Rabs x <= 3 / 2) by (apply Rabs_le; lra). assert (AY : Rabs y <= 3 / 2) by (apply Rabs_le; lra). assert (AZ : Rabs z <= 3 / 2) by (apply Rabs_le; lra).
  split.
  - destruct p; cbn [to_xyz approx3]; (split; [|split]); row E.
  - destruct p; cbn [to_xyz within3]; (split; [|split]); cbn [dot fadd fmul flit R_ops]; unfold dot; cbn [fadd fmul flit R_ops]; lits; apply Rabs_le; lra.
Qed.

Lemma from_xyz_acc : forall p v w e, approx3 v w e -> within3 w (3 / 2) -> 0 <= e <= 1 / 10000 ->
  approx3 (from_xyz p v) (from_xyz p w) (58 / 10 * e + 25 / 10000000).
Proof.
  intros p ((a, b), c) ((x, y), z) e (HA & HB & HC) (AX & AY & AZ) E.
  destruct p; cbn [from_xyz approx3]; (split; [|split]); row E.
Qed.

Lemma linear_bound : forall ps pd w, (let '(x, y, z) := w in 0 <= x <= 12 / 10 /\ 0 <= y <= 12 / 10 /\ 0 <= z <= 12 / 10) ->
  within3 (from_xyz pd (to_xyz ps w)) 3.
Proof.
  intros ps pd ((x, y), z) (BX & BY & BZ).
  destruct ps, pd; cbn [to_xyz from_xyz within3]; (split; [|split]); unfold dot; cbn [fadd fmul flit R_ops]; lits; apply Rabs_le; lra.
Qed.

(** * Encoding and storing *)

Lemma encoded_bound : forall t x, t <> TBT2100PQ -> 0 <= x <= 4 -> -1 <= encoded t x <= 4.
Proof.
  intros t x T X.
  assert (P : forall y, 35 / 100 <= y <= 1 / 2 -> 0 <= power x y <= 2).
  { intros y Y. split; [apply power_ge0|]. apply Rle_trans with (power 4 y); [apply power_le; lra|]. rewrite power_pos by lra.
    apply Rle_trans with (Rpower 4 (1 / 2)); [unfold Rpower; apply exp_le; assert (0 <= ln 4) by (left; rewrite <- ln_1; apply ln_increasing; lra); nra|].
    replace (1 / 2) with (/ 2) by lra. rewrite Rpower_sqrt by lra. right. replace 4 with (2 * 2) by ring. apply sqrt_square. lra. }
  destruct t; cbn [encoded]; try congruence.
  - lra.
  - pose proof (P (10 / 22) ltac:(lra)). lra.
  - pose proof (P (10 / 28) ltac:(lra)). lra.
  - unfold srgb_encode. destruct (Rle_dec x _); [lra|]. pose proof (P (5 / 12) ltac:(lra)). lra.
  - unfold sdr_encode. destruct (Rlt_dec x _); [lra|]. pose proof (P (9 / 20) ltac:(lra)). lra.
  - unfold hlg_encode. destruct (Rle_dec x _).
    + pose proof (sqrt_pos (3 * x)). assert (sqrt (3 * x) <= 1) by (rewrite <- sqrt_1; apply sqrt_le_1_alt; lra). lra.
    + assert (L1 : ln (1 - hb) <= ln (12 * x - hb)) by (apply ln_le; unfold hb; lra).
      assert (L2 : ln (12 * x - hb) <= ln 48) by (apply ln_le; unfold hb; lra).
      assert (L3 : ln 48 <= 4 * ln 2 + 2).
      { replace 48 with (2 * (2 * (2 * (2 * 3)))) by ring. rewrite !ln_mult by lra. pose proof (ln_le_sub 3 ltac:(lra)). lra. }
      pose proof ln_2. assert (L4 : -1 <= ln (1 - hb)).
      { replace (-1) with (ln (exp (-1))) by apply ln_exp. apply ln_le; [apply exp_pos|]. pose proof exp_neg_1 as E1.
        assert (exp (-1) <= 1 / 2); [|unfold hb; lra]. replace (-1) with (- (1)) by ring. rewrite exp_Ropp. pose proof (exp_ineq1_le 1).
        replace (1 / 2) with (/ 2) by lra. apply Rinv_le_contravar; lra. }
      unfold ha, hc in *. lra.
Qed.

(** Except that the SDR curve may be evaluated a little to the right *)
Lemma encode_num : forall L t x, accurate L -> t <> TBT2100PQ -> is_num x -> 0 <= fval x <= 4 ->
  exists X, 0 <= X <= 4 /\ Rabs (X - fval x) <= 1 / 100000000 /\ approx (oetf L t x) (encoded t X) (5 / 1000000).
Proof.
  intros L t x A T N B.
  assert (D : forall X, Rabs (X - X) <= 1 / 100000000) by (intros X; rewrite Rminus_diag_eq, Rabs_R0 by reflexivity; lra).
  destruct t; cbn [encoded]; try congruence.
  - exists (fval x). repeat split; try lra; try apply D; try apply N. eapply approx_le; [apply exact_approx, N|lra].
  - exists (fval x). split; [exact B|split; [apply D|]]. eapply approx_le; [apply (gamma_enc_ok L); assumption|lra].
  - exists (fval x). split; [exact B|split; [apply D|]]. eapply approx_le; [apply (gamma_enc_ok L); assumption|lra].
  - exists (fval x). split; [exact B|split; [apply D|]]. apply srgb_enc_ok; assumption.
  - destruct (Req_EM_T (fval x) (9692651 / 536870912)) as [E|E].
    + exists (1805397 / 100000000). split; [lra|]. split; [rewrite E; apply Rabs_le; lra|].
      assert (CT : approx (f32_lit 1805397 8) (9692651 / 536870912) 0) by const_approx. apply const_val in CT. destruct CT as (VT & NT & _).
      run_f32. destruct (l_lt L x (f32_lit 1805397 8)) eqn:EL; [apply (acc_lt _ A) in EL; try assumption; lra|]. clear EL.
      assert (CA : approx (f32_lit 1099 3) (1099 / 1000) (1 / 10000000)) by const_approx.
      assert (CB : approx (f32_lit 99 3) (99 / 1000) (1 / 100000000)) by const_approx.
      assert (CE : approx (f32_lit 45 2) (9 / 20) (2 / 100000000)) by const_approx. destruct CE as (NE & EE).
      pose proof (enc_curve (l_pow L) _ _ _ (9 / 20) _ (1099 / 1000) _ (99 / 1000) (acc_pow _ A) N NE E ltac:(lra) ltac:(lra) EE CA ltac:(lra) CB ltac:(lra)) as Q.
      eapply approx_weaken; [exact Q|]. unfold sdr_encode. destruct (Rlt_dec _ _) as [C|_]; [lra|].
      assert (P1 : 16423197 / 100000000 <= power (9692651 / 536870912) (9 / 20)) by (left; apply (power_above _ _ _ 9 20); simpl; lra).
      assert (P2 : power (1805397 / 100000000) (9 / 20) <= 16423199 / 100000000) by (left; apply (power_below _ _ _ 9 20); simpl; lra).
      assert (P3 : power (9692651 / 536870912) (9 / 20) <= power (1805397 / 100000000) (9 / 20)) by (apply power_le; lra).
      apply Rabs_le. lra.
    + exists (fval x). split; [exact B|split; [apply D|]]. pose proof (sdr_enc_ok L x A N B) as S. destruct (Req_EM_T _ _) as [C|_] in S; [contradiction|exact S].
  - exists (fval x). split; [exact B|split; [apply D|]]. apply hlg_enc_ok; assumption.
Qed.

Lemma encoded_0 : forall t, t <> TBT2100PQ -> encoded t 0 = 0.
Proof.
  intros t T. destruct t; cbn [encoded]; try congruence; rewrite ?power_0; try reflexivity.
  - unfold srgb_encode. destruct (Rle_dec _ _); lra.
  - unfold sdr_encode. destruct (Rlt_dec _ _); lra.
  - unfold hlg_encode. destruct (Rle_dec _ _); [|lra]. rewrite Rmult_0_r. apply sqrt_0.
Qed.

(** A negative number is encoded as NaN or something that is stored as 0 *)
Lemma encode_negative : forall L t x, accurate L -> pow_negative (l_pow L) -> t <> TBT2100PQ -> is_num x -> - (81 / 10) <= fval x < 0 ->
  oetf L t x = S754_nan \/ (is_num (oetf L t x) /\ -110 <= fval (oetf L t x) <= 5 / 1000000).
Proof.
  intros L t x A PN T N B.
  assert (G : forall y Y, approx y Y (2 / 100000000) -> 35 / 100 <= Y <= 46 / 100 ->
    l_pow L x y = S754_nan \/ (is_num (l_pow L x y) /\ 0 <= fval (l_pow L x y) <= 1 / 1000000)).
  { intros y Y (NY & EY) YB. apply Rabs_le_inv in EY. apply PN; [exact N|lra|exact NY|lra]. }
  assert (H : forall a b Av y Y, approx a Av (1 / 10000000) -> 1 <= Av <= 2 -> approx b (1 / 10) (1 / 20) -> approx y Y (2 / 100000000) -> 35 / 100 <= Y <= 46 / 100 ->
    f32_sub (f32_mul a (l_pow L x y)) b = S754_nan \/ (is_num (f32_sub (f32_mul a (l_pow L x y)) b) /\ -110 <= fval (f32_sub (f32_mul a (l_pow L x y)) b) <= 5 / 1000000)).
  { intros a b Av y Y HA AB HB HY YB. destruct (G y Y HY YB) as [-> |(NP & BP)].
    - left. destruct a as [[|]|[|]| |[|] m e]; destruct b as [[|]|[|]| |[|] m' e']; reflexivity.
    - right. assert (HP : approx (l_pow L x y) 0 (1 / 1000000)) by (split; [exact NP|apply Rabs_le; lra]).
      pose proof (approx_mul _ _ _ _ _ _ 2 0 (1 / 1000) HA HP ltac:(apply Rabs_le; lra) ltac:(rewrite Rabs_R0; lra) ltac:(lra) ltac:(lra)) as Q1.
      rewrite Rmult_0_r in Q1.
      pose proof (approx_sub _ _ _ _ _ _ 1 Q1 HB ltac:(unfold half_ulp; rewrite Rabs_left by lra; lra) ltac:(lra)) as Q2.
      destruct Q2 as (N2 & E2). split; [exact N2|]. unfold half_ulp in E2. apply Rabs_le_inv in E2. lra. }
  assert (M : forall c C, approx c C (1 / 1000000) -> 4 <= C <= 13 ->
    (is_num (f32_mul x c) /\ -110 <= fval (f32_mul x c) <= 5 / 1000000) /\ (is_num (f32_mul c x) /\ -110 <= fval (f32_mul c x) <= 5 / 1000000)).
  { intros c C (NC & EC) CB. apply Rabs_le_inv in EC. assert (V : Rabs (fval x * fval c) <= 106) by (apply Rabs_le; nra).
    assert (R' : -110 <= rnd (fval x * fval c) <= 5 / 1000000).
    { pose proof (rnd_half _ _ V) as R. unfold half_ulp in R. apply Rabs_le_inv in R. assert (fval x * fval c <= 0) by nra. assert (-106 <= fval x * fval c) by nra.
      assert (rnd (fval x * fval c) <= 0) by (apply Rle_trans with (rnd 0); [apply rnd_mono; lra|unfold rnd; rewrite round_0; [lra|typeclasses eauto]]). lra. }
    destruct (f32_mul_num x c N NC) as (N1 & V1); [apply big_bound; lra|]. destruct (f32_mul_num c x NC N) as (N2 & V2); [rewrite Rmult_comm; apply big_bound; lra|].
    rewrite (Rmult_comm (fval c)) in V2. rewrite V1, V2. tauto. }
  assert (W : forall v, 0 <= v <= 1 / 1000000 -> -110 <= v <= 5 / 1000000) by (intros; lra).
  destruct t; try congruence.
  - right. split; [exact N|]. cbn [oetf]. lra.
  - run_f32. assert (C : approx (f32_div (f32_lit 1 0) (f32_lit 22 1)) (10 / 22) (2 / 100000000)) by const_approx.
    destruct (G _ _ C ltac:(lra)) as [H1|(H1 & H2)]; [left; exact H1|right; split; [exact H1|apply W; exact H2]].
  - run_f32. assert (C : approx (f32_div (f32_lit 1 0) (f32_lit 28 1)) (10 / 28) (2 / 100000000)) by const_approx.
    destruct (G _ _ C ltac:(lra)) as [H1|(H1 & H2)]; [left; exact H1|right; split; [exact H1|apply W; exact H2]].
  - run_f32. destruct (l_le L x (f32_lit 31308 7)).
    + right. eapply proj1, (M _ (1292 / 100)); [const_approx|lra].
    + apply (H _ _ (1055 / 1000) _ (10 / 24)); try lra; const_approx.
  - run_f32. destruct (l_lt L x (f32_lit 1805397 8)).
    + right. eapply proj2, (M _ (45 / 10)); [const_approx|lra].
    + apply (H _ _ (1099 / 1000) _ (45 / 100)); try lra; const_approx.
  - right. destruct (hlg_enc_max L x A N ltac:(lra)) as (N1 & E1). split; [exact N1|].
    rewrite Rmax_right in E1 by lra. pose proof (encoded_0 TBT2100HLG ltac:(discriminate)) as Z0. cbn [encoded] in Z0. rewrite Z0 in E1.
    apply Rabs_le_inv in E1. lra.
Qed.

Lemma store_nan : forall cb f, sampling_of f = SRGB -> quantise (quant_of cb) f S754_nan = 0%Z.
Proof. intros cb f S. destruct f; try discriminate S; destruct cb; vm_compute; reflexivity. Qed.

(** Negative light is stored as 0 *)
Lemma negative_store : forall L cb f t x, accurate L -> pow_negative (l_pow L) -> t <> TBT2100PQ -> sampling_of f = SRGB ->
  is_num x -> - (81 / 10) <= fval x < 0 ->
  stored_for cb (255 * (56 / 10000000)) 0 (quantise (quant_of cb) f (oetf L t x)) /\ (0 <= quantise (quant_of cb) f (oetf L t x) <= 255)%Z.
Proof.
  intros L cb f t x A PN T S N B.
  assert (MF : max_level f = 255%Z) by (destruct f; try discriminate S; reflexivity).
  assert (TF : top f = 255%Z) by (destruct f; try discriminate S; reflexivity).
  assert (UP : forall e z, e < 1 / 2 -> stored_for cb e 0 z -> (z <= 255)%Z).
  { intros e z HE H. assert (HZ : IZR z < 256); [|apply lt_IZR in HZ; lia].
    destruct cb; cbn [stored_for] in *; unfold truncated, rounded in *; try (apply Rabs_le_inv in H); lra. }
  assert (CL : forall v, 0 <= clamp 255 v <= 255) by (intros v; destruct (clamp_cases 255 v ltac:(lra)) as [(_ & ->)|[(_ & ->)|(? & ->)]]; lra).
  destruct (encode_negative L t x A PN T N B) as [-> |(NV & BV)].
  - rewrite store_nan by exact S. split; [|lia]. destruct cb; cbn [stored_for]; unfold truncated, rounded; try lra;
      rewrite Rminus_diag_eq, Rabs_R0 by reflexivity; lra.
  - set (v := oetf L t x) in *.
    assert (K : approx (f32_of_Z 255) 255 0) by (apply (approx_of_Z 255); lia). destruct K as (NK & EK).
    assert (VK : fval (f32_of_Z 255) = 255) by (apply Rabs_le_inv in EK; lra).
    destruct (f32_mul_num v _ NV NK) as (N1 & V1); [apply big_bound, Rabs_le; rewrite VK; lra|].
    assert (B1 : -28100 <= fval (f32_mul v (f32_of_Z 255)) <= 255 * (56 / 10000000)).
    { rewrite V1, VK. destruct (Rle_dec (fval v) 0) as [V0|V0].
      - assert (R : Rabs (fval v * 255) <= 28050) by (apply Rabs_le; lra). pose proof (rnd_half _ _ R) as R1. unfold half_ulp in R1.
        apply Rabs_le_inv in R1. assert (R2 : rnd (fval v * 255) <= 0) by (apply Rle_trans with (rnd 0); [apply rnd_mono; lra|unfold rnd; rewrite round_0; [lra|typeclasses eauto]]). lra.
      - assert (R : Rabs (fval v * 255) <= 1 / 100) by (apply Rabs_le; lra). pose proof (rnd_half _ _ R) as R1. unfold half_ulp in R1.
        apply Rabs_le_inv in R1. lra. }
    pose proof (quantise_val cb f v) as Q. rewrite MF, TF in Q. specialize (Q N1 ltac:(apply Rabs_def1; lra) ltac:(left; exact S)).
    assert (Q2 : stored_for cb (255 * (56 / 10000000)) 0 (quantise (quant_of cb) f v)).
    { eapply stored_for_near; [|exact Q].
      destruct (clamp_cases 255 (fval (f32_mul v (f32_of_Z 255))) ltac:(lra)) as [(C & ->)|[(C & ->)|(C & ->)]]; apply Rabs_le; lra. }
    split; [exact Q2|]. split; [|eapply UP; [|exact Q2]; lra].
    assert (HZ : -1 < IZR (quantise (quant_of cb) f v)); [|apply lt_IZR in HZ; lia]. pose proof (CL (fval (f32_mul v (f32_of_Z 255)))).
    destruct cb; cbn [stored_for] in Q; unfold truncated, rounded in Q; try (apply Rabs_le_inv in Q); lra.
Qed.

(** A linear channel as the float computation has it, encoded and stored *)
Lemma encode_store : forall L cb f t x, accurate L -> pow_negative (l_pow L) -> t <> TBT2100PQ -> sampling_of f = SRGB ->
  is_num x -> Rabs (fval x) <= 4 ->
  exists X, Rabs (X - fval x) <= 1 / 100000000 /\
    stored_for cb (255 * (56 / 10000000)) (clamp 255 (255 * encoded t (Rmax 0 X))) (quantise (quant_of cb) f (oetf L t x)) /\
    (0 <= quantise (quant_of cb) f (oetf L t x) <= 255)%Z.
Proof.
  intros L cb f t x A PN T S N B. apply Rabs_le_inv in B.
  assert (MF : max_level f = 255%Z) by (destruct f; try discriminate S; reflexivity).
  assert (TF : top f = 255%Z) by (destruct f; try discriminate S; reflexivity).
  assert (SM : forall e e' v z, stored_for cb e v z -> e <= e' -> stored_for cb e' v z).
  { intros e e' v z H HE. destruct cb; cbn [stored_for] in *; unfold truncated, rounded in *; lra. }
  assert (UP : forall e v z, 0 <= v <= 255 -> e < 1 / 2 -> stored_for cb e v z -> (z <= 255)%Z).
  { intros e v z V HE H. assert (HZ : IZR z < 256); [|apply lt_IZR in HZ; lia].
    destruct cb; cbn [stored_for] in *; unfold truncated, rounded in *; try (apply Rabs_le_inv in H); lra. }
  assert (CL : forall v, 0 <= clamp 255 v <= 255) by (intros v; destruct (clamp_cases 255 v ltac:(lra)) as [(_ & ->)|[(_ & ->)|(? & ->)]]; lra).
  destruct (Rle_dec 0 (fval x)) as [P|P].
  - destruct (encode_num L t x A T N ltac:(lra)) as (X & XB & XE & Q). exists X. split; [exact XE|]. rewrite Rmax_right by lra.
    pose proof (encoded_bound t X T XB) as EB.
    destruct (acc_store cb f _ _ _ Q ltac:(apply Rabs_le; lra) ltac:(lra) ltac:(left; exact S)) as (Q1 & Q0). rewrite MF, TF in Q1.
    assert (Q2 : stored_for cb (255 * (56 / 10000000)) (clamp 255 (255 * encoded t X)) (quantise (quant_of cb) f (oetf L t x)))
      by (eapply SM; [exact Q1|unfold u7; lra]).
    split; [exact Q2|]. split; [exact Q0|]. eapply UP; [apply CL| |exact Q2]. lra.
  - exists (fval x). split; [rewrite Rminus_diag_eq, Rabs_R0 by reflexivity; lra|]. rewrite Rmax_left by lra. rewrite encoded_0 by exact T.
    assert (C0 : clamp 255 (255 * 0) = 0) by (rewrite Rmult_0_r; destruct (clamp_cases 255 0 ltac:(lra)) as [(? & ->)|[(? & ->)|(? & ->)]]; lra).
    rewrite C0. apply negative_store; try assumption. lra.
Qed.

(** * Encoded differences *)

Lemma bernoulli : forall x p, 0 < x -> 0 <= p <= 1 -> power x p <= 1 + p * (x - 1).
Proof.
  intros x p X P. rewrite power_pos by exact X. unfold Rpower. set (u := ln x). replace x with (exp u) by (unfold u; apply exp_ln, X).
  pose proof (exp_pos (p * u)) as E0.
  assert (E1 : exp (p * u) * (1 + (1 - p) * u) <= exp u).
  { replace (exp u) with (exp (p * u) * exp ((1 - p) * u)) by (rewrite <- exp_plus; f_equal; ring).
    apply Rmult_le_compat_l; [lra|]. apply exp_ineq1_le. }
  assert (E2 : exp (p * u) * (1 + - (p * u)) <= 1).
  { replace 1 with (exp (p * u) * exp (- (p * u))) at 2 by (rewrite <- exp_plus, Rplus_opp_r; apply exp_0).
    apply Rmult_le_compat_l; [lra|]. apply exp_ineq1_le. }
  assert (E3 : p * (exp (p * u) * (1 + (1 - p) * u)) <= p * exp u) by (apply Rmult_le_compat_l; [lra|exact E1]).
  assert (E4 : (1 - p) * (exp (p * u) * (1 + - (p * u))) <= (1 - p) * 1) by (apply Rmult_le_compat_l; [lra|exact E2]).
  assert (E5 : exp (p * u) = p * (exp (p * u) * (1 + (1 - p) * u)) + (1 - p) * (exp (p * u) * (1 + - (p * u)))) by ring. lra.
Qed.

Lemma power_lip : forall t a b p T, 0 < t <= a -> a <= b -> 0 < p <= 1 -> power t p <= T * t ->
  0 <= power b p - power a p <= p * T * (b - a).
Proof.
  intros t a b p T HT HA P HK. split; [assert (power a p <= power b p) by (apply power_le; lra); lra|].
  assert (B1 : power b p <= power a p * (1 + p * (b / a - 1))).
  { replace (power b p) with (power a p * power (b / a) p).
    - apply Rmult_le_compat_l; [apply power_ge0|]. apply bernoulli; [apply Rdiv_lt_0_compat; lra|lra].
    - assert (Q : 0 < b / a) by (apply Rdiv_lt_0_compat; lra). rewrite !power_pos by lra. rewrite Rpower_mult_distr by lra. f_equal. field. lra. }
  assert (B2 : power a p <= T * a).
  { assert (Q : 0 < a / t) by (apply Rdiv_lt_0_compat; lra).
    assert (E : power a p = power t p * power (a / t) p) by (rewrite !power_pos by lra; rewrite Rpower_mult_distr by lra; f_equal; field; lra).
    assert (G : power (a / t) p <= a / t).
    { assert (1 <= a / t) by (apply Rmult_le_reg_r with t; [lra|]; unfold Rdiv; rewrite Rmult_assoc, Rinv_l by lra; lra).
      apply Rle_trans with (1 + p * (a / t - 1)); [apply bernoulli; lra|nra]. }
    rewrite E. apply Rle_trans with (T * t * (a / t)); [|right; field; lra].
    apply Rmult_le_compat; [apply power_ge0|apply power_ge0|exact HK|exact G]. }
  assert (B3 : power a p * (p * (b / a - 1)) <= T * a * (p * (b / a - 1))).
  { apply Rmult_le_compat_r; [|exact B2]. apply Rmult_le_pos; [lra|].
    assert (1 <= b / a) by (apply Rmult_le_reg_r with a; [lra|]; unfold Rdiv; rewrite Rmult_assoc, Rinv_l by lra; lra). lra. }
  replace (p * T * (b - a)) with (T * a * (p * (b / a - 1))) by (field; lra). lra.
Qed.

Lemma encoded_lip : forall t a b, t = TLinear \/ t = TSRGB \/ t = TSDR -> 0 <= a <= b ->
  - (1 / 1000000) <= encoded t b - encoded t a <= 13 * (b - a) + 1 / 3500.
Proof.
  intros t a b [-> |[-> | ->]] B; cbn [encoded]; [lra| |].
  - assert (T1 : power (31308 / 10000000) (5 / 12) <= 2891 / 100 * (31308 / 10000000)) by (left; apply (power_below _ _ _ 5 12); simpl; lra).
    assert (T2 : 904738 / 10000000 <= power (31308 / 10000000) (5 / 12)) by (left; apply (power_above _ _ _ 5 12); simpl; lra).
    assert (T3 : power (31308 / 10000000) (5 / 12) <= 904739 / 10000000) by (left; apply (power_below _ _ _ 5 12); simpl; lra).
    unfold srgb_encode. destruct (Rle_dec a _) as [HA|HA], (Rle_dec b _) as [HB|HB]; try lra.
    + pose proof (power_lip (31308 / 10000000) (31308 / 10000000) b (5 / 12) (2891 / 100) ltac:(lra) ltac:(lra) ltac:(lra) T1). lra.
    + pose proof (power_lip (31308 / 10000000) a b (5 / 12) (2891 / 100) ltac:(lra) ltac:(lra) ltac:(lra) T1). lra.
  - assert (T1 : power (1805397 / 100000000) (9 / 20) <= 91 / 10 * (1805397 / 100000000)) by (left; apply (power_below _ _ _ 9 20); simpl; lra).
    assert (T2 : 164231 / 1000000 <= power (1805397 / 100000000) (9 / 20)) by (left; apply (power_above _ _ _ 9 20); simpl; lra).
    assert (T3 : power (1805397 / 100000000) (9 / 20) <= 164233 / 1000000) by (left; apply (power_below _ _ _ 9 20); simpl; lra).
    unfold sdr_encode. destruct (Rlt_dec a _) as [HA|HA], (Rlt_dec b _) as [HB|HB]; try lra.
    + pose proof (power_lip (1805397 / 100000000) (1805397 / 100000000) b (9 / 20) (91 / 10) ltac:(lra) ltac:(lra) ltac:(lra) T1). lra.
    + pose proof (power_lip (1805397 / 100000000) a b (9 / 20) (91 / 10) ltac:(lra) ltac:(lra) ltac:(lra) T1). lra.
Qed.
