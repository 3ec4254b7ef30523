(** Accuracy of the transfer functions in binary32. *)

From Coq Require Import ZArith Bool Reals Lia Lra Psatz.
From Coq Require Import Floats.SpecFloat.
From Flocq Require Import Core IEEE754.BinarySingleNaN.
From Coquelicot Require Import Coquelicot.
From Verif Require Import Types F32 Vector Simd Math FloatProofs AccProofs SpecColor SpecTransfer PowerProofs PolyProofs MathProofs
  SpecMath LaneProofs.
Local Open Scope R_scope.

(** * Powers over the reals *)

Lemma ue_half : forall u, 0 <= u -> u * exp (- u) <= 1 / 2.
Proof.
  intros u H. rewrite exp_Ropp. pose proof (exp_pos u) as P.
  assert (E : 2 * u <= exp u).
  { replace u with (u / 2 + u / 2) at 2 by field. rewrite exp_plus. pose proof (exp_ineq1_le (u / 2)) as I.
    assert (0 <= 1 + u / 2) by lra. pose proof (Rmult_le_compat _ _ _ _ H0 H0 I I).
    pose proof (pow2_ge_0 (u / 2 - 1)). lra. }
  apply Rmult_le_reg_r with (exp u); [exact P|]. rewrite Rmult_assoc, Rinv_l by lra. lra.
Qed.

Lemma exp_lip1 : forall a b, a <= b -> 0 <= exp b - exp a <= (b - a) * exp b.
Proof.
  intros a b H. pose proof (exp_le a b H). split; [lra|].
  assert (E : exp a = exp b * exp (a - b)) by (rewrite <- exp_plus; f_equal; ring).
  rewrite E. pose proof (exp_ineq1_le (a - b)). pose proof (exp_pos b). nra.
Qed.

Lemma exp_lip : forall a b M, exp a <= M -> exp b <= M -> Rabs (exp a - exp b) <= Rabs (a - b) * M.
Proof.
  intros a b M A B. destruct (Rle_dec a b) as [H|H].
  - pose proof (exp_lip1 a b H). rewrite Rabs_minus_sym, (Rabs_pos_eq (exp b - exp a)), (Rabs_left1 (a - b)) by lra.
    assert ((b - a) * exp b <= (b - a) * M) by (apply Rmult_le_compat_l; lra). lra.
  - pose proof (exp_lip1 b a ltac:(lra)). rewrite (Rabs_pos_eq (exp a - exp b)), (Rabs_pos_eq (a - b)) by lra.
    assert ((a - b) * exp a <= (a - b) * M) by (apply Rmult_le_compat_l; lra). lra.
Qed.

Lemma ln_le_0 : forall x, 0 < x <= 1 -> ln x <= 0.
Proof. intros x (P & [H| ->]); [rewrite <- ln_1; left; apply ln_increasing; lra|rewrite ln_1; lra]. Qed.

Lemma ln_le_sub : forall x, 0 < x -> ln x <= x - 1.
Proof.
  intros x H. destruct (Rle_dec (ln x) (x - 1)) as [|N]; [assumption|]. exfalso.
  assert (exp (x - 1) < x) by (rewrite <- (exp_ln x H) at 2; apply exp_increasing; lra).
  pose proof (exp_ineq1_le (x - 1)). lra.
Qed.

(** A different exponent; the base is at most 1 *)
Lemma power_exponent : forall x y z m, 0 <= x <= 1 -> 0 < m -> m <= y -> m <= z ->
  Rabs (power x y - power x z) <= Rabs (y - z) / (2 * m).
Proof.
  intros x y z m X M Y Z. destruct (Req_dec x 0) as [->|NX].
  - rewrite !power_0, Rminus_0_r, Rabs_R0. pose proof (Rabs_pos (y - z)). apply Rmult_le_pos; [lra|]. left. apply Rinv_0_lt_compat. lra.
  - rewrite !power_pos by lra. unfold Rpower. pose proof (ln_le_0 x ltac:(lra)) as L.
    set (M' := exp (m * ln x)).
    assert (A : exp (y * ln x) <= M') by (apply exp_le; nra). assert (B : exp (z * ln x) <= M') by (apply exp_le; nra).
    eapply Rle_trans; [apply exp_lip; eassumption|]. replace (y * ln x - z * ln x) with ((y - z) * ln x) by ring.
    rewrite Rabs_mult, (Rabs_left1 (ln x)) by lra.
    pose proof (ue_half (m * - ln x) ltac:(nra)) as U. replace (- (m * - ln x)) with (m * ln x) in U by ring. fold M' in U.
    pose proof (Rabs_pos (y - z)). replace (Rabs (y - z) / (2 * m)) with (Rabs (y - z) * (1 / 2 / m)) by (field; lra).
    rewrite Rmult_assoc. apply Rmult_le_compat_l; [assumption|].
    apply Rmult_le_reg_l with m; [exact M|]. replace (m * (1 / 2 / m)) with (1 / 2) by (field; lra). lra.
Qed.

(** ... or more than 1 *)
Lemma power_exponent_big : forall x y z B, 1 <= x -> power x y <= B -> power x z <= B ->
  Rabs (power x y - power x z) <= Rabs (y - z) * (x - 1) * B.
Proof.
  intros x y z B X. rewrite !power_pos by lra. unfold Rpower. intros HY HZ.
  eapply Rle_trans; [apply exp_lip; eassumption|]. replace (y * ln x - z * ln x) with ((y - z) * ln x) by ring.
  rewrite Rabs_mult. assert (L : 0 <= ln x) by (destruct X as [X| <-]; [left; rewrite <- ln_1; apply ln_increasing; lra|rewrite ln_1; lra]).
  rewrite (Rabs_pos_eq (ln x)) by lra. pose proof (ln_le_sub x ltac:(lra)). pose proof (Rabs_pos (y - z)). pose proof (exp_pos (y * ln x)).
  apply Rmult_le_compat_r; [lra|]. apply Rmult_le_compat_l; lra.
Qed.

Lemma power_1_x : forall x, 0 <= x -> power x 1 = x.
Proof. intros x [H| <-]; [rewrite power_pos by exact H; apply Rpower_1, H|apply power_0]. Qed.

Lemma power_add : forall x y z, 0 <= x -> power x (y + z) = power x y * power x z.
Proof. intros x y z [H| <-]; [rewrite !power_pos by exact H; apply Rpower_plus|rewrite !power_0; ring]. Qed.

(** A different base *)
Lemma power_base : forall y a b B, 1 <= y -> 0 <= a <= B -> 0 <= b <= B ->
  Rabs (power a y - power b y) <= y * power B (y - 1) * Rabs (a - b).
Proof.
  assert (S : forall y a b B, 1 <= y -> 0 <= a <= B -> 0 <= b <= B -> a <= b ->
    Rabs (power a y - power b y) <= y * power B (y - 1) * Rabs (a - b)).
  { intros y a b B Y A Bb AB. destruct (Req_dec a 0) as [->|NA].
    - rewrite power_0. replace (0 - power b y) with (- power b y) by ring. replace (0 - b) with (- b) by ring. rewrite !Rabs_Ropp.
      pose proof (power_ge0 b y). rewrite !Rabs_pos_eq by lra.
      replace y with (y - 1 + 1) at 1 by ring. rewrite power_add, power_1_x by lra. apply Rmult_le_compat_r; [lra|].
      assert (power b (y - 1) <= power B (y - 1)).
      { destruct Y as [Y| <-]; [apply power_le; lra|]. rewrite Rminus_diag_eq by reflexivity. unfold power.
        destruct (Rle_dec b 0), (Rle_dec B 0); try lra; unfold Rpower; rewrite ?Rmult_0_l, ?exp_0; lra. }
      pose proof (power_ge0 B (y - 1)). nra.
    - rewrite (power_pos a), (power_pos b) by lra.
      pose proof (mvt_bound (fun x => Rpower x y) (fun x => y * Rpower x (y - 1)) a b (y * power B (y - 1)) AB) as M.
      rewrite Rabs_minus_sym, (Rabs_minus_sym a b), (Rabs_pos_eq (b - a)) by lra. apply M.
      + intros c C. unfold Rpower. auto_derive; [lra|]. replace ((y - 1) * ln c) with (y * ln c + - ln c) by ring.
        rewrite exp_plus, exp_Ropp, exp_ln by lra. field. lra.
      + intros c C. rewrite Rabs_pos_eq; [|apply Rmult_le_pos; [lra|left; apply exp_pos]]. apply Rmult_le_compat_l; [lra|].
        rewrite <- power_pos by lra. destruct Y as [Y| <-]; [apply power_le; lra|]. rewrite Rminus_diag_eq by reflexivity.
        rewrite !power_pos by lra. unfold Rpower. rewrite !Rmult_0_l. lra. }
  intros y a b B Y A Bb. destruct (Rle_dec a b) as [H|H]; [apply S; assumption|].
  rewrite Rabs_minus_sym, (Rabs_minus_sym a b). apply S; try assumption. lra.
Qed.

(** * Powers in binary32 *)

Lemma exp_bpow : forall k, bpow radix2 k = exp (IZR k * ln 2).
Proof. intros k. rewrite bpow_powerRZ. change (IZR radix2) with 2. rewrite powerRZ_Rpower by lra. reflexivity. Qed.

Lemma pow_abs : forall p x y X Y Q U, pow_accurate p -> is_num x -> is_num y -> fval x = X -> fval y = Y ->
  0 <= X -> 1 / 3 <= Y <= 100 -> power X Y <= Q -> 1 <= Q -> Y * (X - 1) <= U -> 0 <= U <= 86 ->
  approx (p x y) (power X Y) ((38 / 100000000 + Y / 10000000 + 125 / 1000000000 * U) * Q).
Proof.
  intros p x y X Y Q U P NX NY EX EY X0 YB PQ Q1 XU UB.
  destruct (P x y NX NY) as (P1 & P2 & P3); [rewrite EX; lra|rewrite EY, Rabs_pos_eq; lra|]. rewrite EX, EY in *.
  pose proof ln_2 as L2. pose proof tiny_pos as TP. pose proof (power_ge0 X Y) as PG.
  assert (B122 : 0 < bpow radix2 (-122) <= 1 / 1000000000000).
  { split; [apply bpow_gt_0|]. apply Rle_trans with (bpow radix2 (-40)); [apply bpow_le; lia|]. change (bpow radix2 (-40)) with (/ 1099511627776). lra. }
  assert (EY7 : 0 <= Y / 10000000) by lra.
  assert (QB : 38 / 100000000 <= (38 / 100000000 + Y / 10000000 + 125 / 1000000000 * U) * Q) by nra.
  destruct (Rlt_le_dec X tiny) as [T|T].
  - destruct (P3 T ltac:(lra)) as (N & B). split; [exact N|].
    assert (S : power X Y <= Rpower tiny Y) by (rewrite <- (power_pos tiny) by exact TP; apply power_le; lra).
    assert (S2 : Rpower tiny Y <= / 4398046511104).
    { change (/ 4398046511104) with (bpow radix2 (-42)). rewrite exp_bpow. unfold Rpower. rewrite ln_tiny. apply exp_le. nra. }
    apply Rabs_le. lra.
  - assert (XP : 0 < X) by lra. rewrite power_pos in * by exact XP. unfold Rpower in *. set (L := Y * ln X) in *.
    assert (LU : L <= U) by (unfold L; pose proof (ln_le_sub X XP); nra).
    destruct (Rle_dec L (-85)) as [C|C].
    + destruct (P2 T C) as (N & B). split; [exact N|].
      assert (exp L <= bpow radix2 (-122)) by (rewrite exp_bpow; apply exp_le; lra). apply Rabs_le. lra.
    + destruct (P1 T ltac:(lra)) as (N & B). fold L in B. split; [exact N|]. eapply Rle_trans; [exact B|].
      unfold pow_error. fold L. rewrite (Rabs_pos_eq Y) by lra.
      assert (LE : Rabs L * exp L <= (1 / 2 + U) * Q).
      { destruct (Rle_dec 0 L) as [LP|LN].
        - rewrite Rabs_pos_eq by exact LP. assert (L * exp L <= U * Q) by (apply Rmult_le_compat; lra). lra.
        - rewrite Rabs_left1 by lra. pose proof (ue_half (- L) ltac:(lra)) as H. rewrite Ropp_involutive in H. nra. }
      assert ((3 / 10000000 + Y / 10000000) * exp L <= (3 / 10000000 + Y / 10000000) * Q) by (apply Rmult_le_compat_l; lra).
      lra.
Qed.

(** The base at most 1 *)
Lemma pow_unit : forall p x y X Y, pow_accurate p -> is_num x -> is_num y -> fval x = X -> fval y = Y ->
  0 <= X <= 1 -> 1 / 3 <= Y <= 100 -> approx (p x y) (power X Y) (38 / 100000000 + Y / 10000000).
Proof.
  intros p x y X Y P NX NY EX EY X0 YB. eapply approx_le; [apply (pow_abs p x y X Y 1 0); try assumption; try lra|lra].
  - rewrite <- (power_1 Y). apply power_le; lra.
  - nra.
Qed.

(** Encoding: 0 <= X <= 4, exponent [y] of the code for [Y] of the standard *)
Lemma encode_power : forall p x y X Y, pow_accurate p -> is_num x -> is_num y -> fval x = X ->
  0 <= X <= 4 -> 35 / 100 <= Y <= 1 / 2 -> Rabs (fval y - Y) <= 2 / 100000000 ->
  approx (p x y) (power X Y) (3 / 1000000) /\ 0 <= power X Y <= 4.
Proof.
  intros p x y X Y P NX NY EX XB YB YE. pose proof YE as YE'. apply Rabs_le_inv in YE'. set (yv := fval y) in *.
  assert (B4 : forall z, 1 / 3 <= z <= 51 / 100 -> power X z <= 4).
  { intros z Z. apply Rle_trans with (power 4 z); [apply power_le; lra|]. apply Rle_trans with (power 4 1); [|rewrite power_1_x; lra].
    rewrite !power_pos by lra. apply Rle_Rpower; lra. }
  split; [|split; [apply power_ge0|apply B4; lra]].
  eapply approx_weaken.
  - apply (pow_abs p x y X yv 4 (153 / 100)); try assumption; try reflexivity; try lra; [apply B4; lra|nra].
  - destruct (Rle_dec X 1) as [L|L].
    + eapply Rle_trans; [apply (power_exponent X yv Y (34 / 100)); lra|]. lra.
    + eapply Rle_trans; [apply (power_exponent_big X yv Y 4); [lra|apply B4; lra..]|].
      assert (Rabs (yv - Y) * (X - 1) <= 2 / 100000000 * 3) by (apply Rmult_le_compat; try lra; apply Rabs_pos). lra.
Qed.

(** Decoding: base [x] for [X], exponent [y] for [Y] *)
Lemma decode_power : forall p x y X Y e, pow_accurate p -> approx x X e -> is_num y -> 0 <= fval x ->
  0 <= X <= 1001 / 1000 -> e <= 1 / 1000000 -> 2 <= Y <= 3 -> Rabs (fval y - Y) <= 2 / 10000000 ->
  approx (p x y) (power X Y) (8 / 10000000 + 32 / 10 * e).
Proof.
  intros p x y X Y e P (NX & EX) NY X0 XB EB YB YE. pose proof YE as YE'. apply Rabs_le_inv in YE'. set (yv := fval y) in *.
  pose proof EX as EX'. apply Rabs_le_inv in EX'. set (x' := fval x) in *. set (B := 1 + 11 / 10000).
  assert (BB : forall z, 0 <= z <= 31 / 10 -> power B z <= 1 + 4 / 1000).
  { intros z Z. rewrite power_pos by (unfold B; lra). unfold Rpower. pose proof (ln_le_sub B ltac:(unfold B; lra)) as L.
    assert (L0 : 0 <= ln B) by (left; rewrite <- ln_1; apply ln_increasing; unfold B; lra).
    assert (D : Rabs (z * ln B) <= 342 / 100000) by (rewrite Rabs_pos_eq; unfold B in *; nra).
    pose proof (exp_near_one _ _ D ltac:(lra)) as E. apply Rabs_le_inv in E. lra. }
  eapply approx_weaken with (v := power x' yv) (e := (38 / 100000000 + yv / 10000000 + 125 / 1000000000 * (1 / 100)) * (1 + 4 / 1000)).
  - apply (pow_abs p x y x' yv); try assumption; try reflexivity; try lra.
    + apply Rle_trans with (power B yv); [apply power_le; unfold B; lra|apply BB; lra].
    + nra.
  - replace (power x' yv - power X Y) with ((power x' yv - power X yv) + (power X yv - power X Y)) by ring.
    eapply Rle_trans; [apply Rabs_triang|].
    pose proof (power_base yv x' X B ltac:(lra) ltac:(unfold B; lra) ltac:(unfold B; lra)) as H1.
    pose proof (BB (yv - 1) ltac:(lra)) as H2. pose proof (power_ge0 B (yv - 1)) as H3.
    assert (H4 : yv * power B (yv - 1) * Rabs (x' - X) <= 32 / 10 * e).
    { apply Rmult_le_compat; [nra|apply Rabs_pos|nra|exact EX]. }
    assert (H5 : Rabs (power X yv - power X Y) <= 6 / 100000000).
    { destruct (Rle_dec X 1) as [C|C].
      - pose proof (power_exponent X yv Y (19 / 10) ltac:(lra) ltac:(lra) ltac:(lra) ltac:(lra)). lra.
      - pose proof (power_exponent_big X yv Y (1 + 4 / 1000) ltac:(lra)) as H5.
        assert (PB : forall z, 0 < z <= 31 / 10 -> power X z <= 1 + 4 / 1000)
          by (intros z Z; apply Rle_trans with (power B z); [apply power_le; unfold B; lra|apply BB; lra]).
        specialize (H5 (PB yv ltac:(lra)) (PB Y ltac:(lra))).
        assert (Rabs (yv - Y) * (X - 1) <= 2 / 10000000 * (1 / 1000)) by (apply Rmult_le_compat; try lra; apply Rabs_pos). lra. }
    lra.
Qed.

(** * Encoding *)

Ltac run_f32 := cbv [oetf eotf fadd fsub fmul fdiv fsqrt flit f32_ops].

Lemma gamma_enc_ok : forall L x, accurate L -> is_num x -> 0 <= fval x <= 4 ->
  approx (oetf L TGamma22 x) (power (fval x) (10 / 22)) (3 / 1000000) /\
  approx (oetf L TGamma28 x) (power (fval x) (10 / 28)) (3 / 1000000).
Proof.
  intros L x A N B. run_f32. split.
  - assert (C : approx (f32_div (f32_lit 1 0) (f32_div (f32_lit 22 0) (f32_lit 10 0))) (10 / 22) (2 / 100000000)) by const_approx. destruct C as (NC & EC).
    apply (encode_power (l_pow L) x _ _ (10 / 22) (acc_pow _ A) N NC eq_refl B ltac:(lra) EC).
  - assert (C : approx (f32_div (f32_lit 1 0) (f32_div (f32_lit 28 0) (f32_lit 10 0))) (10 / 28) (2 / 100000000)) by const_approx. destruct C as (NC & EC).
    apply (encode_power (l_pow L) x _ _ (10 / 28) (acc_pow _ A) N NC eq_refl B ltac:(lra) EC).
Qed.

(** [a * pow - b] *)
Lemma enc_curve : forall p x y X Y a A b Bv, pow_accurate p -> is_num x -> is_num y -> fval x = X ->
  0 <= X <= 4 -> 35 / 100 <= Y <= 1 / 2 -> Rabs (fval y - Y) <= 2 / 100000000 ->
  approx a A (1 / 10000000) -> 1 <= A <= 11 / 10 -> approx b Bv (1 / 100000000) -> 0 <= Bv <= 1 / 10 ->
  approx (f32_sub (f32_mul a (p x y)) b) (A * power X Y - Bv) (45 / 10000000).
Proof.
  intros p x y X Y a A b Bv P NX NY EX XB YB YE HA AB HB BB.
  destruct (encode_power p x y X Y P NX NY EX XB YB YE) as (HP & PB).
  pose proof (approx_mul _ _ _ _ _ _ (11 / 10) 4 (45 / 10) HA HP) as H1.
  rewrite (Rabs_pos_eq A), (Rabs_pos_eq (power X Y)) in H1 by lra. specialize (H1 ltac:(lra) ltac:(lra) ltac:(lra) ltac:(lra)).
  assert (AP : 0 <= A * power X Y <= 11 / 10 * 4) by (split; [apply Rmult_le_pos|apply Rmult_le_compat]; lra).
  eapply approx_le; [apply (approx_sub _ _ _ _ _ _ (46 / 10) H1 HB)|].
  - assert (Rabs (A * power X Y - Bv) <= 45 / 10) by (apply Rabs_le; lra). unfold half_ulp. lra.
  - lra.
  - unfold half_ulp. lra.
Qed.

Lemma srgb_enc_ok : forall L x, accurate L -> is_num x -> 0 <= fval x <= 4 ->
  approx (oetf L TSRGB x) (srgb_encode (fval x)) (5 / 1000000).
Proof.
  intros L x A N B. run_f32.
  assert (CT : approx (f32_lit 31308 7) (3361671 / 1073741824) 0) by const_approx. apply const_val in CT. destruct CT as (VT & NT & _).
  assert (LIN : approx (f32_lit 1292 2) (1292 / 100) (5 / 10000000)) by const_approx.
  assert (CA : approx (f32_lit 1055 3) (1055 / 1000) (1 / 10000000)) by const_approx.
  assert (CB : approx (f32_lit 55 3) (55 / 1000) (1 / 100000000)) by const_approx.
  assert (CE : approx (f32_div (f32_lit 1 0) (f32_lit 24 1)) (5 / 12) (2 / 100000000)) by const_approx. destruct CE as (NE & EE).
  pose proof (acc_le _ A x (f32_lit 31308 7) N NT ltac:(lra) ltac:(lra)) as CMP. rewrite VT in CMP.
  set (X := fval x) in *.
  destruct (l_le L x (f32_lit 31308 7)).
  - assert (XT : X <= 3361671 / 1073741824) by (apply CMP; reflexivity).
    assert (HX : approx x X 0) by (split; [exact N|]; unfold X; rewrite Rminus_diag_eq, Rabs_R0 by reflexivity; lra).
    pose proof (approx_mul _ _ _ _ _ _ (32 / 10000) (1292 / 100) (42 / 1000) HX LIN) as H.
    rewrite (Rabs_pos_eq X), (Rabs_pos_eq (1292 / 100)) in H by lra. specialize (H ltac:(lra) ltac:(lra) ltac:(lra) ltac:(lra)).
    eapply approx_weaken; [exact H|]. unfold srgb_encode. destruct (Rle_dec X (31308 / 10000000)) as [C|C].
    + rewrite (Rmult_comm X), Rminus_diag_eq, Rabs_R0 by reflexivity. unfold half_ulp. lra.
    + (* the float threshold is above the real one *)
      assert (P1 : 90473 / 1000000 <= power X (5 / 12)).
      { apply Rle_trans with (power (31308 / 10000000) (5 / 12)); [left|apply power_le; lra].
        apply (power_above _ _ _ 5 12); simpl; lra. }
      assert (P2 : power X (5 / 12) <= 90475 / 1000000).
      { apply Rle_trans with (power (3361671 / 1073741824) (5 / 12)); [apply power_le; lra|left].
        apply (power_below _ _ _ 5 12); simpl; lra. }
      unfold half_ulp. apply Rabs_le. lra.
  - assert (XT : ~ X <= 3361671 / 1073741824) by (intros C; apply CMP in C; discriminate C).
    unfold srgb_encode. destruct (Rle_dec X (31308 / 10000000)) as [C|C]; [lra|].
    eapply approx_le; [apply (enc_curve (l_pow L) x _ X (5 / 12) _ (1055 / 1000) _ (55 / 1000) (acc_pow _ A) N NE eq_refl B ltac:(lra) EE CA ltac:(lra) CB ltac:(lra))|lra].
Qed.

Lemma exact_approx : forall x, is_num x -> approx x (fval x) 0.
Proof. intros x N. split; [exact N|]. rewrite Rminus_diag_eq, Rabs_R0 by reflexivity. lra. Qed.

(** Floats are multiples of the unit of their binade *)
Lemma num_multiple : forall x k, is_num x -> (-126 <= k)%Z -> bpow radix2 k <= fval x -> exists j, fval x = IZR j * bpow radix2 (k - 23).
Proof.
  intros x k N K H. pose proof (num_format x N) as F. change (SpecFloat.fexp 24 128) with (FLT_exp (-149) 24) in F.
  assert (M : (k + 1 <= mag radix2 (fval x))%Z).
  { apply mag_ge_bpow. replace (k + 1 - 1)%Z with k by lia. eapply Rle_trans; [exact H|apply Rle_abs]. }
  unfold generic_format, F2R, scaled_mantissa in F. cbn [Fnum Fexp] in F. set (m := Ztrunc _) in F. set (c := cexp _ _ _) in F.
  assert (C : (k - 23 <= c)%Z) by (unfold c, cexp, FLT_exp; lia).
  exists (m * 2 ^ (c - (k - 23)))%Z. rewrite F, mult_IZR. change 2%Z with (radix_val radix2). rewrite IZR_Zpower by lia.
  rewrite Rmult_assoc, <- bpow_plus. do 2 f_equal. lia.
Qed.

(** At the float next to the threshold the code uses the other branch, and the
    two differ by 2.5e-4 there *)
Lemma sdr_enc_ok : forall L x, accurate L -> is_num x -> 0 <= fval x <= 4 ->
  approx (oetf L TSDR x) (sdr_encode (fval x))
    (if Req_EM_T (fval x) (9692651 / 536870912) then 3 / 10000 else 5 / 1000000).
Proof.
  intros L x A N B. run_f32.
  assert (CT : approx (f32_lit 1805397 8) (9692651 / 536870912) 0) by const_approx. apply const_val in CT. destruct CT as (VT & NT & _).
  assert (LIN : approx (f32_lit 45 1) (9 / 2) 0) by const_approx.
  assert (CA : approx (f32_lit 1099 3) (1099 / 1000) (1 / 10000000)) by const_approx.
  assert (CB : approx (f32_lit 99 3) (99 / 1000) (1 / 100000000)) by const_approx.
  assert (CE : approx (f32_lit 45 2) (9 / 20) (2 / 100000000)) by const_approx. destruct CE as (NE & EE).
  pose proof (acc_lt _ A x (f32_lit 1805397 8) N NT ltac:(lra) ltac:(lra)) as CMP. rewrite VT in CMP.
  set (X := fval x) in *.
  destruct (l_lt L x (f32_lit 1805397 8)).
  - assert (XT : X < 9692651 / 536870912) by (apply CMP; reflexivity).
    destruct (Req_EM_T X (9692651 / 536870912)) as [|_]; [lra|].
    unfold sdr_encode. destruct (Rlt_dec X (1805397 / 100000000)); [|lra].
    pose proof (approx_mul _ _ _ _ _ _ (9 / 2) (2 / 100) (1 / 10) LIN (exact_approx x N)) as H. fold X in H.
    rewrite (Rabs_pos_eq X), (Rabs_pos_eq (9 / 2)) in H by lra. specialize (H ltac:(lra) ltac:(lra) ltac:(lra) ltac:(lra)).
    eapply approx_le; [exact H|]. unfold half_ulp. lra.
  - assert (XT : ~ X < 9692651 / 536870912) by (intros C; apply CMP in C; discriminate C).
    pose proof (enc_curve (l_pow L) x _ X (9 / 20) _ (1099 / 1000) _ (99 / 1000) (acc_pow _ A) N NE eq_refl B ltac:(lra) EE CA ltac:(lra) CB ltac:(lra)) as H.
    unfold sdr_encode.
    destruct (Rlt_dec X (1805397 / 100000000)) as [C|C]; [|eapply approx_le; [exact H|destruct (Req_EM_T _ _); lra]].
    assert (XE : X = 9692651 / 536870912).
    { destruct (num_multiple x (-6) N ltac:(lia)) as (j & E); [fold X; change (bpow radix2 (-6)) with (/ 64); lra|].
      change (bpow radix2 (-6 - 23)) with (/ 536870912) in E. fold X in E. rewrite E in *.
      assert (J : (j < 9692652)%Z) by (apply lt_IZR; lra). assert (J2 : (9692650 < j)%Z) by (apply lt_IZR; lra).
      replace j with 9692651%Z by lia. field. }
    destruct (Req_EM_T X _); [|contradiction].
    eapply approx_weaken; [exact H|].
    assert (P1 : 1640 / 10000 <= power X (9 / 20)).
    { apply Rle_trans with (power (9692651 / 536870912) (9 / 20)); [left|apply power_le; lra]. apply (power_above _ _ _ 9 20); simpl; lra. }
    assert (P2 : power X (9 / 20) <= 16425 / 100000).
    { apply Rle_trans with (power (1805397 / 100000000) (9 / 20)); [apply power_le; lra|left]. apply (power_below _ _ _ 9 20); simpl; lra. }
    apply Rabs_le. lra.
Qed.

Lemma sqrt_close : forall a b, 0 <= a -> 0 <= b <= 1 -> Rabs (a - b) <= b / 16777216 + 1 / 281474976710656 -> Rabs (sqrt a - sqrt b) <= 2 / 10000000.
Proof.
  intros a b A B H. pose proof (sqrt_pos a) as SA. pose proof (sqrt_pos b) as SB.
  pose proof (sqrt_sqrt a A) as EA. pose proof (sqrt_sqrt b ltac:(lra)) as EB. set (s := sqrt a) in *. set (t := sqrt b) in *.
  assert (D : Rabs (s - t) * (s + t) = Rabs (a - b)).
  { rewrite <- (Rabs_pos_eq (s + t)) by lra. rewrite <- Rabs_mult. f_equal. rewrite <- EA, <- EB. ring. }
  set (d := Rabs (s - t)) in *. assert (D0 : 0 <= d) by apply Rabs_pos.
  destruct (Rle_dec (1 / 67108864) b) as [C|C].
  - assert (T : 1 / 8192 <= t) by (apply Rnot_lt_le; intros T; assert (t * t < 1 / 8192 * (1 / 8192)) by nra; lra).
    assert (T1 : t <= 1) by nra.
    assert (d * t <= t * t / 16777216 + 1 / 281474976710656) by nra.
    apply Rnot_lt_le. intros F. nra.
  - assert (DT : d <= s + t) by (unfold d; apply Rabs_le; lra).
    assert (d * d <= 1 / 67108864 / 16777216 + 1 / 281474976710656) by nra.
    apply Rnot_lt_le. intros F. nra.
Qed.

Lemma ln_lip : forall a b m, 0 < m -> m <= a -> m <= b -> Rabs (ln a - ln b) <= Rabs (a - b) / m.
Proof.
  assert (S : forall a b m, 0 < m -> m <= a -> m <= b -> ln a - ln b <= Rabs (a - b) / m).
  { intros a b m M A B. rewrite <- ln_div by lra. eapply Rle_trans; [apply ln_le_sub; apply Rdiv_lt_0_compat; lra|].
    replace (a / b - 1) with ((a - b) / b) by (field; lra). unfold Rdiv.
    assert (I : / b <= / m) by (apply Rinv_le_contravar; lra). assert (0 < / b) by (apply Rinv_0_lt_compat; lra).
    apply Rle_trans with (Rabs (a - b) * / b); [apply Rmult_le_compat_r; [lra|apply Rle_abs]|apply Rmult_le_compat_l; [apply Rabs_pos|exact I]]. }
  intros a b m M A B. apply Rabs_le. pose proof (S a b m M A B). pose proof (S b a m M B A) as H2. rewrite (Rabs_minus_sym b a) in H2. lra.
Qed.

Lemma ln_le : forall a b, 0 < a -> a <= b -> ln a <= ln b.
Proof. intros a b A [H| ->]; [left; apply ln_increasing; assumption|lra]. Qed.

Lemma ln_range : forall z, 1 / 2 <= z <= 64 -> -1 <= ln z <= 5.
Proof.
  intros z Z. pose proof ln_2 as L2. split.
  - apply Rle_trans with (ln (/ 2)); [rewrite ln_Rinv by lra; lra|apply ln_le; lra].
  - apply Rle_trans with (ln 64); [apply ln_le; lra|]. replace 64 with (1 * bpow radix2 6) by (simpl; lra). rewrite ln_scaled, ln_1 by lra. lra.
Qed.

(** The logarithm at the threshold 1/12 *)
Lemma hlg_threshold : 4999999 / 10000000 <= ha * ln (1 - hb) + hc <= 5000001 / 10000000.
Proof.
  pose proof (vlog_poly_ok (- hb)) as V. unfold hb in *. specialize (V ltac:(lra)).
  replace (1 - 28466892 / 100000000) with (1 + - (28466892 / 100000000)) by ring. apply Rabs_le_inv in V. unfold ha, hc.
  set (l := ln _) in *. unfold vlog_poly in V. lra.
Qed.

Lemma hlg_enc_max : forall L x, accurate L -> is_num x -> fval x <= 4 ->
  approx (oetf L TBT2100HLG x) (hlg_encode (Rmax (fval x) 0)) (5 / 1000000).
Proof.
  intros L x A N B0. assert (B : 0 <= Rmax (fval x) 0 <= 4) by (split; [apply Rmax_r|apply Rmax_lub; lra]). run_f32.
  assert (N0 : is_num (f32_lit 0 0)) by (split; reflexivity).
  assert (V0 : fval (f32_lit 0 0) = 0) by reflexivity.
  destruct (acc_max _ A x (f32_lit 0 0) N N0) as (NM & VM). rewrite V0 in VM.
  set (e := l_max L x (f32_lit 0 0)) in *.
  assert (CT : approx (f32_div (f32_lit 1 0) (f32_lit 12 0)) (11184811 / 134217728) 0) by const_approx.
  apply const_val in CT. destruct CT as (VT & NT & _).
  assert (C3 : approx (f32_lit 3 0) 3 0) by const_approx.
  assert (C12 : approx (f32_lit 12 0) 12 0) by const_approx.
  assert (CA : approx (f32_lit 17883277 8) ha (1 / 100000000)) by (unfold ha; const_approx).
  assert (CB : approx (f32_lit 28466892 8) hb (3 / 100000000)) by (unfold hb; const_approx).
  assert (CC : approx (f32_lit 5599107 7) hc (3 / 100000000)) by (unfold hc; const_approx).
  pose proof (acc_le _ A e _ NM NT ltac:(lra) ltac:(lra)) as CMP. rewrite VT, VM in CMP.
  set (X := Rmax (fval x) 0) in *. set (T := f32_div (f32_lit 1 0) (f32_lit 12 0)) in *.
  pose proof (exact_approx e NM) as HE. rewrite VM in HE.
  pose proof hlg_threshold as TH.
  destruct (l_le L e T).
  - assert (XT : X <= 11184811 / 134217728) by (apply CMP; reflexivity).
    assert (S : approx (f32_sqrt (f32_mul e (f32_lit 3 0))) (sqrt (3 * X)) (3 / 10000000)).
    { destruct (const_val _ _ C3) as (V3 & (N3 & _)).
      destruct (f32_mul_num e (f32_lit 3 0) NM N3) as (N1 & V1); [apply big_bound; rewrite VM, V3; apply Rabs_le; lra|].
      rewrite VM, V3 in V1.
      assert (R1 : Rabs (fval (f32_mul e (f32_lit 3 0)) - 3 * X) <= 3 * X / 16777216 + 1 / 281474976710656).
      { rewrite V1, (Rmult_comm 3 X). apply rnd_half. rewrite Rabs_pos_eq; lra. }
      assert (P1 : 0 <= fval (f32_mul e (f32_lit 3 0))).
      { rewrite V1. replace 0 with (rnd 0) by (apply round_0; typeclasses eauto). apply rnd_mono. lra. }
      destruct (f32_sqrt_num _ N1 P1) as (N2 & V2). split; [exact N2|].
      set (a := fval (f32_mul e (f32_lit 3 0))) in *.
      pose proof (sqrt_close a (3 * X) P1 ltac:(lra) R1) as SC.
      assert (SB : Rabs (sqrt a) <= 1).
      { rewrite Rabs_pos_eq by apply sqrt_pos. rewrite <- sqrt_1. apply sqrt_le_1_alt. apply Rabs_le_inv in R1. lra. }
      pose proof (rnd_half _ _ SB) as RS. rewrite V2.
      replace (rnd (sqrt a) - sqrt (3 * X)) with ((rnd (sqrt a) - sqrt a) + (sqrt a - sqrt (3 * X))) by ring.
      eapply Rle_trans; [apply Rabs_triang|]. unfold half_ulp in RS. lra. }
    eapply approx_weaken; [exact S|]. unfold hlg_encode. destruct (Rle_dec X (1 / 12)) as [C|C].
    + rewrite Rminus_diag_eq, Rabs_R0 by reflexivity. lra.
    + assert (S1 : 1 / 2 <= sqrt (3 * X)) by (apply Rsqr_incr_0_var; [rewrite Rsqr_sqrt by lra; unfold Rsqr; lra|apply sqrt_pos]).
      assert (S2 : sqrt (3 * X) <= 1 / 2 + 1 / 10000000) by (apply Rsqr_incr_0_var; [rewrite Rsqr_sqrt by lra; unfold Rsqr; lra|lra]).
      assert (L1 : ln (1 - hb) <= ln (12 * X - hb)) by (apply ln_le; unfold hb; lra).
      pose proof (ln_lip (12 * X - hb) (1 - hb) (7 / 10) ltac:(lra) ltac:(unfold hb; lra) ltac:(unfold hb; lra)) as L2.
      replace (12 * X - hb - (1 - hb)) with (12 * X - 1) in L2 by ring. rewrite (Rabs_pos_eq (12 * X - 1)) in L2 by lra. apply Rabs_le_inv in L2.
      unfold ha in *. apply Rabs_le. lra.
  - assert (XT : ~ X <= 11184811 / 134217728) by (intros C; apply CMP in C; discriminate C).
    unfold hlg_encode. destruct (Rle_dec X (1 / 12)) as [C|C]; [lra|].
    pose proof (approx_mul _ _ _ _ _ _ 12 4 48 C12 HE) as H1. rewrite (Rabs_pos_eq 12), (Rabs_pos_eq X) in H1 by lra.
    specialize (H1 ltac:(lra) ltac:(lra) ltac:(lra) ltac:(lra)).
    assert (HB : Rabs (12 * X - hb) <= 48) by (unfold hb; apply Rabs_le; lra).
    pose proof (approx_sub _ _ _ _ _ _ 49 H1 CB) as H2. specialize (H2 ltac:(unfold half_ulp; lra) ltac:(lra)).
    set (z := f32_sub _ (f32_lit 28466892 8)) in *. destruct H2 as (NZ & H2). unfold half_ulp in H2.
    set (Z := 12 * X - hb) in *. assert (ZB : 71 / 100 <= Z <= 48) by (unfold Z, hb; lra). pose proof H2 as H2'. apply Rabs_le_inv in H2'.
    assert (ZT : tiny <= fval z) by (apply Rle_trans with (bpow radix2 (-1)); [apply bpow_le; lia|change (bpow radix2 (-1)) with (/ 2); lra]).
    destruct (acc_ln _ A z NZ ZT) as (NL & HL).
    pose proof (ln_range (fval z) ltac:(lra)) as LR. pose proof (ln_lip (fval z) Z (7 / 10) ltac:(lra) ltac:(lra) ltac:(lra)) as LL.
    assert (LA : approx (l_ln L z) (ln Z) (95 / 10000000)).
    { split; [exact NL|]. replace (fval (l_ln L z) - ln Z) with ((fval (l_ln L z) - ln (fval z)) + (ln (fval z) - ln Z)) by ring.
      eapply Rle_trans; [apply Rabs_triang|]. assert (Rabs (ln (fval z)) <= 5) by (apply Rabs_le; lra). lra. }
    pose proof (ln_range Z ltac:(lra)) as LZ.
    pose proof (approx_mul _ _ _ _ _ _ (18 / 100) 5 1 CA LA) as H3. rewrite (Rabs_pos_eq ha) in H3 by (unfold ha; lra).
    specialize (H3 ltac:(unfold ha; lra) ltac:(apply Rabs_le; lra) ltac:(lra) ltac:(lra)).
    eapply approx_le; [apply (approx_add _ _ _ _ _ _ 2 H3 CC)|].
    + assert (Rabs (ha * ln Z + hc) <= 18 / 10) by (unfold ha, hc; apply Rabs_le; lra). unfold half_ulp. lra.
    + lra.
    + unfold half_ulp. lra.
Qed.

Lemma hlg_enc_ok : forall L x, accurate L -> is_num x -> 0 <= fval x <= 4 ->
  approx (oetf L TBT2100HLG x) (hlg_encode (fval x)) (5 / 1000000).
Proof. intros L x A N B. pose proof (hlg_enc_max L x A N ltac:(lra)) as H. rewrite Rmax_left in H by lra. exact H. Qed.

(** Division by an approximate divisor, at least [d] *)
Lemma approx_div2 : forall a va ea b vb eb d q M, approx a va ea -> approx b vb eb -> 0 < d -> d <= vb - eb -> Rabs (va / vb) <= q ->
  q + (ea + q * eb) / d <= M -> M <= 1000000 -> approx (f32_div a b) (va / vb) ((ea + q * eb) / d + half_ulp M).
Proof.
  intros a va ea b vb eb d q M (NA & HA) (NB & HB) D DB Q HM BM.
  pose proof HB as HB'. apply Rabs_le_inv in HB'. pose proof (Rabs_pos (fval a - va)). pose proof (Rabs_pos (fval b - vb)).
  pose proof (Rabs_pos (va / vb)) as Q0.
  assert (E : Rabs (fval a / fval b - va / vb) <= (ea + q * eb) / d).
  { replace (fval a / fval b - va / vb) with (((fval a - va) - va / vb * (fval b - vb)) * / fval b) by (field; lra).
    rewrite Rabs_mult. unfold Rdiv at 2. apply Rmult_le_compat; try apply Rabs_pos.
    - unfold Rminus at 1. eapply Rle_trans; [apply Rabs_triang|]. rewrite Rabs_Ropp, Rabs_mult.
      assert (Rabs (va / vb) * Rabs (fval b - vb) <= q * eb) by (apply Rmult_le_compat; lra). lra.
    - rewrite Rabs_pos_eq by (left; apply Rinv_0_lt_compat; lra). apply Rinv_le_contravar; lra. }
  assert (M2 : Rabs (va / vb) + (ea + q * eb) / d <= M) by lra.
  destruct (f32_div_num a b NA NB) as (N & V); [lra|eapply approx_bound; eassumption|].
  split; [exact N|]. rewrite V. apply rnd_approx; assumption.
Qed.

(** The inner power of PQ: the argument may underflow *)
Lemma pq_inner : forall p y m Y, pow_accurate p -> is_num y -> fval y = rnd Y -> is_num m -> 0 <= Y <= 1 / 2 -> Rabs (fval m - m1) <= 1 / 100000000 ->
  approx (p y m) (power Y m1) (1 / 1000000).
Proof.
  intros p y m Y P NY EY NM YB ME. pose proof ME as ME'. apply Rabs_le_inv in ME'. unfold m1 in ME'. set (mf := fval m) in *.
  assert (R0 : rnd 0 = 0) by (apply round_0; typeclasses eauto).
  assert (P0 : 0 <= fval y) by (rewrite EY; rewrite <- R0; apply rnd_mono; lra).
  assert (P1 : fval y <= 1 / 2).
  { rewrite EY. replace (1 / 2) with (rnd (1 / 2)); [apply rnd_mono; lra|].
    replace (1 / 2) with (IZR 1 * bpow radix2 (-1)) by (change (bpow radix2 (-1)) with (/ 2); lra). apply rnd_exact; lia. }
  destruct (P y m NY NM P0) as (C1 & _ & C3); [fold mf; rewrite Rabs_pos_eq; lra|]. fold mf in C1, C3.
  pose proof ln_2 as L2. pose proof ln_tiny as LT. pose proof tiny_pos as TP.
  assert (B20 : bpow radix2 (-20) = / 1048576) by reflexivity. rewrite exp_bpow in B20.
  destruct (Rlt_le_dec (fval y) tiny) as [T|T].
  - destruct (C3 T ltac:(lra)) as (N & B). split; [exact N|].
    assert (YT : Y < tiny).
    { apply Rnot_le_lt. intros H. apply rnd_mono in H. rewrite <- EY in H.
      assert (ET : rnd tiny = tiny) by (unfold tiny; rewrite <- (Rmult_1_l (bpow _ _)); apply (rnd_exact 1); lia). lra. }
    assert (Q1 : Rpower tiny mf <= / 1048576) by (rewrite <- B20; unfold Rpower; apply exp_le; rewrite LT; nra).
    assert (Q2 : power Y m1 <= / 1048576).
    { apply Rle_trans with (power tiny m1); [apply power_le; unfold m1; lra|]. rewrite power_pos by exact TP.
      rewrite <- B20; unfold Rpower; apply exp_le. rewrite LT. unfold m1. nra. }
    assert (B122 : bpow radix2 (-122) <= / 1099511627776) by (change (/ 1099511627776) with (bpow radix2 (-40)); apply bpow_le; lia).
    pose proof (power_ge0 Y m1). apply Rabs_le. lra.
  - pose proof (rnd_error Y) as RE. rewrite <- EY, (Rabs_pos_eq Y) in RE by lra.
    assert (TE : bpow radix2 (-149) = tiny / 8388608) by (unfold tiny; change (/ 8388608) with (bpow radix2 (-23)) || replace 8388608 with (bpow radix2 23) by reflexivity; unfold Rdiv; rewrite <- bpow_opp, <- bpow_plus; reflexivity).
    rewrite TE in RE. change (bpow radix2 (-23)) with (/ 8388608) in RE. set (y' := fval y) in *.
    pose proof RE as RE'. apply Rabs_le_inv in RE'.
    assert (YT : tiny / 2 <= Y) by lra.
    assert (R2 : Rabs (y' - Y) <= 2 / 10000000 * Y) by lra.
    assert (Y0 : 0 < Y) by lra.
    pose proof (ln_le_0 y' ltac:(lra)) as LN.
    assert (LNT : -88 <= ln y') by (apply Rle_trans with (ln tiny); [rewrite LT; lra|apply ln_le; lra]).
    destruct (C1 T ltac:(nra)) as (N & B). split; [exact N|]. fold y' in B.
    rewrite <- power_pos in B by lra.
    assert (PU : 0 <= power y' mf <= 1) by (split; [apply power_ge0|rewrite <- (power_1 mf); apply power_le; lra]).
    assert (E1 : pow_error y' mf * power y' mf <= 45 / 100000000).
    { unfold pow_error. rewrite (Rabs_pos_eq mf), (Rabs_left1 (mf * ln y')) by nra. rewrite power_pos in * by lra.
      pose proof (ue_half (- (mf * ln y')) ltac:(nra)) as U. rewrite Ropp_involutive in U. unfold Rpower in *. nra. }
    pose proof (power_exponent y' mf m1 (159 / 1000) ltac:(lra) ltac:(lra) ltac:(lra) ltac:(unfold m1; lra)) as E2.
    assert (E3 : Rabs (power y' m1 - power Y m1) <= 4 / 100000000).
    { rewrite !power_pos by lra. unfold Rpower.
      eapply Rle_trans; [apply (exp_lip _ _ 1); rewrite <- exp_0; apply exp_le; [unfold m1; nra|]|].
      - pose proof (ln_le_0 Y ltac:(lra)). unfold m1. nra.
      - replace (m1 * ln y' - m1 * ln Y) with (m1 * (ln y' - ln Y)) by ring. rewrite Rabs_mult, (Rabs_pos_eq m1) by (unfold m1; lra).
        pose proof (ln_lip y' Y (9 / 10 * Y) ltac:(lra) ltac:(lra) ltac:(lra)) as LL.
        assert (Rabs (y' - Y) / (9 / 10 * Y) <= 23 / 100000000).
        { apply Rmult_le_reg_r with (9 / 10 * Y); [lra|]. unfold Rdiv. rewrite Rmult_assoc, Rinv_l by lra. lra. }
        unfold m1. lra. }
    replace (fval (p y m) - power Y m1) with ((fval (p y m) - power y' mf) + ((power y' mf - power y' m1) + (power y' m1 - power Y m1))) by ring.
    eapply Rle_trans; [apply Rabs_triang|]. eapply Rle_trans; [apply Rplus_le_compat_l; apply Rabs_triang|]. lra.
Qed.

Lemma pq_ratio : forall a b, 0 <= a -> 0 <= b -> Rabs ((c1 + c2 * a) / (1 + c3 * a) - (c1 + c2 * b) / (1 + c3 * b)) <= 324 / 100 * Rabs (a - b).
Proof.
  intros a b A B. unfold c1, c2, c3.
  assert (DA : 1 <= 1 + 186875 / 10000 * a) by lra. assert (DB : 1 <= 1 + 186875 / 10000 * b) by lra.
  set (u := 1 + 186875 / 10000 * a) in *. set (v := 1 + 186875 / 10000 * b) in *.
  replace ((8359375 / 10000000 + 18851563 / 1000000 * a) / u - (8359375 / 10000000 + 18851563 / 1000000 * b) / v)
    with ((18851563 / 1000000 - 8359375 / 10000000 * (186875 / 10000)) * (a - b) * / (u * v)) by (unfold u, v in *; field; lra).
  assert (UV : 1 <= u * v) by nra. assert (I : 0 < / (u * v) <= 1) by (split; [apply Rinv_0_lt_compat; lra|rewrite <- Rinv_1; apply Rinv_le_contravar; lra]).
  rewrite Rabs_mult, (Rabs_pos_eq (/ (u * v))), Rabs_mult by lra. rewrite (Rabs_pos_eq (_ - _)) by lra.
  pose proof (Rabs_pos (a - b)). nra.
Qed.

Lemma pq_enc_max : forall L x, accurate L -> is_num x -> fval x <= 4 ->
  approx (oetf L TBT2100PQ x) (pq_encode (Rmax (fval x) 0)) (1 / 4000).
Proof.
  intros L x A N B0. assert (B : 0 <= Rmax (fval x) 0 <= 4) by (split; [apply Rmax_r|apply Rmax_lub; lra]). run_f32. cbv zeta.
  assert (N0 : is_num (f32_lit 0 0)) by (split; reflexivity).
  assert (V0 : fval (f32_lit 0 0) = 0) by reflexivity.
  destruct (acc_max _ A x (f32_lit 0 0) N N0) as (NX & VX). rewrite V0 in VX.
  set (e := l_max L x (f32_lit 0 0)) in *. set (X := Rmax (fval x) 0) in *.
  assert (C4 : approx (f32_lit 10000 0) 10000 0) by const_approx. apply const_val in C4. destruct C4 as (V4 & N4 & _).
  assert (CM : approx (f32_lit 15930176 8) m1 (1 / 100000000)) by (unfold m1; const_approx). destruct CM as (NM & EM).
  assert (CC2 : approx (f32_lit 18851563 6) c2 (1 / 1000000)) by (unfold c2; const_approx).
  assert (CC1 : approx (f32_lit 8359375 7) c1 0) by (unfold c1; const_approx).
  assert (CC3 : approx (f32_lit 186875 4) c3 0) by (unfold c3; const_approx).
  assert (C1 : approx (f32_lit 1 0) 1 0) by const_approx.
  assert (CE : approx (f32_lit 7884375 5) m2 0) by (unfold m2; const_approx). apply const_val in CE. destruct CE as (VE & NE & _).
  destruct (f32_div_num e (f32_lit 10000 0) NX N4) as (NY & VY); [lra|apply big_bound; rewrite VX, V4; apply Rabs_le; lra|].
  rewrite VX, V4 in VY. set (Y := X / 10000) in *. assert (YB : 0 <= Y <= 4 / 10000) by (unfold Y; lra).
  pose proof (pq_inner (l_pow L) _ _ Y (acc_pow _ A) NY VY NM ltac:(lra) EM) as (NYM & EYM).
  set (ym := l_pow L (f32_div e (f32_lit 10000 0)) (f32_lit 15930176 8)) in *.
  assert (PY : 0 <= power Y m1 <= 3 / 10).
  { split; [apply power_ge0|]. destruct (Req_dec Y 0) as [->|NZ]; [rewrite power_0; lra|].
    apply Rle_trans with (power (4 / 10000) (3 / 19)).
    - apply Rle_trans with (power Y (3 / 19)); [|apply power_le; lra]. rewrite !power_pos by lra. unfold Rpower. apply exp_le.
      pose proof (ln_le_0 Y ltac:(lra)). unfold m1. nra.
    - left. apply (power_below _ _ _ 3 19); simpl; lra. }
  assert (YM0 : 0 <= fval ym).
  { destruct (acc_pow _ A _ _ NY NM ltac:(rewrite VY; replace 0 with (rnd 0) by (apply round_0; typeclasses eauto); apply rnd_mono; lra)
      ltac:(apply Rabs_le_inv in EM; unfold m1 in EM; rewrite Rabs_pos_eq; lra)) as (P1 & P2 & P3). fold ym in P1, P2, P3.
    pose proof tiny_pos as TP. apply Rabs_le_inv in EM. unfold m1 in EM.
    destruct (Rlt_le_dec (fval (f32_div e (f32_lit 10000 0))) tiny) as [T|T]; [apply P3; lra|].
    set (y' := fval (f32_div e (f32_lit 10000 0))) in *.
    assert (Y1 : y' <= 1 / 2). { rewrite VY. replace (1 / 2) with (rnd (1 / 2)); [apply rnd_mono; lra|].
      replace (1 / 2) with (IZR 1 * bpow radix2 (-1)) by (change (bpow radix2 (-1)) with (/ 2); lra). apply rnd_exact; lia. }
    pose proof (ln_le_0 y' ltac:(lra)) as LN. pose proof ln_2. pose proof ln_tiny as LT.
    assert (LNT : -88 <= ln y') by (apply Rle_trans with (ln tiny); [rewrite LT; lra|apply ln_le; lra]).
    destruct (P1 T ltac:(nra)) as (_ & Q). apply Rabs_le_inv in Q. set (r := Rpower y' _) in *. assert (0 < r) by apply exp_pos.
    assert (pow_error y' (fval (f32_lit 15930176 8)) <= 1 / 2).
    { unfold pow_error. rewrite (Rabs_pos_eq (fval (f32_lit 15930176 8))), (Rabs_left1 (_ * ln y')) by nra. nra. }
    nra. }
  pose proof EYM as EYM'. apply Rabs_le_inv in EYM'. set (a := fval ym) in *.
  pose proof (exact_approx ym NYM) as HA. fold a in HA.
  (* numerator *)
  pose proof (approx_mul _ _ _ _ _ _ (31 / 100) 19 6 HA CC2) as H1. rewrite (Rabs_pos_eq a), (Rabs_pos_eq c2) in H1 by (unfold c2; lra).
  specialize (H1 ltac:(lra) ltac:(unfold c2; lra) ltac:(lra) ltac:(lra)).
  assert (B1 : 0 <= a * c2 <= 31 / 100 * 19) by (unfold c2; split; nra).
  pose proof (approx_add _ _ _ _ _ _ 7 H1 CC1) as H2. rewrite (Rabs_pos_eq (a * c2 + c1)) in H2 by (unfold c1; lra).
  specialize (H2 ltac:(unfold half_ulp, c1; lra) ltac:(lra)).
  (* denominator *)
  pose proof (approx_mul _ _ _ _ _ _ (31 / 100) 19 6 HA CC3) as H3. rewrite (Rabs_pos_eq a), (Rabs_pos_eq c3) in H3 by (unfold c3; lra).
  specialize (H3 ltac:(lra) ltac:(unfold c3; lra) ltac:(lra) ltac:(lra)).
  assert (B3 : 0 <= a * c3 <= 31 / 100 * 19) by (unfold c3; split; nra).
  pose proof (approx_add _ _ _ _ _ _ 7 H3 C1) as H4. rewrite (Rabs_pos_eq (a * c3 + 1)) in H4 by lra.
  specialize (H4 ltac:(unfold half_ulp; lra) ltac:(lra)).
  (* quotient *)
  assert (RB : forall y, 0 <= y <= 304 / 1000 -> 83 / 100 <= (c1 + c2 * y) / (1 + c3 * y) <= 983 / 1000).
  { intros y Hy. unfold c1, c2, c3. set (num := 8359375 / 10000000 + 18851563 / 1000000 * y). set (den := 1 + 186875 / 10000 * y).
    assert (D : 0 < den) by (unfold den; lra). assert (E : num / den * den = num) by (field; lra).
    split; apply Rmult_le_reg_r with den; try exact D; rewrite E; unfold num, den; lra. }
  pose proof (RB a ltac:(lra)) as RA. pose proof (RB (power Y m1) ltac:(lra)) as RY.
  replace (a * c2 + c1) with (c1 + c2 * a) in H2 by ring. replace (a * c3 + 1) with (1 + c3 * a) in H4 by ring.
  pose proof (approx_div2 _ _ _ _ _ _ (9 / 10) 1 (11 / 10) H2 H4) as H5. rewrite (Rabs_pos_eq (_ / _)) in H5 by lra.
  specialize (H5 ltac:(lra) ltac:(unfold half_ulp, c3; lra) ltac:(lra)).
  unfold half_ulp in H5. specialize (H5 ltac:(lra) ltac:(lra)).
  set (r := f32_div (f32_add _ _) _) in *. destruct H5 as (NR & ER). pose proof (pq_ratio a (power Y m1) YM0 (proj1 PY)) as PR.
  set (RR := (c1 + c2 * power Y m1) / (1 + c3 * power Y m1)) in *. set (RA' := (c1 + c2 * a) / (1 + c3 * a)) in *.
  assert (E5 : Rabs (fval r - RR) <= 66 / 10000000).
  { replace (fval r - RR) with ((fval r - RA') + (RA' - RR)) by ring. eapply Rle_trans; [apply Rabs_triang|]. lra. }
  pose proof E5 as E5'. apply Rabs_le_inv in E5'. set (r' := fval r) in *.
  eapply approx_weaken; [apply (pow_unit (l_pow L) r _ r' m2 (acc_pow _ A) NR NE eq_refl VE); unfold m2; lra|].
  unfold pq_encode. cbv zeta. fold Y. fold RR.
  pose proof (power_base m2 r' RR (984 / 1000) ltac:(unfold m2; lra) ltac:(lra) ltac:(lra)) as PB.
  assert (PD : power (984 / 1000) (m2 - 1) <= 2 / 5).
  { rewrite power_pos by lra. unfold Rpower. pose proof (ln_le_sub (984 / 1000) ltac:(lra)) as LL.
    apply Rle_trans with (exp (- (12 / 10))); [apply exp_le; unfold m2; nra|]. rewrite exp_Ropp.
    assert (25 / 10 <= exp (12 / 10)).
    { replace (12 / 10) with (6 / 10 + 6 / 10) by lra. rewrite exp_plus. pose proof (exp_ineq1_le (6 / 10)). nra. }
    replace (2 / 5) with (/ (25 / 10)) by lra. apply Rinv_le_contravar; lra. }
  pose proof (power_ge0 (984 / 1000) (m2 - 1)).
  assert (m2 * power (984 / 1000) (m2 - 1) * Rabs (r' - RR) <= 79 * (2 / 5) * (66 / 10000000)).
  { assert (M2 : 0 <= m2 <= 79) by (unfold m2; lra).
    apply Rmult_le_compat; [apply Rmult_le_pos; lra|apply Rabs_pos|apply Rmult_le_compat; lra|exact E5]. }
  eapply Rle_trans; [exact PB|]. unfold m2 in *. lra.
Qed.

Lemma pq_enc_ok : forall L x, accurate L -> is_num x -> 0 <= fval x <= 4 ->
  approx (oetf L TBT2100PQ x) (pq_encode (fval x)) (1 / 4000).
Proof. intros L x A N B. pose proof (pq_enc_max L x A N ltac:(lra)) as H. rewrite Rmax_left in H by lra. exact H. Qed.

(** * Decoding *)

Lemma gamma_dec_ok : forall L x, accurate L -> is_num x -> 0 <= fval x <= 10001 / 10000 ->
  approx (eotf L TGamma22 x) (power (fval x) (22 / 10)) (1 / 1000000) /\
  approx (eotf L TGamma28 x) (power (fval x) (28 / 10)) (1 / 1000000).
Proof.
  intros L x A N B. run_f32. split.
  - assert (C : approx (f32_div (f32_lit 22 0) (f32_lit 10 0)) (22 / 10) (2 / 10000000)) by const_approx. destruct C as (NC & EC).
    eapply approx_le; [apply (decode_power (l_pow L) x _ (fval x) (22 / 10) 0 (acc_pow _ A) (exact_approx x N) NC (proj1 B) ltac:(lra) ltac:(lra) ltac:(lra) EC)|lra].
  - assert (C : approx (f32_div (f32_lit 28 0) (f32_lit 10 0)) (28 / 10) (2 / 10000000)) by const_approx. destruct C as (NC & EC).
    eapply approx_le; [apply (decode_power (l_pow L) x _ (fval x) (28 / 10) 0 (acc_pow _ A) (exact_approx x N) NC (proj1 B) ltac:(lra) ltac:(lra) ltac:(lra) EC)|lra].
Qed.

(** [pow ((x + b) / a)] *)
Lemma dec_curve : forall p x y X Y a A b Bv, pow_accurate p -> is_num x -> is_num y -> fval x = X ->
  0 <= X -> (X + Bv) / A <= 1001 / 1000 -> X <= 10001 / 10000 -> 2 <= Y <= 3 -> Rabs (fval y - Y) <= 2 / 10000000 ->
  approx a A (1 / 10000000) -> 1 <= A <= 11 / 10 -> approx b Bv (1 / 100000000) -> 1 / 100 <= Bv <= 1 / 10 ->
  approx (p (f32_div (f32_add x b) a) y) (power ((X + Bv) / A) Y) (2 / 1000000).
Proof.
  intros p x y X Y a A b Bv P NX NY EX X0 XA X1 YB YE HA AB HB BB.
  pose proof (exact_approx x NX) as HX. rewrite EX in HX.
  pose proof (approx_add _ _ _ _ _ _ (12 / 10) HX HB) as H1. rewrite (Rabs_pos_eq (X + Bv)) in H1 by lra. specialize (H1 ltac:(lra) ltac:(lra)).
  assert (Q0 : 0 < / A <= 1) by (split; [apply Rinv_0_lt_compat; lra|rewrite <- Rinv_1; apply Rinv_le_contravar; lra]).
  assert (Q : 9 / 1000 <= (X + Bv) / A).
  { apply Rmult_le_reg_r with A; [lra|]. replace ((X + Bv) / A * A) with (X + Bv) by (field; lra). lra. }
  pose proof (approx_div2 _ _ _ _ _ _ (99 / 100) (1001 / 1000) (11 / 10) H1 HA) as H2. rewrite (Rabs_pos_eq (_ / _)) in H2 by lra.
  unfold half_ulp in H2. specialize (H2 ltac:(lra) ltac:(lra) XA ltac:(lra) ltac:(lra)).
  eapply approx_le; [apply (decode_power p _ y _ Y (3 / 10000000) P); try assumption|]; try lra.
  - eapply approx_le; [exact H2|lra].
  - destruct H2 as (_ & H2). apply Rabs_le_inv in H2. lra.
Qed.

Lemma srgb_dec_ok : forall L x, accurate L -> is_num x -> 0 <= fval x <= 10001 / 10000 ->
  approx (eotf L TSRGB x) (srgb_decode (fval x)) (3 / 1000000).
Proof.
  intros L x A N B. run_f32.
  assert (CT : approx (f32_lit 4045 5) (10858214 / 268435456) 0) by const_approx. apply const_val in CT. destruct CT as (VT & NT & _).
  assert (LIN : approx (f32_lit 1292 2) (1292 / 100) (5 / 10000000)) by const_approx.
  assert (CA : approx (f32_lit 1055 3) (1055 / 1000) (1 / 10000000)) by const_approx.
  assert (CB : approx (f32_lit 55 3) (55 / 1000) (1 / 100000000)) by const_approx.
  assert (CE : approx (f32_lit 24 1) (12 / 5) (2 / 10000000)) by const_approx. destruct CE as (NE & EE).
  pose proof (acc_le _ A x (f32_lit 4045 5) N NT ltac:(lra) ltac:(lra)) as CMP. rewrite VT in CMP.
  destruct (l_le L x (f32_lit 4045 5)).
  - assert (XT : fval x <= 10858214 / 268435456) by (apply CMP; reflexivity).
    unfold srgb_decode. destruct (Rle_dec (fval x) (4045 / 100000)) as [C|C]; [|lra].
    pose proof (approx_div2 _ _ _ _ _ _ 12 (1 / 100) (1 / 10) (exact_approx x N) LIN) as H.
    assert (Rabs (fval x / (1292 / 100)) <= 1 / 100) by (apply Rabs_le; lra).
    specialize (H ltac:(lra) ltac:(lra) ltac:(lra) ltac:(lra) ltac:(lra)). eapply approx_le; [exact H|unfold half_ulp; lra].
  - assert (XT : ~ fval x <= 10858214 / 268435456) by (intros C; apply CMP in C; discriminate C).
    assert (G : 10858215 / 268435456 <= fval x).
    { destruct (num_multiple x (-5) N ltac:(lia)) as (j & E); [change (bpow radix2 (-5)) with (/ 32); lra|].
      change (bpow radix2 (-5 - 23)) with (/ 268435456) in E. rewrite E in *.
      assert (J : (10858214 < j)%Z) by (apply lt_IZR; lra). assert (J' : 10858215 <= IZR j) by (apply IZR_le; lia). lra. }
    unfold srgb_decode. destruct (Rle_dec (fval x) (4045 / 100000)) as [C|C]; [lra|].
    eapply approx_le; [apply (dec_curve (l_pow L) x _ (fval x) (12 / 5) _ (1055 / 1000) _ (55 / 1000) (acc_pow _ A) N NE eq_refl
      (proj1 B) ltac:(lra) (proj2 B) ltac:(lra) EE CA ltac:(lra) CB ltac:(lra))|lra].
Qed.

Lemma sdr_dec_ok : forall L x, accurate L -> is_num x -> 0 <= fval x <= 10001 / 10000 ->
  approx (eotf L TSDR x) (sdr_decode (fval x)) (4 / 1000000).
Proof.
  intros L x A N B. run_f32.
  assert (CT : approx (f32_lit 81490956 9) (10937531 / 134217728) 0) by const_approx. apply const_val in CT. destruct CT as (VT & NT & _).
  assert (LIN : approx (f32_lit 45 1) (9 / 2) 0) by const_approx.
  assert (CA : approx (f32_lit 1099 3) (1099 / 1000) (1 / 10000000)) by const_approx.
  assert (CB : approx (f32_lit 993 4) (993 / 10000) (1 / 100000000)) by const_approx.
  assert (CE : approx (f32_div (f32_lit 1 0) (f32_lit 45 2)) (20 / 9) (2 / 10000000)) by const_approx. destruct CE as (NE & EE).
  pose proof (acc_lt _ A x (f32_lit 81490956 9) N NT ltac:(lra) ltac:(lra)) as CMP. rewrite VT in CMP.
  destruct (l_lt L x (f32_lit 81490956 9)).
  - assert (XT : fval x < 10937531 / 134217728) by (apply CMP; reflexivity).
    unfold sdr_decode. destruct (Rlt_dec (fval x) (81490956 / 1000000000)) as [C|C].
    + pose proof (approx_div2 _ _ _ _ _ _ 4 (2 / 100) (1 / 10) (exact_approx x N) LIN) as H.
      assert (Rabs (fval x / (9 / 2)) <= 2 / 100) by (apply Rabs_le; lra).
      specialize (H ltac:(lra) ltac:(lra) ltac:(lra) ltac:(lra) ltac:(lra)). eapply approx_le; [exact H|unfold half_ulp; lra].
    + exfalso. destruct (num_multiple x (-4) N ltac:(lia)) as (j & E); [change (bpow radix2 (-4)) with (/ 16); lra|].
      change (bpow radix2 (-4 - 23)) with (/ 134217728) in E. rewrite E in *.
      assert (J : (j < 10937531)%Z) by (apply lt_IZR; lra). assert (J' : IZR j <= 10937530) by (apply IZR_le; lia). lra.
  - assert (XT : ~ fval x < 10937531 / 134217728) by (intros C; apply CMP in C; discriminate C).
    unfold sdr_decode. destruct (Rlt_dec (fval x) (81490956 / 1000000000)) as [C|C]; [lra|].
    eapply approx_le; [apply (dec_curve (l_pow L) x _ (fval x) (20 / 9) _ (1099 / 1000) _ (993 / 10000) (acc_pow _ A) N NE eq_refl
      (proj1 B) ltac:(lra) (proj2 B) ltac:(lra) EE CA ltac:(lra) CB ltac:(lra))|lra].
Qed.

Lemma exp_25 : exp (25 / 10) <= 13.
Proof.
  pose proof (exp_close (25 / 40) ltac:(lra)) as (H & _).
  assert (C : 53 / 100 <= exp (- (25 / 40))) by (eapply Rle_trans; [|exact H]; unfold exp_poly; lra).
  replace (25 / 10) with (25 / 40 + (25 / 40 + (25 / 40 + 25 / 40))) by lra. rewrite !exp_plus.
  rewrite exp_Ropp in C. set (q := exp (25 / 40)) in *. assert (Q : 0 < q) by apply exp_pos.
  assert (QB : q <= 100 / 53). { apply Rmult_le_compat_r with (r := q) in C; [|lra]. rewrite Rinv_l in C by lra. lra. }
  assert (Q2 : q * q <= 36 / 10) by nra. nra.
Qed.

(** ln e' is almost 1 *)
Lemma ln_e' : Rabs (ln e' - 1) <= 1 / 10000000.
Proof.
  replace 1 with (ln (exp 1)) at 1 by apply ln_exp.
  assert (E : Rabs (e' - exp 1) <= 1 / 10000000).
  { pose proof (exp_close (1 / 2) ltac:(lra)) as (H1 & H2).
    assert (B : 606530659 / 1000000000 <= exp (- (1 / 2)) <= 606530660 / 1000000000) by (unfold exp_poly in *; lra).
    rewrite exp_Ropp in B. replace 1 with (1 / 2 + 1 / 2) at 1 by lra. rewrite exp_plus. set (q := exp (1 / 2)) in *. assert (Q : 0 < q) by apply exp_pos.
    assert (A1 : 606530659 / 1000000000 * q <= 1) by (destruct B as (B & _); apply Rmult_le_compat_r with (r := q) in B; [|lra]; rewrite Rinv_l in B by lra; exact B).
    assert (A2 : 1 <= 606530660 / 1000000000 * q) by (destruct B as (_ & B); apply Rmult_le_compat_r with (r := q) in B; [|lra]; rewrite Rinv_l in B by lra; exact B).
    assert (QB : 16487212600 / 10000000000 <= q <= 16487212728 / 10000000000) by lra.
    unfold e'. apply Rabs_le. split; nra. }
  eapply Rle_trans; [apply (ln_lip e' (exp 1) 2); [lra|unfold e'; lra|apply Rabs_le_inv in E; unfold e' in *; lra]|]. lra.
Qed.

Lemma hlg_dec_max : forall L x, accurate L -> is_num x -> fval x <= 10001 / 10000 ->
  approx (eotf L TBT2100HLG x) (hlg_decode (Rmax (fval x) 0)) (5 / 1000000).
Proof.
  intros L x A N B0. assert (B : 0 <= Rmax (fval x) 0 <= 10001 / 10000) by (split; [apply Rmax_r|apply Rmax_lub; lra]). run_f32. cbv zeta.
  assert (N0 : is_num (f32_lit 0 0)) by (split; reflexivity).
  assert (V0 : fval (f32_lit 0 0) = 0) by reflexivity.
  destruct (acc_max _ A x (f32_lit 0 0) N N0) as (NM & VM). rewrite V0 in VM.
  set (e := l_max L x (f32_lit 0 0)) in *.
  assert (CT : approx (f32_lit 5 1) (1 / 2) 0) by const_approx. apply const_val in CT. destruct CT as (VT & NT & _).
  assert (C2 : approx (f32_lit 2 0) 2 0) by const_approx. apply const_val in C2. destruct C2 as (V2 & N2 & _).
  assert (C3 : approx (f32_lit 3 0) 3 0) by const_approx. apply const_val in C3. destruct C3 as (V3 & N3 & _).
  assert (C12 : approx (f32_lit 12 0) 12 0) by const_approx. apply const_val in C12. destruct C12 as (V12 & N12 & _).
  assert (CA : approx (f32_lit 17883277 8) ha (1 / 100000000)) by (unfold ha; const_approx).
  assert (CB : approx (f32_lit 28466892 8) hb (3 / 100000000)) by (unfold hb; const_approx).
  assert (CC : approx (f32_lit 5599107 7) hc (3 / 100000000)) by (unfold hc; const_approx).
  assert (CE : approx (f32_lit 271828182845904523536 20) (11401300 / 4194304) 0) by const_approx. apply const_val in CE. destruct CE as (VE & NE & _).
  pose proof (acc_le _ A e _ NM NT ltac:(lra) ltac:(lra)) as CMP. rewrite VT, VM in CMP.
  pose proof (exact_approx e NM) as HE. rewrite VM in HE. set (X := Rmax (fval x) 0) in *.
  destruct (l_le L e (f32_lit 5 1)).
  - assert (XT : X <= 1 / 2) by (apply CMP; reflexivity). unfold hlg_decode. destruct (Rle_dec X (1 / 2)); [|lra].
    pose proof (pow_unit (l_pow L) e (f32_lit 2 0) X 2 (acc_pow _ A) NM N2 VM V2 ltac:(lra) ltac:(lra)) as H.
    assert (E2 : power X 2 = X * X).
    { replace 2 with (1 + 1) by ring. rewrite power_add, power_1_x by lra. ring. }
    rewrite E2 in H.
    eapply approx_le; [apply (approx_div _ _ _ _ 3 1 H N3 V3)|]; try (unfold half_ulp; lra). rewrite Rabs_pos_eq by nra. nra.
  - assert (XT : ~ X <= 1 / 2) by (intros C; apply CMP in C; discriminate C).
    unfold hlg_decode. destruct (Rle_dec X (1 / 2)) as [C|C]; [lra|].
    (* exponent *)
    pose proof (approx_sub _ _ _ _ _ _ (1 / 2) HE CC) as H1.
    assert (XC : Rabs (X - hc) <= 45 / 100) by (unfold hc; apply Rabs_le; lra). specialize (H1 ltac:(lra) ltac:(lra)).
    assert (QB : -1 / 2 <= (X - hc) / ha <= 247 / 100).
    { assert (E : (X - hc) / ha * ha = X - hc) by (unfold ha; field). split; apply Rmult_le_reg_r with ha; try (unfold ha; lra); rewrite E; unfold ha, hc; lra. }
    pose proof (approx_div2 _ _ _ _ _ _ (178 / 1000) (247 / 100) 3 H1 CA) as H2.
    assert (QA : Rabs ((X - hc) / ha) <= 247 / 100) by (apply Rabs_le; lra).
    unfold half_ulp in H2. specialize (H2 ltac:(lra) ltac:(unfold ha; lra) QA ltac:(lra) ltac:(lra)).
    set (y := f32_div _ _) in *. set (Y := (X - hc) / ha) in *. destruct H2 as (NY & EY).
    assert (EY2 : Rabs (fval y - Y) <= 7 / 10000000) by lra. pose proof EY2 as EY3. apply Rabs_le_inv in EY3.
    (* power *)
    set (g := f32_lit 271828182845904523536 20) in *. set (b := 11401300 / 4194304) in *. set (y' := fval y) in *.
    pose proof ln_e' as LE.
    assert (LB : Rabs (ln b - ln e') <= 5 / 100000000).
    { eapply Rle_trans; [apply (ln_lip b e' 2); unfold b, e'; lra|]. assert (Rabs (b - e') <= 1 / 10000000) by (unfold b, e'; apply Rabs_le; lra). lra. }
    apply Rabs_le_inv in LE. apply Rabs_le_inv in LB.
    assert (L1 : 999 / 1000 <= ln b <= 1001 / 1000) by lra.
    assert (LO : - (6 / 10) <= y' * ln b <= 248 / 100) by (split; nra).
    destruct (acc_pow _ A g y NE NY) as (P1 & _ & _); [rewrite VE; unfold b; lra|fold y'; apply Rabs_le; lra|].
    rewrite VE in P1. fold y' in P1.
    destruct P1 as (NP & EP); [apply Rle_trans with (bpow radix2 0); [apply bpow_le; lia|change (bpow radix2 0) with 1; unfold b; lra]|lra|].
    assert (PX : 0 < Rpower b y' <= 13).
    { split; [apply exp_pos|]. eapply Rle_trans; [|apply exp_25]. unfold Rpower. apply exp_le. lra. }
    assert (ER : pow_error b y' * Rpower b y' <= 12 / 1000000).
    { apply Rle_trans with (9 / 10000000 * 13); [|lra]. apply Rmult_le_compat; try lra; unfold pow_error.
      - pose proof (Rabs_pos y'). pose proof (Rabs_pos (y' * ln b)). lra.
      - assert (Rabs y' <= 248 / 100) by (apply Rabs_le; lra). assert (Rabs (y' * ln b) <= 248 / 100) by (apply Rabs_le; lra). lra. }
    assert (PE : Rabs (Rpower b y' - power e' Y) <= 11 / 1000000).
    { rewrite power_pos by (unfold e'; lra). unfold Rpower.
      assert (LO2 : Y * ln e' <= 248 / 100) by nra.
      eapply Rle_trans; [apply (exp_lip _ _ 13); (eapply Rle_trans; [apply exp_le with (b := 25 / 10); lra|apply exp_25])|].
      assert (D : Rabs (y' * ln b - Y * ln e') <= 84 / 100000000).
      { replace (y' * ln b - Y * ln e') with ((y' - Y) * ln b + Y * (ln b - ln e')) by ring.
        eapply Rle_trans; [apply Rabs_triang|]. rewrite !Rabs_mult.
        assert (Rabs (y' - Y) * Rabs (ln b) <= 7 / 10000000 * (1001 / 1000)) by (apply Rmult_le_compat; try apply Rabs_pos; [exact EY2|apply Rabs_le; lra]).
        assert (Rabs Y * Rabs (ln b - ln e') <= 247 / 100 * (5 / 100000000)) by (apply Rmult_le_compat; try apply Rabs_pos; [exact QA|apply Rabs_le; lra]).
        lra. }
      lra. }
    assert (HP : approx (l_pow L g y) (power e' Y) (23 / 1000000)).
    { split; [exact NP|]. replace (fval (l_pow L g y) - power e' Y) with ((fval (l_pow L g y) - Rpower b y') + (Rpower b y' - power e' Y)) by ring.
      eapply Rle_trans; [apply Rabs_triang|]. lra. }
    assert (PB : 0 <= power e' Y <= 14) by (split; [apply power_ge0|apply Rabs_le_inv in PE; lra]).
    pose proof (approx_add _ _ _ _ _ _ 15 HP CB) as H3. rewrite (Rabs_pos_eq (_ + hb)) in H3 by (unfold hb; lra).
    specialize (H3 ltac:(unfold hb; lra) ltac:(lra)).
    eapply approx_le; [apply (approx_div _ _ _ _ 12 16 H3 N12 V12)|].
    + lra.
    + rewrite Rabs_pos_eq by (unfold hb; lra). unfold half_ulp, hb. lra.
    + lra.
    + unfold half_ulp. lra.
Qed.

Lemma hlg_dec_ok : forall L x, accurate L -> is_num x -> 0 <= fval x <= 10001 / 10000 ->
  approx (eotf L TBT2100HLG x) (hlg_decode (fval x)) (5 / 1000000).
Proof. intros L x A N B. pose proof (hlg_dec_max L x A N ltac:(lra)) as H. rewrite Rmax_left in H by lra. exact H. Qed.

Lemma power_le_1 : forall x y, 0 <= x <= 1 -> 0 < y -> power x y <= 1.
Proof. intros x y X Y. apply Rle_trans with (power 1 y); [apply power_le; lra|rewrite power_1; lra]. Qed.

Lemma max0_lip : forall a b, Rabs (Rmax a 0 - Rmax b 0) <= Rabs (a - b).
Proof. intros a b. unfold Rmax, Rabs. repeat destruct (Rle_dec _ _); repeat destruct (Rcase_abs _); lra. Qed.

Lemma exp_neg_1 : exp (-11 / 10) <= 1 / 2.
Proof. replace (-11 / 10) with (- (11 / 10)) by lra. rewrite exp_Ropp. pose proof (exp_ineq1_le (11 / 10)). replace (1 / 2) with (/ 2) by lra. apply Rinv_le_contravar; lra. Qed.

(** The first power of the decoder: off by at most 5e-7, or below 1/2 *)
Lemma pq_first : forall p x y X, pow_accurate p -> is_num x -> fval x = X -> 0 <= X <= 1 -> is_num y -> Rabs (fval y - 1 / m2) <= 1 / 1000000000 ->
  is_num (p x y) /\ 0 <= fval (p x y) <= 1 + 5 / 10000000 /\
  (Rabs (fval (p x y) - power X (1 / m2)) <= 5 / 10000000 \/ (fval (p x y) <= 6 / 10 /\ power X (1 / m2) <= 6 / 10)).
Proof.
  intros p x y X P NX EX XB NY EY. pose proof EY as EY'. apply Rabs_le_inv in EY'. unfold m2 in EY'. set (f := fval y) in *.
  destruct (P x y NX NY) as (P1 & _ & P3); [lra|fold f; rewrite Rabs_pos_eq; lra|]. rewrite EX in *. fold f in P1, P3.
  pose proof ln_2 as L2. pose proof ln_tiny as LT. pose proof tiny_pos as TP. pose proof exp_neg_1 as E1.
  assert (PT : forall z, 1268 / 100000 <= z -> Rpower tiny z <= 1 / 2).
  { intros z Z. eapply Rle_trans; [|exact E1]. unfold Rpower. apply exp_le. rewrite LT. nra. }
  assert (B122 : bpow radix2 (-122) <= / 1099511627776) by (change (/ 1099511627776) with (bpow radix2 (-40)); apply bpow_le; lia).
  destruct (Rlt_le_dec X tiny) as [T|T].
  - destruct (P3 T ltac:(lra)) as (N & B). pose proof (PT f ltac:(lra)). split; [exact N|]. split; [lra|]. right. split; [lra|].
    apply Rle_trans with (power tiny (1 / m2)); [apply power_le; unfold m2; lra|]. rewrite power_pos by exact TP.
    pose proof (PT (1 / m2) ltac:(unfold m2; lra)). lra.
  - pose proof (ln_le_0 X ltac:(lra)) as LN.
    assert (LNT : -88 <= ln X) by (apply Rle_trans with (ln tiny); [rewrite LT; lra|apply ln_le; lra]).
    assert (LF : -2 <= f * ln X <= 0) by (split; nra).
    destruct (P1 T ltac:(lra)) as (N & B). rewrite <- power_pos in B by lra.
    assert (PU : 0 <= power X f <= 1) by (split; [apply power_ge0|apply power_le_1; lra]).
    assert (ER : pow_error X f * power X f <= 4 / 10000000).
    { unfold pow_error. rewrite (Rabs_pos_eq f), (Rabs_left1 (f * ln X)) by lra. rewrite power_pos in * by lra.
      pose proof (ue_half (- (f * ln X)) ltac:(lra)) as U. rewrite Ropp_involutive in U. unfold Rpower in *. nra. }
    assert (EX2 : Rabs (power X f - power X (1 / m2)) <= 9 / 100000000).
    { rewrite !power_pos by lra. unfold Rpower.
      eapply Rle_trans; [apply (exp_lip _ _ 1); (eapply Rle_trans; [apply (exp_le _ 0)|rewrite exp_0; lra]); unfold m2; nra|].
      replace (f * ln X - 1 / m2 * ln X) with ((f - 1 / m2) * ln X) by ring. rewrite Rabs_mult, (Rabs_left1 (ln X)) by lra.
      assert (Rabs (f - 1 / m2) * - ln X <= 1 / 1000000000 * 88) by (apply Rmult_le_compat; try lra; apply Rabs_pos). lra. }
    split; [exact N|]. pose proof B as B'. apply Rabs_le_inv in B'. split.
    + split; [|lra]. assert (PP : 0 < power X f) by (apply power_gt0; lra).
      assert (pow_error X f <= 1 / 2) by (unfold pow_error; rewrite (Rabs_pos_eq f), (Rabs_left1 (f * ln X)) by lra; lra). nra.
    + left. replace (fval (p x y) - power X (1 / m2)) with ((fval (p x y) - power X f) + (power X f - power X (1 / m2))) by ring.
      eapply Rle_trans; [apply Rabs_triang|]. lra.
Qed.

Lemma pq_dec_ok : forall L x, accurate L -> is_num x -> 0 <= fval x <= 1 ->
  approx (eotf L TBT2100PQ x) (pq_decode (fval x)) 6.
Proof.
  intros L x A N B. run_f32. cbv zeta.
  assert (N0 : is_num (f32_lit 0 0)) by (split; reflexivity).
  assert (V0 : fval (f32_lit 0 0) = 0) by reflexivity.
  destruct (acc_max _ A x (f32_lit 0 0) N N0) as (NM & VM). rewrite V0, Rmax_left in VM by lra.
  set (i := l_max L x (f32_lit 0 0)) in *. set (X := fval x) in *.
  assert (C4 : approx (f32_lit 10000 0) 10000 0) by const_approx.
  assert (CC2 : approx (f32_lit 18851563 6) c2 (1 / 1000000)) by (unfold c2; const_approx).
  assert (CC1 : approx (f32_lit 8359375 7) c1 0) by (unfold c1; const_approx).
  assert (CC3 : approx (f32_lit 186875 4) c3 0) by (unfold c3; const_approx).
  assert (CF : approx (f32_div (f32_lit 1 0) (f32_lit 7884375 5)) (1 / m2) (1 / 1000000000)) by (unfold m2; const_approx). destruct CF as (NF & EF).
  assert (CG : approx (f32_div (f32_lit 1 0) (f32_lit 15930176 8)) (1 / m1) (6 / 10000000)) by (unfold m1; const_approx). destruct CG as (NG & EG).
  destruct (pq_first (l_pow L) i _ X (acc_pow _ A) NM VM B NF EF) as (NE & EB & EE).
  set (e := l_pow L i _) in *. set (E := power X (1 / m2)) in *.
  assert (E01 : 0 <= E <= 1) by (unfold E; split; [apply power_ge0|apply power_le_1; unfold m2; lra]).
  pose proof (exact_approx e NE) as HE. set (ev := fval e) in *.
  (* numerator *)
  pose proof (approx_sub _ _ _ _ _ _ 1 HE CC1) as H1.
  assert (A1 : Rabs (ev - c1) <= 9 / 10) by (unfold c1; apply Rabs_le; lra). specialize (H1 ltac:(lra) ltac:(lra)).
  destruct H1 as (NS & ES). destruct (acc_max _ A _ _ NS N0) as (NN & VN). rewrite V0 in VN.
  set (n := l_max L (f32_sub e (f32_lit 8359375 7)) (f32_lit 0 0)) in *. set (sv := fval (f32_sub e (f32_lit 8359375 7))) in *.
  assert (HN : approx n (Rmax (E - c1) 0) (6 / 10000000)).
  { split; [exact NN|]. rewrite VN. unfold half_ulp in ES. destruct EE as [EE|(EE1 & EE2)].
    - eapply Rle_trans; [apply max0_lip|]. replace (sv - (E - c1)) with ((sv - (ev - c1)) + (ev - E)) by ring.
      eapply Rle_trans; [apply Rabs_triang|]. lra.
    - apply Rabs_le_inv in ES. unfold c1 in *. rewrite !Rmax_right by lra. rewrite Rminus_diag_eq, Rabs_R0 by reflexivity. lra. }
  (* denominator *)
  pose proof (approx_mul _ _ _ _ _ _ (1 + 5 / 10000000) 19 20 HE CC3) as H2. rewrite (Rabs_pos_eq ev), (Rabs_pos_eq c3) in H2 by (unfold c3; lra).
  specialize (H2 ltac:(lra) ltac:(unfold c3; lra) ltac:(lra) ltac:(lra)).
  pose proof (approx_sub _ _ _ _ _ _ 20 CC2 H2) as H3.
  assert (A3 : Rabs (c2 - ev * c3) <= 19) by (unfold c2, c3; apply Rabs_le; lra).
  unfold half_ulp in H3. specialize (H3 ltac:(lra) ltac:(lra)). set (d := f32_sub (f32_lit 18851563 6) _) in *. destruct H3 as (ND & ED).
  assert (DP : 164 / 1000 <= c2 - c3 * E) by (unfold c2, c3; lra).
  assert (QP : 0 <= Rmax (E - c1) 0 / (c2 - c3 * E) <= 1).
  { assert (M : 0 <= Rmax (E - c1) 0 <= c2 - c3 * E) by (split; [apply Rmax_r|apply Rmax_lub; unfold c1, c2, c3; lra]).
    assert (I : 0 < / (c2 - c3 * E)) by (apply Rinv_0_lt_compat; lra). unfold Rdiv. split; [apply Rmult_le_pos; lra|].
    apply Rmult_le_reg_r with (c2 - c3 * E); [lra|]. rewrite Rmult_assoc, Rinv_l by lra. lra. }
  set (W := Rmax (E - c1) 0 / (c2 - c3 * E)) in *.
  (* quotient *)
  assert (HW : approx (f32_div n d) W (84 / 1000000) /\ 0 <= fval (f32_div n d)).
  { assert (POS : is_num (f32_div n d) -> fval (f32_div n d) = rnd (fval n / fval d) -> 0 < fval d -> 0 <= fval (f32_div n d)).
    { intros _ -> DD. replace 0 with (rnd 0) by (apply round_0; typeclasses eauto). apply rnd_mono. apply Rmult_le_pos; [rewrite VN; apply Rmax_r|left; apply Rinv_0_lt_compat, DD]. }
    assert (DD : 16 / 100 <= fval d) by (apply Rabs_le_inv in ED; unfold c2, c3 in *; lra).
    destruct EE as [EE|(EE1 & EE2)].
    - assert (HD : approx d (c2 - c3 * E) (130 / 10000000)).
      { split; [exact ND|]. replace (fval d - (c2 - c3 * E)) with ((fval d - (c2 - ev * c3)) - c3 * (ev - E)) by ring.
        unfold Rminus at 1. eapply Rle_trans; [apply Rabs_triang|]. rewrite Rabs_Ropp, Rabs_mult, (Rabs_pos_eq c3) by (unfold c3; lra).
        unfold c3 in *. lra. }
      pose proof (approx_div2 _ _ _ _ _ _ (1639 / 10000) 1 (11 / 10) HN HD) as H4. fold W in H4. rewrite (Rabs_pos_eq W) in H4 by lra.
      unfold half_ulp in H4. specialize (H4 ltac:(lra) ltac:(lra) ltac:(lra) ltac:(lra) ltac:(lra)).
      split; [eapply approx_le; [exact H4|lra]|]. destruct (f32_div_num n d NN ND) as (N4 & V4); [lra| |apply POS; try assumption; lra].
      apply big_bound. destruct HN as (_ & HN). apply Rabs_le_inv in HN.
      assert (M : 0 <= fval n <= 2) by (split; [rewrite VN; apply Rmax_r|]; assert (Rmax (E - c1) 0 <= 1) by (apply Rmax_lub; unfold c1; lra); lra).
      assert (I : 0 < / fval d <= 10) by (split; [apply Rinv_0_lt_compat; lra|replace 10 with (/ (1 / 10)) by lra; apply Rinv_le_contravar; lra]).
      unfold Rdiv. rewrite Rabs_pos_eq by (apply Rmult_le_pos; lra). nra.
    - assert (FN : fval n = 0).
      { rewrite VN. apply Rmax_right. unfold half_ulp in ES. apply Rabs_le_inv in ES. unfold c1 in *. lra. }
      assert (W0 : W = 0) by (unfold W; rewrite Rmax_right by (unfold c1; lra); unfold Rdiv; ring).
      destruct (f32_div_num n d NN ND) as (N4 & V4); [lra|rewrite FN; unfold Rdiv; rewrite Rmult_0_l, Rabs_R0; apply bpow_ge_0|].
      assert (V5 : fval (f32_div n d) = 0) by (rewrite V4, FN; unfold Rdiv; rewrite Rmult_0_l; apply round_0; typeclasses eauto).
      split; [|lra]. split; [exact N4|]. rewrite V5, W0, Rminus_0_r, Rabs_R0. lra. }
  destruct HW as ((NW & EW) & PW). set (w := f32_div n d) in *. set (w' := fval w) in *. pose proof EW as EW'. apply Rabs_le_inv in EW'.
  (* second power *)
  pose proof EG as EG'. apply Rabs_le_inv in EG'. set (g := f32_div (f32_lit 1 0) (f32_lit 15930176 8)) in *. set (gv := fval g) in *.
  assert (M1 : 627 / 100 <= 1 / m1 <= 628 / 100) by (unfold m1; lra).
  set (Bs := 1 + 84 / 1000000).
  assert (BB : forall z, 0 <= z <= 63 / 10 -> power Bs z <= 1 + 6 / 10000).
  { intros z Z. rewrite power_pos by (unfold Bs; lra). unfold Rpower. pose proof (ln_le_sub Bs ltac:(unfold Bs; lra)) as LL.
    assert (L0 : 0 <= ln Bs) by (left; rewrite <- ln_1; apply ln_increasing; unfold Bs; lra).
    assert (D : Rabs (z * ln Bs) <= 53 / 100000) by (rewrite Rabs_pos_eq; unfold Bs in *; nra).
    pose proof (exp_near_one _ _ D ltac:(lra)) as T. apply Rabs_le_inv in T. lra. }
  assert (H5 : approx (l_pow L w g) (power W (1 / m1)) (54 / 100000)).
  { eapply approx_weaken with (v := power w' gv) (e := (38 / 100000000 + gv / 10000000 + 125 / 1000000000 * (1 / 100)) * (1 + 6 / 10000)).
    - apply (pow_abs (l_pow L) w g w' gv _ _ (acc_pow _ A)); try assumption; try reflexivity; try lra.
      + apply Rle_trans with (power Bs gv); [apply power_le; unfold Bs; lra|apply BB; lra].
      + nra.
    - replace (power w' gv - power W (1 / m1)) with ((power w' gv - power W gv) + (power W gv - power W (1 / m1))) by ring.
      eapply Rle_trans; [apply Rabs_triang|].
      pose proof (power_base gv w' W Bs ltac:(lra) ltac:(unfold Bs; lra) ltac:(unfold Bs; lra)) as Q1.
      pose proof (BB (gv - 1) ltac:(lra)) as Q2. pose proof (power_ge0 Bs (gv - 1)) as Q3.
      assert (Q4 : gv * power Bs (gv - 1) * Rabs (w' - W) <= 63 / 10 * (1 + 6 / 10000) * (84 / 1000000)).
      { apply Rmult_le_compat; [apply Rmult_le_pos; lra|apply Rabs_pos|apply Rmult_le_compat; lra|exact EW]. }
      pose proof (power_exponent W gv (1 / m1) 6 ltac:(lra) ltac:(lra) ltac:(lra) ltac:(lra)). lra. }
  assert (PB : 0 <= power W (1 / m1) <= 1) by (split; [apply power_ge0|apply power_le_1; lra]).
  unfold pq_decode. cbv zeta. fold E. fold W. rewrite (Rmult_comm 10000).
  pose proof (approx_mul _ _ _ _ _ _ 1 10000 10010 H5 C4) as H6. rewrite (Rabs_pos_eq (power _ _)), (Rabs_pos_eq 10000) in H6 by lra.
  eapply approx_le; [apply H6; lra|unfold half_ulp; lra].
Qed.
