(** Rounding errors of recoloring when the colors of the source are outside of
    0 .. 1, as YUV samples can be. *)

From Coq Require Import List ZArith Bool Arith Reals Lia Lra Psatz.
From Coq Require Import Floats.SpecFloat.
From Flocq Require Import Core IEEE754.BinarySingleNaN.
From Verif Require Import Base Types Planes ImageM F32 Vector Simd SpecVector SimdProofs QuantProofs SpecGeom GeomProofs
  SpecColor SpecConvert SpecRun Formats Visit Convert VisitProofs ColorProofs ConvertProofs ExactProofs PropConvert PropFidelity
  SpecReal FloatProofs AccProofs TargetProofs PropColor ColorR SpecTransfer PowerProofs MathProofs SpecMath LaneProofs TransferProofs
  Math NegProofs RecolorProofs PropRecolor GamutProofs PropGamut GrayProofs PropGray PropDrift PropBT2020 PropOut.
Import ListNotations.
Local Open Scope R_scope.

(** * Decoding *)

(** The colors whose decoding the code gets right: linear, sRGB and SDR are
    continued below 0 as straight lines, HLG with 0.  NEON compares absolute
    values and takes the wrong branch further below; powers of negative numbers
    (gamma 2.2 and 2.8) are NaN (C54). *)
Definition readable (b : backend) (t : color_transfer) (v : R) : Prop :=
  match t with
  | TLinear => - (6 / 5) <= v <= 11 / 5
  | TGamma22 | TGamma28 => 1 / 50000 <= v <= 11 / 5
  | TSRGB => match b with NEON => - (1 / 25) | _ => - (6 / 5) end <= v <= 11 / 5
  | TSDR => match b with NEON => - (2 / 25) | _ => - (6 / 5) end <= v <= 11 / 5
  | TBT2100HLG => - (6 / 5) <= v <= 1
  | TBT2100PQ => False
  end.

(** The curve of the standard, with HLG continued by 0 *)
Definition decoded_all (t : color_transfer) (v : R) : R := match t with TBT2100HLG => decoded t (Rmax 0 v) | _ => decoded t v end.

Lemma power_wide : forall x y, 0 <= x <= 221 / 100 -> 1 <= y <= 29 / 10 -> 0 <= power x y <= 10.
Proof.
  intros x y X Y. split; [apply power_ge0|]. apply Rle_trans with (power (221 / 100) y); [apply power_le; lra|].
  apply Rle_trans with (power (221 / 100) (29 / 10)).
  - rewrite !power_pos by lra. unfold Rpower. apply exp_le. assert (0 <= ln (221 / 100)) by (left; rewrite <- ln_1; apply ln_increasing; lra). nra.
  - left. apply (power_below _ _ _ 29 10); simpl; lra.
Qed.

Lemma power_wide_slope : forall y, 1 / 2 <= y <= 19 / 10 -> 0 <= power (221 / 100) y <= 5.
Proof.
  intros y Y. split; [apply power_ge0|]. apply Rle_trans with (power (221 / 100) (19 / 10)).
  - rewrite !power_pos by lra. unfold Rpower. apply exp_le. assert (0 <= ln (221 / 100)) by (left; rewrite <- ln_1; apply ln_increasing; lra). nra.
  - left. apply (power_below _ _ _ 19 10); simpl; lra.
Qed.

(** [decode_power] for a base above 1 *)
Lemma decode_power_wide : forall p x y X Y e, pow_accurate p -> approx x X e -> is_num y -> 0 <= fval x ->
  0 <= X <= 22 / 10 -> e <= 1 / 1000 -> 2 <= Y <= 28 / 10 -> Rabs (fval y - Y) <= 2 / 10000000 ->
  approx (p x y) (power X Y) (15 / 1000000 + 141 / 10 * e).
Proof.
  intros p x y X Y e P (NX & EX) NY X0 XB EB YB YE. pose proof YE as YE'. apply Rabs_le_inv in YE'. set (yv := fval y) in *.
  pose proof EX as EX'. apply Rabs_le_inv in EX'. set (x' := fval x) in *.
  eapply approx_weaken with (v := power x' yv) (e := (38 / 100000000 + yv / 10000000 + 125 / 1000000000 * (34 / 10)) * 10).
  - apply (pow_abs p x y x' yv); try assumption; try reflexivity; try lra; [|nra]. apply power_wide; lra.
  - replace (power x' yv - power X Y) with ((power x' yv - power X yv) + (power X yv - power X Y)) by ring.
    eapply Rle_trans; [apply Rabs_triang|].
    pose proof (power_base yv x' X (221 / 100) ltac:(lra) ltac:(lra) ltac:(lra)) as H1.
    pose proof (power_wide_slope (yv - 1) ltac:(lra)) as H2.
    assert (H4 : yv * power (221 / 100) (yv - 1) * Rabs (x' - X) <= 1401 / 100 * e).
    { apply Rmult_le_compat; [nra|apply Rabs_pos|nra|exact EX]. }
    assert (E0 : 0 <= e) by (pose proof (Rabs_pos (x' - X)); lra).
    assert (H5 : Rabs (power X yv - power X Y) <= 25 / 10000000).
    { destruct (Rle_dec X 1) as [C|C].
      - pose proof (power_exponent X yv Y (19 / 10) ltac:(lra) ltac:(lra) ltac:(lra) ltac:(lra)). lra.
      - pose proof (power_exponent_big X yv Y 10 ltac:(lra) ltac:(apply power_wide; lra) ltac:(apply power_wide; lra)) as H5.
        assert (Rabs (yv - Y) * (X - 1) <= 2 / 10000000 * (12 / 10)) by (apply Rmult_le_compat; try lra; apply Rabs_pos). lra. }
    lra.
Qed.

(** [dec_curve] above 1 *)
Lemma dec_curve_wide : forall p x v y Y a A b Bv, pow_accurate p -> approx x v (190 * u7) -> is_num y ->
  99 / 100 <= v <= 22 / 10 -> 2 <= Y <= 28 / 10 -> Rabs (fval y - Y) <= 2 / 10000000 ->
  approx a A (1 / 10000000) -> 105 / 100 <= A <= 11 / 10 -> approx b Bv (1 / 100000000) -> 1 / 100 <= Bv <= 1 / 10 ->
  (v + Bv) / A <= 22 / 10 ->
  approx (p (f32_div (f32_add x b) a) y) (power ((v + Bv) / A) Y) (3 / 10000).
Proof.
  intros p x v y Y a A b Bv P HX NY V YB YE HA AB HB BB XA. unfold u7 in HX.
  pose proof (approx_add _ _ _ _ _ _ (24 / 10) HX HB) as H1. rewrite (Rabs_pos_eq (v + Bv)) in H1 by lra. specialize (H1 ltac:(lra) ltac:(lra)).
  assert (Q : 9 / 10 <= (v + Bv) / A).
  { apply Rmult_le_reg_r with A; [lra|]. replace ((v + Bv) / A * A) with (v + Bv) by (field; lra). lra. }
  pose proof (approx_div2 _ _ _ _ _ _ 1 (22 / 10) (23 / 10) H1 HA) as H2. rewrite (Rabs_pos_eq (_ / _)) in H2 by lra.
  unfold half_ulp in H2. specialize (H2 ltac:(lra) ltac:(lra) XA ltac:(lra) ltac:(lra)).
  eapply approx_le; [apply (decode_power_wide p _ y _ Y (2 / 100000) P); try assumption|]; try lra.
  - eapply approx_le; [exact H2|lra].
  - destruct H2 as (_ & H2). apply Rabs_le_inv in H2. lra.
Qed.

Lemma decode_wide : forall sp sl b t x v, let L := lane_of (libm_of sp sl) b in
  accurate L -> approx x v (190 * u7) -> readable b t v -> approx (eotf L t x) (decoded_all t v) (3 / 10000).
Proof.
  intros sp sl b t x v L A H R.
  assert (T : t <> TBT2100PQ) by (intros ->; exact R).
  assert (VB : - (6 / 5) <= v <= 11 / 5) by (unfold readable in R; destruct t; try lra; destruct b; lra).
  assert (IN : 0 <= v <= 1 -> approx (eotf L t x) (decoded_all t v) (3 / 10000)).
  { intros V. replace (decoded_all t v) with (decoded t v) by (unfold decoded_all; destruct t; try reflexivity; rewrite Rmax_right by lra; reflexivity).
    eapply approx_le; [apply decode_near; try assumption|unfold decode_error; destruct t; lra].
    split; [exact V|]. intros [-> | ->]; cbn [readable] in R; lra. }
  destruct (Rle_dec 0 v) as [V0|V0]; [destruct (Rle_dec v 1) as [V1|V1]; [apply IN; lra|]|]; clear IN.
  - (* above 1 *)
    pose proof H as (N & E). unfold u7 in E. apply Rabs_le_inv in E.
    destruct t; try congruence; cbn [readable] in R; unfold decoded_all; cbn [decoded].
    + cbn [eotf]. eapply approx_le; [exact H|unfold u7; lra].
    + run_f32. assert (C : approx (f32_div (f32_lit 22 0) (f32_lit 10 0)) (22 / 10) (2 / 10000000)) by const_approx. destruct C as (NC & EC).
      eapply approx_le; [apply (decode_power_wide (l_pow L) x _ v (22 / 10) _ (acc_pow _ A) H NC)|]; unfold u7; try lra.
    + run_f32. assert (C : approx (f32_div (f32_lit 28 0) (f32_lit 10 0)) (28 / 10) (2 / 10000000)) by const_approx. destruct C as (NC & EC).
      eapply approx_le; [apply (decode_power_wide (l_pow L) x _ v (28 / 10) _ (acc_pow _ A) H NC)|]; unfold u7; try lra.
    + assert (CT : approx (f32_lit 4045 5) (10858214 / 268435456) 0) by const_approx. apply const_val in CT. destruct CT as (VT & NT & _).
      assert (CA : approx (f32_lit 1055 3) (1055 / 1000) (1 / 10000000)) by const_approx.
      assert (CB : approx (f32_lit 55 3) (55 / 1000) (1 / 100000000)) by const_approx.
      assert (CE : approx (f32_lit 24 1) (12 / 5) (2 / 10000000)) by const_approx. destruct CE as (NE & EE).
      run_f32. pose proof (acc_le _ A x (f32_lit 4045 5) N NT ltac:(lra) ltac:(lra)) as CMP. rewrite VT in CMP.
      destruct (l_le L x (f32_lit 4045 5)); [exfalso; assert (fval x <= 10858214 / 268435456) by (apply CMP; reflexivity); lra|].
      unfold srgb_decode. destruct (Rle_dec v _) as [C|_]; [lra|].
      apply (dec_curve_wide (l_pow L) x v _ (12 / 5) _ (1055 / 1000) _ (55 / 1000) (acc_pow _ A) H NE); try assumption; try lra.
    + assert (CT : approx (f32_lit 81490956 9) (10937531 / 134217728) 0) by const_approx. apply const_val in CT. destruct CT as (VT & NT & _).
      assert (CA : approx (f32_lit 1099 3) (1099 / 1000) (1 / 10000000)) by const_approx.
      assert (CB : approx (f32_lit 993 4) (993 / 10000) (1 / 100000000)) by const_approx.
      assert (CE : approx (f32_div (f32_lit 1 0) (f32_lit 45 2)) (20 / 9) (2 / 10000000)) by const_approx. destruct CE as (NE & EE).
      run_f32. pose proof (acc_lt _ A x (f32_lit 81490956 9) N NT ltac:(lra) ltac:(lra)) as CMP. rewrite VT in CMP.
      destruct (l_lt L x (f32_lit 81490956 9)); [exfalso; assert (fval x < 10937531 / 134217728) by (apply CMP; reflexivity); lra|].
      unfold sdr_decode. destruct (Rlt_dec v _) as [C|_]; [lra|].
      apply (dec_curve_wide (l_pow L) x v _ (20 / 9) _ (1099 / 1000) _ (993 / 10000) (acc_pow _ A) H NE); try assumption; try lra.
    + lra.
  - (* below 0 *)
    pose proof H as (N & E). unfold u7 in E. apply Rabs_le_inv in E.
    destruct t; try congruence; cbn [readable] in R; try lra; unfold decoded_all; cbn [decoded].
    + cbn [eotf]. eapply approx_le; [exact H|unfold u7; lra].
    + assert (CT : approx (f32_lit 4045 5) (10858214 / 268435456) 0) by const_approx. apply const_val in CT. destruct CT as (VT & NT & _).
      assert (LIN : approx (f32_lit 1292 2) (1292 / 100) (5 / 10000000)) by const_approx.
      assert (LE : l_le L x (f32_lit 4045 5) = true).
      { destruct (Rle_dec 0 (fval x)) as [P|P]; [apply (acc_le _ A); try assumption; lra|].
        apply (lane_below sp sl b x (f32_lit 4045 5) N NT); [lra|]. intros ->. lra. }
      run_f32. rewrite LE. unfold srgb_decode. destruct (Rle_dec v _) as [_|C]; [|lra].
      pose proof (approx_div2 _ _ _ _ _ _ 12 (1 / 10) (1 / 5) H LIN) as D.
      assert (Rabs (v / (1292 / 100)) <= 1 / 10) by (apply Rabs_le; lra). unfold u7 in D.
      specialize (D ltac:(lra) ltac:(lra) ltac:(lra) ltac:(lra) ltac:(lra)). eapply approx_le; [exact D|unfold half_ulp; lra].
    + assert (CT : approx (f32_lit 81490956 9) (10937531 / 134217728) 0) by const_approx. apply const_val in CT. destruct CT as (VT & NT & _).
      assert (LIN : approx (f32_lit 45 1) (9 / 2) 0) by const_approx.
      assert (LT : l_lt L x (f32_lit 81490956 9) = true).
      { destruct (Rle_dec 0 (fval x)) as [P|P]; [apply (acc_lt _ A); try assumption; lra|].
        apply (lane_below sp sl b x (f32_lit 81490956 9) N NT); [lra|]. intros ->. lra. }
      run_f32. rewrite LT. unfold sdr_decode. destruct (Rlt_dec v _) as [_|C]; [|lra].
      pose proof (approx_div2 _ _ _ _ _ _ 4 (3 / 10) (1 / 2) H LIN) as D.
      assert (Rabs (v / (9 / 2)) <= 3 / 10) by (apply Rabs_le; lra). unfold u7 in D.
      specialize (D ltac:(lra) ltac:(lra) ltac:(lra) ltac:(lra) ltac:(lra)). eapply approx_le; [exact D|unfold half_ulp; lra].
    + rewrite Rmax_left by lra. destruct (Rle_dec 0 (fval x)) as [P|P].
      * eapply approx_le; [apply (decode_near sp sl b TBT2100HLG x 0 A T)|unfold decode_error; lra].
        -- split; [exact N|]. unfold u7. apply Rabs_le. lra.
        -- split; [lra|]. intros [C|C]; discriminate C.
      * assert (N0 : is_num (f32_lit 0 0)) by (split; reflexivity). assert (W0 : fval (f32_lit 0 0) = 0) by reflexivity.
        assert (EQ : exists y, is_num y /\ fval y = 0 /\ eotf L TBT2100HLG x = eotf L TBT2100HLG y).
        { destruct (acc_max _ A x (f32_lit 0 0) N N0) as (NM & VM). rewrite W0, Rmax_right in VM by lra.
          exists (l_max L x (f32_lit 0 0)). split; [exact NM|]. split; [exact VM|].
          assert (MM : l_max L (l_max L x (f32_lit 0 0)) (f32_lit 0 0) = l_max L x (f32_lit 0 0)).
          { destruct x as [s|s| |[|] m e]; try (destruct N as (_ & F); discriminate F).
            - exfalso. unfold fval in P. cbn [SF2R] in P. lra.
            - unfold L. destruct b; vm_compute; reflexivity.
            - exfalso. apply P. unfold fval. cbn [SF2R cond_Zopp]. left. apply F2R_gt_0. simpl. lia. }
          run_f32. cbv zeta. rewrite MM. reflexivity. }
        destruct EQ as (y & NY & VY & ->). pose proof (hlg_dec_ok L y A NY ltac:(lra)) as D. rewrite VY in D. eapply approx_le; [exact D|lra].
Qed.

(** The light of the source *)
Definition dimmest (t : color_transfer) : R := match t with TLinear => - (6 / 5) | TSRGB => - (1 / 10) | TSDR => - (27 / 100) | _ => 0 end.
Definition brightest (t : color_transfer) : R :=
  match t with TLinear => 11 / 5 | TSRGB => 67 / 10 | TSDR => 6 | TBT2100HLG => 12 / 10 | _ => 46 / 5 end.

Lemma decoded_wide : forall b t v, readable b t v -> dimmest t <= decoded_all t v <= brightest t.
Proof.
  intros b t v R. unfold readable in R. unfold decoded_all.
  destruct t; cbn [decoded dimmest brightest]; try contradiction.
  - lra.
  - split; [apply power_ge0|]. apply Rle_trans with (power (11 / 5) (22 / 10)); [apply power_le; lra|]. left. apply (power_below _ _ _ 22 10); simpl; lra.
  - split; [apply power_ge0|]. apply Rle_trans with (power (11 / 5) (28 / 10)); [apply power_le; lra|]. left. apply (power_below _ _ _ 28 10); simpl; lra.
  - assert (B : - (6 / 5) <= v <= 11 / 5) by (destruct b; lra). unfold srgb_decode. destruct (Rle_dec v _) as [C|C]; [lra|].
    match goal with |- _ <= power ?x ?y <= _ => pose proof (power_ge0 x y); split; [lra|] end.
    apply Rle_trans with (power (22 / 10) (12 / 5)); [apply power_le; lra|]. left. apply (power_below _ _ _ 12 5); simpl; lra.
  - assert (B : - (6 / 5) <= v <= 11 / 5) by (destruct b; lra). unfold sdr_decode. destruct (Rlt_dec v _) as [C|C]; [lra|].
    match goal with |- _ <= power ?x ?y <= _ => pose proof (power_ge0 x y); split; [lra|] end.
    apply Rle_trans with (power (22 / 10) (20 / 9)); [apply power_le; lra|]. left. apply (power_below _ _ _ 20 9); simpl; lra.
  - assert (M : 0 <= Rmax 0 v <= 1) by (unfold Rmax; destruct (Rle_dec 0 v); lra).
    apply (decoded_unit TBT2100HLG (Rmax 0 v) ltac:(discriminate) M).
Qed.

(** * Matrices *)

Lemma dot_wide : forall a b c A B C x y z CA CB CC e vx vy vz,
  approx a A (15 / 100000000) -> approx b B (15 / 100000000) -> approx c C (15 / 100000000) ->
  Rabs A <= CA -> Rabs B <= CB -> Rabs C <= CC -> CA + CB + CC <= 6 ->
  approx x vx e -> approx y vy e -> approx z vz e -> Rabs vx <= 11 -> Rabs vy <= 11 -> Rabs vz <= 11 -> 0 <= e <= 1 / 10000 ->
  approx (dot a b c x y z) (vx * A + vy * B + vz * C) ((CA + CB + CC) * e + 52 / 10000000 + 22 / 10000000 * (CA + CB + CC)).
Proof.
  intros a b c A B C x y z CA CB CC e vx vy vz HA HB HC BA BB BC S HX HY HZ BX BY BZ E.
  pose proof (Rabs_pos A). pose proof (Rabs_pos B). pose proof (Rabs_pos C).
  assert (M : forall q Q w vw CQ, approx q Q (15 / 100000000) -> Rabs Q <= CQ -> 0 <= CQ <= 6 -> approx w vw e -> Rabs vw <= 11 ->
    approx (f32_mul w q) (vw * Q) (CQ * e + 167 / 100000000 + 67 / 100000000 * CQ) /\ Rabs (vw * Q) <= 11 * CQ).
  { intros q Q w vw CQ HQ BQ CB' HW BW. split.
    - eapply approx_le; [apply (approx_mul _ _ _ _ _ _ 11 CQ (1101 / 100 * CQ + 1 / 100000) HW HQ BW BQ); nra|]. unfold half_ulp. nra.
    - rewrite Rabs_mult. apply Rmult_le_compat; try apply Rabs_pos; assumption. }
  destruct (M a A x vx CA HA BA ltac:(lra) HX BX) as (M1 & B1).
  destruct (M b B y vy CB HB BB ltac:(lra) HY BY) as (M2 & B2).
  destruct (M c C z vz CC HC BC ltac:(lra) HZ BZ) as (M3 & B3). clear M.
  unfold dot. cbn [fadd fmul f32_ops].
  pose proof (approx_add _ _ _ _ _ _ (1101 / 100 * (CA + CB) + 1 / 10000) M1 M2) as S1.
  pose proof (Rabs_triang (vx * A) (vy * B)) as T1. specialize (S1 ltac:(nra) ltac:(lra)).
  pose proof (approx_add _ _ _ _ _ _ (1102 / 100 * (CA + CB + CC) + 1 / 1000) S1 M3) as S2.
  pose proof (Rabs_triang (vx * A + vy * B) (vz * C)) as T2. unfold half_ulp in S2. specialize (S2 ltac:(nra) ltac:(lra)).
  eapply approx_le; [exact S2|]. lra.
Qed.

Ltac row_wide E := eapply approx_le;
  [eapply dot_wide; [coef|coef|coef|apply Rle_refl|apply Rle_refl|apply Rle_refl|abs_lits|eassumption|eassumption|eassumption|assumption|assumption|assumption|exact E]|
   match goal with |- (?s * _ + _ + _ * ?s <= ?c * _ + _) => let S := fresh in assert (S : s <= c) by abs_lits; revert S; generalize s; intros; nra end].

Lemma to_xyz_wide : forall p v w, approx3 v w 0 -> within3 w (93 / 10) ->
  approx3 (to_xyz p v) (to_xyz p w) (111 / 100 * 0 + 77 / 10000000) /\ within3 (to_xyz p w) 11.
Proof.
  intros p ((a, b), c) ((x, y), z) (HA & HB & HC) (BX & BY & BZ).
  assert (E : 0 <= 0 <= 1 / 10000) by lra. apply Rabs_le_inv in BX. apply Rabs_le_inv in BY. apply Rabs_le_inv in BZ.
  assert (AX : Rabs x <= 11) by (apply Rabs_le; lra). assert (AY : Rabs y <= 11) by (apply Rabs_le; lra). assert (AZ : Rabs z <= 11) by (apply Rabs_le; lra).
  split.
  - destruct p; cbn [to_xyz approx3]; (split; [|split]); row_wide E.
  - destruct p; cbn [to_xyz within3]; (split; [|split]); unfold dot; cbn [fadd fmul flit R_ops]; lits; apply Rabs_le; lra.
Qed.

Lemma from_xyz_wide : forall p v w e, approx3 v w e -> within3 w 11 -> 0 <= e <= 1 / 10000 ->
  approx3 (from_xyz p v) (from_xyz p w) (58 / 10 * e + 18 / 1000000).
Proof.
  intros p ((a, b), c) ((x, y), z) e (HA & HB & HC) (AX & AY & AZ) E.
  destruct p; cbn [from_xyz approx3]; (split; [|split]); row_wide E.
Qed.

Definition between3 (lo hi : R) (w : R * R * R) : Prop := let '(x, y, z) := w in lo <= x <= hi /\ lo <= y <= hi /\ lo <= z <= hi.

Lemma light_wide : forall ps pd v w e, approx3 v w e -> between3 (- (6 / 5)) (46 / 5) w ->
  0 <= e <= 1 / 1000 -> approx3 (from_xyz pd (to_xyz ps v)) (from_xyz pd (to_xyz ps w)) (256 / 100 * e + 63 / 1000000).
Proof.
  intros ps pd ((a, b), c) ((x, y), z) e ((NA & HA) & (NB & HB) & (NC & HC)) (BX & BY & BZ) E.
  set (w' := (fval a, fval b, fval c)).
  assert (A0 : approx3 (a, b, c) w' 0) by (repeat split; try apply NA; try apply NB; try apply NC; rewrite Rminus_diag_eq, Rabs_R0 by reflexivity; lra).
  pose proof HA as HA'. pose proof HB as HB'. pose proof HC as HC'. apply Rabs_le_inv in HA'. apply Rabs_le_inv in HB'. apply Rabs_le_inv in HC'.
  destruct (to_xyz_wide ps (a, b, c) w' A0) as (X1 & X2); [cbn; (split; [|split]); apply Rabs_le; lra|].
  pose proof (from_xyz_wide pd _ _ _ X1 X2 ltac:(lra)) as F1.
  pose proof (light_lip ps pd w' (x, y, z) e ltac:(split; [exact HA|split; [exact HB|exact HC]])) as F2.
  destruct (from_xyz pd (to_xyz ps (a, b, c))) as ((q1, q2), q3). destruct (from_xyz pd (to_xyz ps w')) as ((p1, p2), p3).
  destruct (from_xyz pd (to_xyz ps (x, y, z))) as ((r1, r2), r3).
  destruct F1 as (G1 & G2 & G3). destruct F2 as (K1 & K2 & K3).
  split; [|split]; (eapply approx_weaken; [eassumption|]); lra.
Qed.

Lemma linear_wide : forall ps pd lo hi w, lo <= 0 -> 0 <= hi -> between3 lo hi w ->
  between3 (179 / 100 * lo - 79 / 100 * hi) (179 / 100 * hi - 79 / 100 * lo) (from_xyz pd (to_xyz ps w)).
Proof.
  intros ps pd lo hi ((x, y), z) L H (BX & BY & BZ).
  destruct ps, pd; cbn [to_xyz from_xyz between3]; (split; [|split]); unfold dot; cbn [fadd fmul flit R_ops]; lits; lra.
Qed.

(** * Encoding *)

Lemma root_big : forall x y, 39 / 10 <= x <= 18 -> 34 / 100 <= y <= 51 / 100 -> 3 / 2 <= power x y <= 5.
Proof.
  intros x y X Y.
  assert (M : forall z w, 1 / 3 <= z -> z <= w -> power x z <= power x w).
  { intros z w Z W. rewrite !power_pos by lra. unfold Rpower. apply exp_le.
    assert (0 <= ln x) by (left; rewrite <- ln_1; apply ln_increasing; lra). nra. }
  split.
  - apply Rle_trans with (power x (1 / 3)); [|apply M; lra]. left. apply (power_above _ _ _ 1 3); simpl; lra.
  - apply Rle_trans with (power x (51 / 100)); [apply M; lra|]. apply Rle_trans with (power 18 (51 / 100)); [apply power_le; lra|].
    apply Rle_trans with (power 18 (11 / 20)); [|left; apply (power_below _ _ _ 11 20); simpl; lra].
    rewrite !power_pos by lra. unfold Rpower. apply exp_le. assert (0 <= ln 18) by (left; rewrite <- ln_1; apply ln_increasing; lra). nra.
Qed.

(** Bright light is encoded as more than 1 *)
Lemma encode_big : forall L t x, accurate L -> t <> TBT2100PQ -> is_num x -> 39 / 10 <= fval x <= 18 ->
  is_num (oetf L t x) /\ 102 / 100 <= fval (oetf L t x) <= 20.
Proof.
  intros L t x A T N B.
  assert (P : forall y Y, approx y Y (2 / 100000000) -> 35 / 100 <= Y <= 1 / 2 ->
    exists q, approx (l_pow L x y) q (1 / 100000) /\ 3 / 2 <= q <= 5).
  { intros y Y (NY & EY) YB. apply Rabs_le_inv in EY. exists (power (fval x) (fval y)).
    pose proof (root_big (fval x) (fval y) ltac:(lra) ltac:(lra)) as R. split; [|exact R].
    eapply approx_le; [apply (pow_abs (l_pow L) x y _ _ 5 10 (acc_pow _ A) N NY eq_refl eq_refl); try lra; nra|]. nra. }
  assert (C : forall a Av c Cv y Y, approx a Av (1 / 10000000) -> 1 <= Av <= 11 / 10 -> approx c Cv (1 / 10000000) -> 0 <= Cv <= 1 / 10 ->
    approx y Y (2 / 100000000) -> 35 / 100 <= Y <= 1 / 2 ->
    is_num (f32_sub (f32_mul a (l_pow L x y)) c) /\ 102 / 100 <= fval (f32_sub (f32_mul a (l_pow L x y)) c) <= 20).
  { intros a Av c Cv y Y HA AB HC CB' HY YB. destruct (P y Y HY YB) as (q & HQ & QB).
    pose proof (approx_mul _ _ _ _ _ _ (11 / 10) 5 6 HA HQ ltac:(apply Rabs_le; lra) ltac:(apply Rabs_le; lra) ltac:(lra) ltac:(lra)) as M1.
    assert (AQ : 3 / 2 <= Av * q <= 6) by nra.
    pose proof (approx_sub _ _ _ _ _ _ 7 M1 HC) as M2. unfold half_ulp in M2.
    assert (Rabs (Av * q - Cv) <= 6) by (apply Rabs_le; lra). specialize (M2 ltac:(lra) ltac:(lra)).
    destruct M2 as (N2 & E2). apply Rabs_le_inv in E2. split; [exact N2|lra]. }
  destruct t; try congruence.
  - cbn [oetf]. split; [exact N|lra].
  - run_f32. assert (K : approx (f32_div (f32_lit 1 0) (f32_div (f32_lit 22 0) (f32_lit 10 0))) (10 / 22) (2 / 100000000)) by const_approx.
    destruct (P _ _ K ltac:(lra)) as (q & (NQ & EQ) & QB). apply Rabs_le_inv in EQ. split; [exact NQ|lra].
  - run_f32. assert (K : approx (f32_div (f32_lit 1 0) (f32_div (f32_lit 28 0) (f32_lit 10 0))) (10 / 28) (2 / 100000000)) by const_approx.
    destruct (P _ _ K ltac:(lra)) as (q & (NQ & EQ) & QB). apply Rabs_le_inv in EQ. split; [exact NQ|lra].
  - assert (CT : approx (f32_lit 31308 7) (31308 / 10000000) (1 / 1000000)) by const_approx. destruct CT as (NT & VT). apply Rabs_le_inv in VT.
    run_f32. pose proof (acc_le _ A x (f32_lit 31308 7) N NT ltac:(lra) ltac:(lra)) as CMP.
    destruct (l_le L x (f32_lit 31308 7)); [exfalso; assert (fval x <= fval (f32_lit 31308 7)) by (apply CMP; reflexivity); lra|].
    apply (C _ (1055 / 1000) _ (55 / 1000) _ (10 / 24)); try lra; const_approx.
  - assert (CT : approx (f32_lit 1805397 8) (1805397 / 100000000) (1 / 1000000)) by const_approx. destruct CT as (NT & VT). apply Rabs_le_inv in VT.
    run_f32. pose proof (acc_lt _ A x (f32_lit 1805397 8) N NT ltac:(lra) ltac:(lra)) as CMP.
    destruct (l_lt L x (f32_lit 1805397 8)); [exfalso; assert (fval x < fval (f32_lit 1805397 8)) by (apply CMP; reflexivity); lra|].
    apply (C _ (1099 / 1000) _ (99 / 1000) _ (9 / 20)); try lra; const_approx.
  - assert (N0 : is_num (f32_lit 0 0)) by (split; reflexivity). assert (W0 : fval (f32_lit 0 0) = 0) by reflexivity.
    destruct (acc_max _ A x (f32_lit 0 0) N N0) as (NM & VM). rewrite W0, Rmax_left in VM by lra.
    assert (CT : approx (f32_div (f32_lit 1 0) (f32_lit 12 0)) (1 / 12) (1 / 100000000)) by const_approx. destruct CT as (NT & VT). apply Rabs_le_inv in VT.
    assert (K12 : approx (f32_lit 12 0) 12 0) by const_approx. assert (KB : approx (f32_lit 28466892 8) (28466892 / 100000000) (1 / 10000000)) by const_approx.
    assert (KA : approx (f32_lit 17883277 8) (17883277 / 100000000) (1 / 10000000)) by const_approx.
    assert (KC : approx (f32_lit 5599107 7) (5599107 / 10000000) (1 / 10000000)) by const_approx.
    run_f32. cbv zeta. set (e := l_max L x (f32_lit 0 0)) in *.
    pose proof (acc_le _ A e _ NM NT ltac:(lra) ltac:(lra)) as CMP.
    destruct (l_le L e (f32_div (f32_lit 1 0) (f32_lit 12 0))); [exfalso; assert (fval e <= fval (f32_div (f32_lit 1 0) (f32_lit 12 0))) by (apply CMP; reflexivity); lra|].
    pose proof (exact_approx e NM) as HE. rewrite VM in HE.
    pose proof (approx_mul _ _ _ _ _ _ 12 18 217 K12 HE ltac:(apply Rabs_le; lra) ltac:(apply Rabs_le; lra) ltac:(lra) ltac:(lra)) as M1.
    pose proof (approx_sub _ _ _ _ _ _ 218 M1 KB) as M2. assert (Rabs (12 * fval x - 28466892 / 100000000) <= 216) by (apply Rabs_le; lra).
    unfold half_ulp in M2. specialize (M2 ltac:(lra) ltac:(lra)). destruct M2 as (N2 & E2). apply Rabs_le_inv in E2.
    set (s := f32_sub _ _) in *. assert (SB : 46 <= fval s <= 217) by lra.
    assert (TS : tiny <= fval s) by (assert (tiny <= 1) by (unfold tiny; apply Rle_trans with (bpow radix2 0); [apply bpow_le; lia|simpl; lra]); lra).
    destruct (acc_ln _ A s N2 TS) as (N3 & E3). pose proof ln_2 as L2.
    assert (LB : 5 * ln 2 <= ln (fval s) <= 8 * ln 2).
    { split.
      - replace (5 * ln 2) with (ln 2 + (ln 2 + (ln 2 + (ln 2 + ln 2)))) by ring. rewrite <- !ln_mult by lra. apply ln_le; lra.
      - replace (8 * ln 2) with (ln 2 + (ln 2 + (ln 2 + (ln 2 + (ln 2 + (ln 2 + (ln 2 + ln 2))))))) by ring. rewrite <- !ln_mult by lra. apply ln_le; lra. }
    rewrite (Rabs_pos_eq (ln (fval s))) in E3 by lra.
    assert (H3 : approx (l_ln L s) (ln (fval s)) (1 / 1000000)) by (split; [exact N3|lra]).
    pose proof (approx_mul _ _ _ _ _ _ (2 / 10) 6 2 KA H3 ltac:(apply Rabs_le; lra) ltac:(apply Rabs_le; lra) ltac:(lra) ltac:(lra)) as M4.
    pose proof (approx_add _ _ _ _ _ _ 3 M4 KC) as M5. assert (Rabs (17883277 / 100000000 * ln (fval s) + 5599107 / 10000000) <= 2) by (apply Rabs_le; lra).
    unfold half_ulp in M5. specialize (M5 ltac:(lra) ltac:(lra)). destruct M5 as (N5 & E5). apply Rabs_le_inv in E5. split; [exact N5|lra].
Qed.

(** and so is the real number *)
Lemma encoded_big : forall t x, t <> TBT2100PQ -> 39 / 10 <= x <= 18 -> 102 / 100 <= encoded t x.
Proof.
  intros t x T X. pose proof (fun y => root_big x y X) as P.
  destruct t; cbn [encoded]; try congruence.
  - lra.
  - pose proof (P (10 / 22) ltac:(lra)). lra.
  - pose proof (P (10 / 28) ltac:(lra)). lra.
  - unfold srgb_encode. destruct (Rle_dec x _); [lra|]. pose proof (P (5 / 12) ltac:(lra)). lra.
  - unfold sdr_encode. destruct (Rlt_dec x _); [lra|]. pose proof (P (9 / 20) ltac:(lra)). lra.
  - unfold hlg_encode. destruct (Rle_dec x _); [lra|]. pose proof ln_2 as L2.
    assert (5 * ln 2 <= ln (12 * x - hb)).
    { replace (5 * ln 2) with (ln 2 + (ln 2 + (ln 2 + (ln 2 + ln 2)))) by ring. rewrite <- !ln_mult by lra. apply ln_le; unfold hb; lra. }
    unfold ha, hc. lra.
Qed.

(** [encode_store] for all light that colors of YUV images can have *)
Lemma store_wide : forall L cb f t x, accurate L -> pow_negative (l_pow L) -> t <> TBT2100PQ -> sampling_of f = SRGB ->
  is_num x -> - (81 / 10) <= fval x <= 179 / 10 ->
  exists X, Rabs (X - fval x) <= 1 / 100000000 /\
    stored_for cb (255 * (56 / 10000000)) (clamp 255 (255 * encoded t (Rmax 0 X))) (quantise (quant_of cb) f (oetf L t x)) /\
    (0 <= quantise (quant_of cb) f (oetf L t x) <= 255)%Z.
Proof.
  intros L cb f t x A PN T S N B.
  destruct (Rlt_le_dec (fval x) 0) as [P|P]; [|destruct (Rle_dec (fval x) 4) as [Q|Q]].
  - exists (fval x). split; [rewrite Rminus_diag_eq, Rabs_R0 by reflexivity; lra|]. rewrite Rmax_left by lra. rewrite encoded_0 by exact T.
    replace (clamp 255 (255 * 0)) with 0 by (rewrite Rmult_0_r; destruct (clamp_cases 255 0 ltac:(lra)) as [(? & ->)|[(? & ->)|(? & ->)]]; lra).
    apply negative_store; try assumption. lra.
  - apply encode_store; try assumption. apply Rabs_le. lra.
  - exists (fval x). split; [rewrite Rminus_diag_eq, Rabs_R0 by reflexivity; lra|]. rewrite Rmax_right by lra.
    assert (MF : max_level f = 255%Z) by (destruct f; try discriminate S; reflexivity).
    assert (TF : top f = 255%Z) by (destruct f; try discriminate S; reflexivity).
    pose proof (encoded_big t (fval x) T ltac:(lra)) as EB. destruct (encode_big L t x A T N ltac:(lra)) as (NV & BV).
    assert (C1 : clamp 255 (255 * encoded t (fval x)) = 255) by (destruct (clamp_cases 255 (255 * encoded t (fval x)) ltac:(lra)) as [(? & ->)|[(? & ->)|(? & ->)]]; lra).
    rewrite C1. set (v := oetf L t x) in *.
    assert (K : approx (f32_of_Z 255) 255 0) by (apply (approx_of_Z 255); lia). destruct K as (NK & EK).
    assert (VK : fval (f32_of_Z 255) = 255) by (apply Rabs_le_inv in EK; lra).
    destruct (f32_mul_num v _ NV NK) as (N1 & V1); [apply big_bound, Rabs_le; rewrite VK; lra|].
    assert (B1 : 256 <= fval (f32_mul v (f32_of_Z 255)) <= 5101).
    { rewrite V1, VK. assert (R : Rabs (fval v * 255) <= 5100) by (apply Rabs_le; lra). pose proof (rnd_half _ _ R) as R1. unfold half_ulp in R1.
      apply Rabs_le_inv in R1. lra. }
    pose proof (quantise_val cb f v) as Q1. rewrite MF, TF in Q1. specialize (Q1 N1 ltac:(apply Rabs_def1; lra) ltac:(left; exact S)).
    destruct (clamp_cases 255 (fval (f32_mul v (f32_of_Z 255))) ltac:(lra)) as [(C & E)|[(C & E)|(C & E)]]; try lra. rewrite E in Q1.
    split; [eapply stored_for_weaken; [exact Q1|lra]|].
    assert (HZ : -1 < IZR (quantise (quant_of cb) f v) < 256); [|destruct HZ as (H1 & H2); apply lt_IZR in H1; apply lt_IZR in H2; lia].
    destruct cb; cbn [stored_for] in Q1; unfold truncated, rounded in Q1; try (apply Rabs_le_inv in Q1); lra.
Qed.
