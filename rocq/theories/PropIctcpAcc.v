(** C76: what convert stores for ICtCp. *)

From Coq Require Import List ZArith Bool Arith Reals Lia Lra Psatz.
From Coq Require Import Floats.SpecFloat.
From Flocq Require Import Core.
From Verif Require Import Base Types Planes ImageM F32 Vector Simd SpecVector SimdProofs QuantProofs SpecGeom GeomProofs
  SpecColor SpecConvert SpecRun Formats Visit Convert VisitProofs ColorProofs ConvertProofs ExactProofs PropConvert PropFidelity
  SpecReal FloatProofs AccProofs TargetProofs PropColor ColorR SpecTransfer PowerProofs MathProofs SpecMath LaneProofs TransferProofs
  Math NegProofs RecolorProofs PropRecolor GamutProofs PropGamut GrayProofs PropGray PropDrift.
From Verif Require SpecIctcp IctcpProofs PropIctcp.
Import SpecIctcp (ictcp_curve, ictcp_matrix, ictcp_pq, ictcp_hlg, bt2100_l, bt2100_m, bt2100_s, ictcp_level).
Import PropIctcp (is_bt2100, cones).
Import ListNotations.
Local Open Scope R_scope.

Lemma cones_code : forall p r g b, to_lms (to_xyz p (r, g, b)) = cones p r g b.
Proof. intros [] r g b; reflexivity. Qed.

Lemma to_lms_acc : forall v w e, approx3 v w e -> within3 w (3 / 2) -> 0 <= e <= 1 / 10000 ->
  approx3 (to_lms v) (to_lms w) (14 / 10 * e + 12 / 10000000).
Proof.
  intros ((a, b), c) ((x, y), z) e (HA & HB & HC) (AX & AY & AZ) E.
  cbn [to_lms approx3]; (split; [|split]); row E.
Qed.

Lemma curve_bound : forall s x, is_bt2100 s -> 0 <= x <= 13 / 10 ->
  0 <= ictcp_curve s x <= match s with SpICtCpPQ => 22 / 100 | _ => 116 / 100 end.
Proof.
  intros s x [-> | ->] X; cbn [ictcp_curve].
  - split; [apply power_ge0|]. pose proof (pq_mono x (32 / 10) ltac:(lra)). destruct pq_points as (_ & _ & P). lra.
  - assert (W : forall y, 0 <= y <= 1 -> 0 <= hlg_encode y <= 1 + 1 / 25000).
    { intros y Y. apply (PropIctcp.curve_range SpICtCpHLG); [right; reflexivity|cbn; lra]. }
    destruct (Rle_lt_dec x 1) as [L|L]; [pose proof (W x ltac:(lra)); lra|].
    pose proof (W 1 ltac:(lra)) as W1.
    assert (S : forall a b, 1 <= a <= b -> b <= 11 / 10 * a -> b <= 2 -> hlg_encode a - 1 / 1000000 <= hlg_encode b <= hlg_encode a + 1 / 20).
    { intros a b A B C. pose proof (IctcpProofs.hlg_relative a b (1 / 10) ltac:(lra) ltac:(lra) ltac:(lra) ltac:(lra)). lra. }
    split.
    + unfold hlg_encode. destruct (Rle_dec _ _); [apply sqrt_pos|]. pose proof (IctcpProofs.hlg_high x ltac:(lra)). lra.
    + destruct (Rle_lt_dec x (11 / 10)) as [L1|L1]; [pose proof (S 1 x ltac:(lra) ltac:(lra) ltac:(lra)); lra|].
      pose proof (S 1 (11 / 10) ltac:(lra) ltac:(lra) ltac:(lra)).
      destruct (Rle_lt_dec x (121 / 100)) as [L2|L2]; [pose proof (S (11 / 10) x ltac:(lra) ltac:(lra) ltac:(lra)); lra|].
      pose proof (S (11 / 10) (121 / 100) ltac:(lra) ltac:(lra) ltac:(lra)).
      pose proof (S (121 / 100) x ltac:(lra) ltac:(lra) ltac:(lra)). lra.
Qed.

(** I, Ct, Cp of encoded cone responses *)

Definition mix_error (s : color_space) : R := match s with SpICtCpPQ => 225 / 100000 | _ => 26 / 1000000 end.

Lemma mul_coef : forall w vw e q Q eq V CQ, approx w vw e -> 0 <= vw <= V -> V <= 12 / 10 -> approx q Q eq -> Rabs Q <= CQ -> CQ <= 20000 ->
  0 <= e <= 1 / 1000 -> 0 <= eq <= 2 / 10000000 ->
  approx (f32_mul w q) (vw * Q) (V * eq + CQ * e + 1 / 1000000000 + ((V + e) * CQ + 1 / 1000000) / 16777216) /\ Rabs (vw * Q) <= V * CQ.
Proof.
  intros w vw e q Q eq V CQ W B VB HQ BQ CB E EQ. pose proof (Rabs_pos Q) as Q0.
  assert (0 <= e * CQ <= 20) by (split; [apply Rmult_le_pos; lra|]; apply Rle_trans with (1 / 1000 * 20000); [apply Rmult_le_compat; lra|lra]).
  assert (0 <= V * CQ <= 24000) by (split; [apply Rmult_le_pos; lra|]; apply Rle_trans with (12 / 10 * 20000); [apply Rmult_le_compat; lra|lra]).
  assert (0 <= V * eq <= 12 / 10 * (2 / 10000000)) by (split; [apply Rmult_le_pos; lra|]; apply Rmult_le_compat; lra).
  assert (0 <= e * eq <= 1 / 1000 * (2 / 10000000)) by (split; [apply Rmult_le_pos; lra|]; apply Rmult_le_compat; lra).
  split.
  - assert (BW : Rabs vw <= V) by (apply Rabs_le; lra).
    eapply approx_le; [apply (approx_mul _ _ _ _ _ _ V CQ ((V + e) * CQ + 1 / 1000000) W HQ BW BQ); lra|]. unfold half_ulp. lra.
  - rewrite Rabs_mult. apply Rmult_le_compat; try apply Rabs_pos; [apply Rabs_le; lra|assumption].
Qed.

Lemma mix_acc : forall s l m n vl vm vn, is_bt2100 s ->
  let V := match s with SpICtCpPQ => 22 / 100 | _ => 116 / 100 end in
  let e := match s with SpICtCpPQ => 1 / 4000 | _ => 5 / 1000000 end in
  0 <= vl <= V -> 0 <= vm <= V -> 0 <= vn <= V -> approx l vl e -> approx m vm e -> approx n vn e ->
  let '(y, u, v) := match s with
    | SpICtCpPQ => (l * flit 5 1 + m * flit 5 1,
         dot (flit 6610 0) (flit (-13613) 0) (flit 7003 0) l m n / flit 4096 0,
         dot (flit 17933 0) (flit (-17390) 0) (flit (-543) 0) l m n / flit 4096 0)%F
    | _ => ((l + m) * flit 5 1,
         l * flit 88500977 8 - m * flit 18225098 7 + n * flit 9375 4,
         l * flit 2319336 6 - m * flit 22490234 7 - n * flit 703125 7)%F
    end in
  let '(vy, vu, vv) := ictcp_matrix s vl vm vn in
  (approx y vy (mix_error s) /\ approx u vu (mix_error s) /\ approx v vv (mix_error s)) /\
  Rabs vy <= 28 / 10 /\ Rabs vu <= 28 / 10 /\ Rabs vv <= 28 / 10.
Proof.
  intros s l m n vl vm vn [-> | ->] V e BL BM BN AL AM AN; subst V e; cbn [ictcp_matrix mix_error]; unfold ictcp_pq, ictcp_hlg;
    cbn [fadd fsub fmul fdiv flit f32_ops]; unfold dot; cbn [fadd fsub fmul fdiv flit f32_ops].
  - assert (HH : approx (f32_lit 5 1) (1 / 2) 0) by const_approx.
    assert (C1 : approx (f32_lit 6610 0) 6610 0) by const_approx.
    assert (C2 : approx (f32_lit (-13613) 0) (-13613) 0) by const_approx.
    assert (C3 : approx (f32_lit 7003 0) 7003 0) by const_approx.
    assert (D1 : approx (f32_lit 17933 0) 17933 0) by const_approx.
    assert (D2 : approx (f32_lit (-17390) 0) (-17390) 0) by const_approx.
    assert (D3 : approx (f32_lit (-543) 0) (-543) 0) by const_approx.
    assert (Q : approx (f32_lit 4096 0) 4096 0) by const_approx. apply const_val in Q. destruct Q as (QV & QN & _).
    assert (A1 : forall c, 0 <= c -> Rabs c <= c) by (intros; rewrite Rabs_pos_eq; lra).
    assert (A2 : forall c, 0 <= c -> Rabs (- c) <= c) by (intros; rewrite Rabs_Ropp, Rabs_pos_eq; lra).
    destruct (mul_coef _ _ _ _ _ _ _ (1 / 2) AL BL ltac:(lra) HH ltac:(apply A1; lra) ltac:(lra) ltac:(lra) ltac:(lra)) as (I1 & IB1).
    destruct (mul_coef _ _ _ _ _ _ _ (1 / 2) AM BM ltac:(lra) HH ltac:(apply A1; lra) ltac:(lra) ltac:(lra) ltac:(lra)) as (I2 & IB2).
    destruct (mul_coef _ _ _ _ _ _ _ 6610 AL BL ltac:(lra) C1 ltac:(apply A1; lra) ltac:(lra) ltac:(lra) ltac:(lra)) as (U1 & UB1).
    destruct (mul_coef _ _ _ _ _ _ _ 13613 AM BM ltac:(lra) C2 ltac:(apply (A2 13613); lra) ltac:(lra) ltac:(lra) ltac:(lra)) as (U2 & UB2).
    destruct (mul_coef _ _ _ _ _ _ _ 7003 AN BN ltac:(lra) C3 ltac:(apply A1; lra) ltac:(lra) ltac:(lra) ltac:(lra)) as (U3 & UB3).
    destruct (mul_coef _ _ _ _ _ _ _ 17933 AL BL ltac:(lra) D1 ltac:(apply A1; lra) ltac:(lra) ltac:(lra) ltac:(lra)) as (V1 & VB1).
    destruct (mul_coef _ _ _ _ _ _ _ 17390 AM BM ltac:(lra) D2 ltac:(apply (A2 17390); lra) ltac:(lra) ltac:(lra) ltac:(lra)) as (V2 & VB2).
    destruct (mul_coef _ _ _ _ _ _ _ 543 AN BN ltac:(lra) D3 ltac:(apply (A2 543); lra) ltac:(lra) ltac:(lra) ltac:(lra)) as (V3 & VB3).
    pose proof (approx_add _ _ _ _ _ _ 1 I1 I2 ltac:(pose proof (Rabs_triang (vl * (1 / 2)) (vm * (1 / 2))); lra) ltac:(lra)) as I3.
    pose proof (approx_add _ _ _ _ _ _ 4500 U1 U2 ltac:(pose proof (Rabs_triang (vl * 6610) (vm * -13613)); lra) ltac:(lra)) as U4.
    pose proof (approx_add _ _ _ _ _ _ 6010 U4 U3 ltac:(pose proof (Rabs_triang (vl * 6610) (vm * -13613)); pose proof (Rabs_triang (vl * 6610 + vm * -13613) (vn * 7003)); unfold half_ulp; lra) ltac:(lra)) as U5.
    pose proof (approx_div _ _ _ _ _ 6020 U5 QN QV ltac:(lra) ltac:(pose proof (Rabs_triang (vl * 6610) (vm * -13613)); pose proof (Rabs_triang (vl * 6610 + vm * -13613) (vn * 7003)); unfold half_ulp; lra) ltac:(lra)) as U6.
    pose proof (approx_add _ _ _ _ _ _ 7800 V1 V2 ltac:(pose proof (Rabs_triang (vl * 17933) (vm * -17390)); lra) ltac:(lra)) as V4.
    pose proof (approx_add _ _ _ _ _ _ 7910 V4 V3 ltac:(pose proof (Rabs_triang (vl * 17933) (vm * -17390)); pose proof (Rabs_triang (vl * 17933 + vm * -17390) (vn * -543)); unfold half_ulp; lra) ltac:(lra)) as V5.
    pose proof (approx_div _ _ _ _ _ 7920 V5 QN QV ltac:(lra) ltac:(pose proof (Rabs_triang (vl * 17933) (vm * -17390)); pose proof (Rabs_triang (vl * 17933 + vm * -17390) (vn * -543)); unfold half_ulp; lra) ltac:(lra)) as V6.
    unfold half_ulp in *. split; [|repeat split; apply Rabs_le; lra].
    split; [|split].
    + eapply approx_eq; [eapply approx_le; [exact I3|lra]|field].
    + eapply approx_eq; [eapply approx_le; [exact U6|lra]|field].
    + eapply approx_eq; [eapply approx_le; [exact V6|lra]|field].
  - assert (HH : approx (f32_lit 5 1) (1 / 2) 0) by const_approx.
    assert (C1 : approx (f32_lit 88500977 8) (3625 / 4096) (2 / 10000000)) by const_approx.
    assert (C2 : approx (f32_lit 18225098 7) (7465 / 4096) (2 / 10000000)) by const_approx.
    assert (C3 : approx (f32_lit 9375 4) (3840 / 4096) (2 / 10000000)) by const_approx.
    assert (D1 : approx (f32_lit 2319336 6) (9500 / 4096) (2 / 10000000)) by const_approx.
    assert (D2 : approx (f32_lit 22490234 7) (9212 / 4096) (2 / 10000000)) by const_approx.
    assert (D3 : approx (f32_lit 703125 7) (288 / 4096) (2 / 10000000)) by const_approx.
    assert (A1 : forall c, 0 <= c -> Rabs c <= c) by (intros; rewrite Rabs_pos_eq; lra).
    pose proof (approx_add _ _ _ _ _ _ 24 AL AM ltac:(rewrite Rabs_pos_eq; lra) ltac:(lra)) as I0.
    pose proof (approx_mul _ _ _ _ _ _ (232 / 100) (1 / 2) 2 I0 HH ltac:(rewrite Rabs_pos_eq; lra) ltac:(apply A1; lra) ltac:(unfold half_ulp; lra) ltac:(lra)) as I3.
    destruct (mul_coef _ _ _ _ _ _ _ (3625 / 4096) AL BL ltac:(lra) C1 ltac:(apply A1; lra) ltac:(lra) ltac:(lra) ltac:(lra)) as (U1 & UB1).
    destruct (mul_coef _ _ _ _ _ _ _ (7465 / 4096) AM BM ltac:(lra) C2 ltac:(apply A1; lra) ltac:(lra) ltac:(lra) ltac:(lra)) as (U2 & UB2).
    destruct (mul_coef _ _ _ _ _ _ _ (3840 / 4096) AN BN ltac:(lra) C3 ltac:(apply A1; lra) ltac:(lra) ltac:(lra) ltac:(lra)) as (U3 & UB3).
    destruct (mul_coef _ _ _ _ _ _ _ (9500 / 4096) AL BL ltac:(lra) D1 ltac:(apply A1; lra) ltac:(lra) ltac:(lra) ltac:(lra)) as (V1 & VB1).
    destruct (mul_coef _ _ _ _ _ _ _ (9212 / 4096) AM BM ltac:(lra) D2 ltac:(apply A1; lra) ltac:(lra) ltac:(lra) ltac:(lra)) as (V2 & VB2).
    destruct (mul_coef _ _ _ _ _ _ _ (288 / 4096) AN BN ltac:(lra) D3 ltac:(apply A1; lra) ltac:(lra) ltac:(lra) ltac:(lra)) as (V3 & VB3).
    pose proof (approx_sub _ _ _ _ _ _ 3 U1 U2 ltac:(match goal with |- Rabs ?a + _ <= _ => assert (Rabs a <= 28 / 10) by (apply Rabs_le; lra) end; lra) ltac:(lra)) as U4.
    pose proof (approx_add _ _ _ _ _ _ 3 U4 U3 ltac:(match goal with |- Rabs ?a + _ <= _ => assert (Rabs a <= 28 / 10) by (apply Rabs_le; lra) end; unfold half_ulp; lra) ltac:(lra)) as U5.
    pose proof (approx_sub _ _ _ _ _ _ 3 V1 V2 ltac:(match goal with |- Rabs ?a + _ <= _ => assert (Rabs a <= 28 / 10) by (apply Rabs_le; lra) end; lra) ltac:(lra)) as V4.
    pose proof (approx_sub _ _ _ _ _ _ 3 V4 V3 ltac:(match goal with |- Rabs ?a + _ <= _ => assert (Rabs a <= 28 / 10) by (apply Rabs_le; lra) end; unfold half_ulp; lra) ltac:(lra)) as V5.
    unfold half_ulp in *. split; [|repeat split; apply Rabs_le; lra].
    split; [|split].
    + eapply approx_eq; [eapply approx_le; [exact I3|lra]|field].
    + eapply approx_eq; [eapply approx_le; [exact U5|lra]|field].
    + eapply approx_eq; [eapply approx_le; [exact V5|lra]|field].
Qed.

(** * One pixel *)

Lemma max_near : forall a b e, 0 <= b -> Rabs (a - b) <= e -> Rabs (Rmax a 0 - b) <= e.
Proof. intros a b e B H. apply Rabs_le_inv in H. apply Rabs_le. unfold Rmax. destruct (Rle_dec a 0); lra. Qed.

Lemma ictcp_pixel : forall L s t p q w, accurate L -> is_bt2100 s -> approx3 (map3 (eotf L t) q) w (57 / 10000000) ->
  (let '(x, y, z) := w in 0 <= x <= 12 / 10 /\ 0 <= y <= 12 / 10 /\ 0 <= z <= 12 / 10) ->
  let lms := to_lms (to_xyz p (map3 (eotf L t) q)) in
  let l := Rmax (fval (fst3 lms)) 0 in
  let m := Rmax (fval (snd3 lms)) 0 in
  let n := Rmax (fval (thd3 lms)) 0 in
  SpecIctcp.within3 (1 / 80000) (l, m, n) (cones p (fst3 w) (snd3 w) (thd3 w)) /\ 0 <= l /\ 0 <= m /\ 0 <= n /\
  let v := rgb_yuv L s t p q in
  let i := ictcp_matrix s (ictcp_curve s l) (ictcp_curve s m) (ictcp_curve s n) in
  (approx (fst3 v) (fst3 i) (mix_error s) /\ approx (snd3 v) (snd3 i) (mix_error s) /\ approx (thd3 v) (thd3 i) (mix_error s)) /\
  Rabs (fst3 i) <= 28 / 10 /\ Rabs (snd3 i) <= 28 / 10 /\ Rabs (thd3 i) <= 28 / 10.
Proof.
  intros L s t p q ((r, g), b) A S D (R1 & R2 & R3). cbv zeta.
  destruct (to_xyz_acc p _ _ _ D (conj R1 (conj R2 R3)) ltac:(lra)) as (X & XB).
  pose proof (to_lms_acc _ _ _ X XB ltac:(lra)) as Y. rewrite cones_code in Y. change (cones p (fst3 (r, g, b)) (snd3 (r, g, b)) (thd3 (r, g, b))) with (cones p r g b).
  pose proof (PropIctcp.cones_range p r g b _ R1 R2 R3) as C. destruct (cones p r g b) as [[cl cm] cn]. destruct C as (C1 & C2 & C3).
  assert (RY : rgb_yuv L s t p q = let '(l, m, n) := map3 (oetf L (PropIctcp.curve_of s)) (to_lms (to_xyz p (map3 (eotf L t) q))) in
    match s with
    | SpICtCpPQ => (l * flit 5 1 + m * flit 5 1,
         dot (flit 6610 0) (flit (-13613) 0) (flit 7003 0) l m n / flit 4096 0,
         dot (flit 17933 0) (flit (-17390) 0) (flit (-543) 0) l m n / flit 4096 0)%F
    | _ => ((l + m) * flit 5 1,
         l * flit 88500977 8 - m * flit 18225098 7 + n * flit 9375 4,
         l * flit 2319336 6 - m * flit 22490234 7 - n * flit 703125 7)%F
    end) by (destruct S as [-> | ->]; reflexivity).
  rewrite RY. clear RY. destruct (to_lms (to_xyz p (map3 (eotf L t) q))) as [[l m] n]. destruct Y as (Y1 & Y2 & Y3).
  unfold fst3, snd3, thd3. cbn [fst snd map3].
  assert (K : forall a va, approx a va (14 / 10 * (111 / 100 * (57 / 10000000) + 11 / 10000000) + 12 / 10000000) -> 0 <= va <= 12 / 10 * (1 + 4 / 100000) ->
    Rabs (Rmax (fval a) 0 - va) <= 1 / 80000 /\ 0 <= Rmax (fval a) 0 <= 13 / 10 /\
    approx (oetf L (PropIctcp.curve_of s) a) (ictcp_curve s (Rmax (fval a) 0)) match s with SpICtCpPQ => 1 / 4000 | _ => 5 / 1000000 end).
  { intros a va (NA & EA) VA. assert (W : Rabs (Rmax (fval a) 0 - va) <= 1 / 80000) by (apply max_near; lra).
    split; [exact W|]. apply Rabs_le_inv in W. split; [split; [apply Rmax_r|lra]|].
    apply Rabs_le_inv in EA.
    destruct S as [-> | ->]; cbn [PropIctcp.curve_of ictcp_curve]; [apply pq_enc_max|apply hlg_enc_max]; auto; lra. }
  destruct (K l cl Y1 ltac:(lra)) as (K1 & B1 & E1). destruct (K m cm Y2 ltac:(lra)) as (K2 & B2 & E2). destruct (K n cn Y3 ltac:(lra)) as (K3 & B3 & E3). clear K.
  split; [repeat split; assumption|]. repeat (split; [apply Rmax_r|]).
  pose proof (mix_acc s _ _ _ _ _ _ S (curve_bound s _ S B1) (curve_bound s _ S B2) (curve_bound s _ S B3) E1 E2 E3) as M.
  destruct (ictcp_matrix s _ _ _) as [[vy vu] vv]. destruct S as [-> | ->]; exact M.
Qed.

(** * Storing a value *)

Lemma stored_for_shift : forall b x t e d z, Rabs (x - t) <= d -> stored_for b e x z -> stored_for b (e + d) t z.
Proof.
  intros b x t e d z E H. apply Rabs_le_inv in E. destruct b; cbn [stored_for] in *; unfold truncated, rounded in *; try lra;
    apply Rabs_le_inv in H; apply Rabs_le; lra.
Qed.

Lemma store_from : forall cb f v t0 t e d, approx v t0 e -> Rabs t0 <= 4 -> 0 <= e <= 1 / 20000 -> Rabs (t0 - t) <= d ->
  let M := IZR (max_level f) in
  (0 <= quantise (quant_of cb) f v)%Z /\
  ((cb = AVX512 -> - (1 / 4) + M * d <= M * t <= IZR (top f) + 1 / 4 - M * d) ->
   stored_for cb (M * (e + 3 * u7 + d)) (clamp (IZR (top f)) (M * t)) (quantise (quant_of cb) f v)).
Proof.
  intros cb f v t0 t e d A B E D M. pose proof (max_level_R f) as M1. fold M in M1.
  assert (HT : 0 <= IZR (top f)) by (apply IZR_le; destruct f; discriminate).
  assert (DM : Rabs (M * t0 - M * t) <= M * d).
  { replace (M * t0 - M * t) with (M * (t0 - t)) by ring. rewrite Rabs_mult, (Rabs_pos_eq M) by lra. apply Rmult_le_compat_l; lra. }
  split; [apply quantise_nonneg|].
  - intros AV.
    assert (RG : sampling_of f = SRGB \/ cb <> AVX512 \/ - (1 / 4) <= M * t0 <= IZR (top f) + 1 / 4).
    { right. destruct cb; [left; discriminate|left; discriminate|right|left; discriminate]. specialize (AV eq_refl). apply Rabs_le_inv in DM. lra. }
    destruct (acc_store cb f v t0 e A B E RG) as (ST & _). fold M in ST.
    replace (M * (e + 3 * u7 + d)) with (M * (e + 3 * u7) + M * d) by ring.
    eapply stored_for_shift; [|exact ST]. apply clamp_near; assumption.
Qed.

Lemma level_scale : forall full M v, M * y_level full 1 v = y_level full M v /\ M * c_level full 1 v = c_level full M v.
Proof. intros [] M v; unfold y_level, c_level; lra. Qed.
Lemma level_step : forall full a b e, Rabs (a - b) <= e ->
  Rabs (y_level full 1 a - y_level full 1 b) <= e /\ Rabs (c_level full 1 a - c_level full 1 b) <= e.
Proof. intros [] a b e H; apply Rabs_le_inv in H; unfold y_level, c_level; split; apply Rabs_le; lra. Qed.
Lemma level_bound : forall full a, Rabs a <= 29 / 10 -> Rabs (y_level full 1 a) <= 4 /\ Rabs (c_level full 1 a) <= 4.
Proof. intros [] a H; apply Rabs_le_inv in H; unfold y_level, c_level; split; apply Rabs_le; lra. Qed.

Lemma store_level : forall cb f i u v e, approx u v e -> Rabs v <= 28 / 10 -> 0 <= e <= 1 / 200 ->
  let M := IZR (max_level f) in let full := yc_full_range i in
  let E := e + 33 * u7 in
  ((cb = AVX512 -> - (1 / 4) + M * E <= y_level full M v <= IZR (top f) + 1 / 4 - M * E) ->
    stored_for cb (M * E) (clamp (IZR (top f)) (y_level full M v)) (quantise (quant_of cb) f (encode_y i u))) /\
  ((cb = AVX512 -> - (1 / 4) + M * E <= c_level full M v <= IZR (top f) + 1 / 4 - M * E) ->
    stored_for cb (M * E) (clamp (IZR (top f)) (c_level full M v)) (quantise (quant_of cb) f (encode_c i u))).
Proof.
  intros cb f i u v e (N & A) B E0 M full E. pose proof (max_level_R f) as M1. fold M in M1.
  assert (BU : Rabs (fval u) <= 29 / 10) by (apply Rabs_le_inv in A; apply Rabs_le_inv in B; apply Rabs_le; lra).
  destruct (level_scale full M v) as (<- & <-). destruct (level_step full _ _ _ A) as (S1 & S2). destruct (level_bound full _ BU) as (B1 & B2).
  assert (ME : M * e <= M * E) by (apply Rmult_le_compat_l; unfold E, u7; lra).
  pose proof (acc_encode_y i u (fval u) 0 (exact_approx u N) ltac:(lra) ltac:(lra)) as Q1.
  pose proof (acc_encode_c i u (fval u) 0 (exact_approx u N) ltac:(lra) ltac:(lra)) as Q2. fold full in Q1, Q2.
  destruct (store_from cb f _ _ _ _ _ Q1 B1 ltac:(unfold u7; lra) S1) as (_ & T1). destruct (store_from cb f _ _ _ _ _ Q2 B2 ltac:(unfold u7; lra) S2) as (_ & T2).
  fold M in T1, T2.
  split; intros AV.
  - eapply stored_for_weaken; [apply T1; intros X; specialize (AV X); lra|]. apply Rmult_le_compat_l; [lra|]. unfold E, u7. lra.
  - eapply stored_for_weaken; [apply T2; intros X; specialize (AV X); lra|]. apply Rmult_le_compat_l; [lra|]. unfold E, u7. lra.
Qed.

(** * C76 *)

Lemma Rabs_triang_step : forall a b c, Rabs (a - c) <= Rabs (a - b) + Rabs (b - c).
Proof. intros a b c. replace (a - c) with ((a - b) + (b - c)) by ring. apply Rabs_triang. Qed.

(** PQ is steep near black, and its matrix has large coefficients *)
Definition ictcp_error (s : color_space) : R := match s with SpICtCpPQ => 1 / 400 | _ => 1 / 25000 end.

(** Converting RGB to ICtCp: what is stored is the level of cone responses that
    are those of the linear light of the pixels up to 1/80000, within 1/25000
    of full scale for HLG, 1/400 for PQ, and the rounding of the integer.
    Missing: the chroma of 4:2:0 (the vectorised code computes something else,
    see C19); PQ sources; other transfer functions or primaries than those of
    the source. *)
Theorem C76_rgb_to_ictcp_partial : forall sp sl b m src sps dst dps i,
  converts (libm_of sp sl) b m src sps dst dps -> bytes_ok m ->
  sampling_of (im_format src) = SRGB -> sampling_of (im_format dst) <> SRGB ->
  im_color dst = CYUV i -> is_bt2100 (yc_space i) ->
  same_light (im_color src) (im_color dst) = true ->
  let t := ci_transfer (im_color src) in
  t <> TBT2100PQ ->
  let s c x y := level m (im_format src) sps c x y / 255 in
  forall c x y, has_comp (im_format dst) c = true -> in_image dst x y ->
  (sampling_of (im_format dst) = S420 -> c = CY) ->
  let cb := column_backend b (im_width dst) x in
  platform_pow sp sl cb ->
  exists l m' n,
    (forall x y,
      SpecIctcp.within3 (1 / 80000) (l x y, m' x y, n x y)
        (cones (ci_primaries (im_color src)) (decoded t (s CR x y)) (decoded t (s CG x y)) (decoded t (s CB x y))) /\
      0 <= l x y /\ 0 <= m' x y /\ 0 <= n x y) /\
    let M := IZR (max_level (im_format dst)) in
    let E := M * ictcp_error (yc_space i) in
    let v := ictcp_level (yc_space i) (yc_full_range i) (im_format dst) l m' n c x y in
    let hi := IZR (top (im_format dst)) in
    exists z, stored (libm_of sp sl) b m src dst dps c x y = Some z /\ (0 <= z)%Z /\
      ((cb = AVX512 -> - (1 / 4) + E <= v <= hi + 1 / 4 - E) -> stored_for cb E (clamp hi v) z).
Proof.
  intros sp sl b m src sps dst dps i CVT B FS FD CI S SL t TS s c x y HC HI N420 cb PL.
  pose proof (accurate_lane sp sl cb PL) as A. assert (VS : valid_image src sps) by apply CVT.
  set (L := lane_of (libm_of sp sl) cb) in *.
  assert (SK : same_image_kind src dst = false).
  { unfold same_image_kind. apply andb_false_iff; left. destruct (im_format src), (im_format dst); try reflexivity; cbn in FS, FD; congruence. }
  assert (TP : ci_transfer (im_color dst) = t /\ ci_primaries (im_color dst) = ci_primaries (im_color src)).
  { unfold t. unfold same_light in SL. destruct (ci_transfer (im_color src)), (ci_transfer (im_color dst)); try discriminate SL;
      destruct (ci_primaries (im_color src)), (ci_primaries (im_color dst)); try discriminate SL; auto. }
  destruct TP as (TE & PE). rewrite CI in TE, PE. cbn [ci_transfer ci_primaries] in TE, PE.
  set (ps := ci_primaries (im_color src)) in *.
  set (q := fun x y => fst (source_pixel L m (im_format src) (im_color src) sps x y)).
  set (lms := fun x y => to_lms (to_xyz ps (map3 (eotf L t) (q x y)))).
  set (l := fun x y => Rmax (fval (fst3 (lms x y))) 0). set (mm := fun x y => Rmax (fval (snd3 (lms x y))) 0). set (n := fun x y => Rmax (fval (thd3 (lms x y))) 0).
  assert (PX : forall x y, SpecIctcp.within3 (1 / 80000) (l x y, mm x y, n x y)
        (cones ps (decoded t (s CR x y)) (decoded t (s CG x y)) (decoded t (s CB x y))) /\ 0 <= l x y /\ 0 <= mm x y /\ 0 <= n x y /\
     let v := rgb_yuv L (yc_space i) t ps (q x y) in
     let w := ictcp_matrix (yc_space i) (ictcp_curve (yc_space i) (l x y)) (ictcp_curve (yc_space i) (mm x y)) (ictcp_curve (yc_space i) (n x y)) in
     (approx (fst3 v) (fst3 w) (mix_error (yc_space i)) /\ approx (snd3 v) (snd3 w) (mix_error (yc_space i)) /\ approx (thd3 v) (thd3 w) (mix_error (yc_space i))) /\
     Rabs (fst3 w) <= 28 / 10 /\ Rabs (snd3 w) <= 28 / 10 /\ Rabs (thd3 w) <= 28 / 10).
  { intros x' y'. destruct (rgb_light L m src sps x' y' A VS B FS TS) as (D & R).
    exact (ictcp_pixel L (yc_space i) t ps (q x' y') _ A S D R). }
  exists l, mm, n. split; [intros x' y'; destruct (PX x' y') as (P1 & P2 & P3 & P4 & _); auto|].
  intros M E v hi.
  assert (ICT : ictcp_chroma420 (im_format dst) (im_color dst) c = false).
  { unfold ictcp_chroma420. destruct (sampling_of (im_format dst)) eqn:ES; try (destruct (im_color dst), c; reflexivity). rewrite N420 by reflexivity. rewrite CI. reflexivity. }
  rewrite (stored_expected _ _ _ _ _ _ _ CVT c x y HC HI ICT). fold cb L. eexists; split; [reflexivity|]. split; [apply quantise_nonneg|].
  intros AV. unfold expected_value. rewrite SK, CI.
  pose proof (max_level_R (im_format dst)) as M1. fold M in M1.
  assert (CC : c = CY \/ c = CU \/ c = CV) by (unfold has_comp in HC; destruct (sampling_of (im_format dst)), c; auto; congruence).
  set (W := fun x y => ictcp_matrix (yc_space i) (ictcp_curve (yc_space i) (l x y)) (ictcp_curve (yc_space i) (mm x y)) (ictcp_curve (yc_space i) (n x y))) in *.
  assert (PIX : forall x y, fst (recolored L (im_color src) (CYUV i) (source_pixel L m (im_format src) (im_color src) sps x y)) = q x y).
  { intros. unfold recolored. rewrite <- CI, SL. reflexivity. }
  assert (ME : 0 <= mix_error (yc_space i) <= 1 / 400) by (destruct S as [-> | ->]; cbn; lra).
  assert (EE : mix_error (yc_space i) + 63 * u7 <= ictcp_error (yc_space i)) by (destruct S as [-> | ->]; cbn; unfold u7; lra).
  assert (EM : M * (mix_error (yc_space i) + 30 * u7 + 33 * u7) <= E) by (unfold E; apply Rmult_le_compat_l; lra).
  assert (MN : forall (sel : f32 * f32 * f32 -> f32) (selR : R * R * R -> R),
    (forall x y, approx (sel (rgb_yuv L (yc_space i) t ps (q x y))) (selR (W x y)) (mix_error (yc_space i)) /\ Rabs (selR (W x y)) <= 28 / 10) ->
    sampling_of (im_format dst) <> S420 ->
    let u := match sampling_of (im_format dst) with
        | S420 => sel (rgb_yuv L (yc_space i) t ps (mean4 (q (2 * (x / 2)) (2 * (y / 2))) (q (2 * (x / 2)) (2 * (y / 2) + 1)) (q (2 * (x / 2) + 1) (2 * (y / 2))) (q (2 * (x / 2) + 1) (2 * (y / 2) + 1))))
        | S422 => fdiv (fadd (sel (rgb_yuv L (yc_space i) t ps (q (2 * (x / 2)) y))) (sel (rgb_yuv L (yc_space i) t ps (q (2 * (x / 2) + 1) y)))) (flit 2 0)
        | _ => sel (rgb_yuv L (yc_space i) t ps (q x y))
        end%nat in
    approx u (chroma_mean (sampling_of (im_format dst)) (fun x y => selR (W x y)) x y) (mix_error (yc_space i) + 30 * u7) /\
    Rabs (chroma_mean (sampling_of (im_format dst)) (fun x y => selR (W x y)) x y) <= 28 / 10).
  { intros sel selR H NS u. subst u. unfold chroma_mean, mean, chroma_block. destruct (sampling_of (im_format dst)); [congruence| | |congruence];
      cbn [map fst snd fold_right length].
    - rewrite <- (Nat.add_1_r (2 * (x / 2))). destruct (H (2 * (x / 2))%nat y) as ((NA & EA) & BA). destruct (H (2 * (x / 2) + 1)%nat y) as ((NB & EB) & BB).
      set (a := selR (W (2 * (x / 2))%nat y)) in *. set (a' := selR (W (2 * (x / 2) + 1)%nat y)) in *.
      set (f1 := sel (rgb_yuv L (yc_space i) t ps (q (2 * (x / 2))%nat y))) in *. set (f2 := sel (rgb_yuv L (yc_space i) t ps (q (2 * (x / 2) + 1)%nat y))) in *. clearbody f1 f2 a a'.
      apply Rabs_le_inv in EA. apply Rabs_le_inv in EB. apply Rabs_le_inv in BA. apply Rabs_le_inv in BB.
      split; [|simpl INR; apply Rabs_le; lra].
      eapply approx_weaken; [apply (acc_mean2 f1 f2 _ _ 0 (exact_approx _ NA) (exact_approx _ NB)); try (apply Rabs_le; lra); lra|].
      simpl INR. assert (Rabs ((fval f1 + fval f2) / 2 - (a + (a' + 0)) / (1 + 1)) <= mix_error (yc_space i)) by (apply Rabs_le; lra). lra.
    - destruct (H x y) as (HA & BA). simpl INR. replace ((selR (W x y) + 0) / 1) with (selR (W x y)) by field. split; [|exact BA].
      eapply approx_le; [exact HA|]. unfold u7; lra. }
  assert (VE : v = match c with
      | CU => c_level (yc_full_range i) M (chroma_mean (sampling_of (im_format dst)) (fun x y => snd3 (W x y)) x y)
      | CV => c_level (yc_full_range i) M (chroma_mean (sampling_of (im_format dst)) (fun x y => thd3 (W x y)) x y)
      | _ => y_level (yc_full_range i) M (fst3 (W x y)) end) by reflexivity.
  clearbody v. subst v.
  assert (TG : forall v0, target L (im_format dst) (CYUV i) (fun x y => recolored L (im_color src) (CYUV i) (source_pixel L m (im_format src) (im_color src) sps x y)) c x y = v0 ->
    stored_for cb E (clamp hi (match c with
      | CU => c_level (yc_full_range i) M (chroma_mean (sampling_of (im_format dst)) (fun x y => snd3 (W x y)) x y)
      | CV => c_level (yc_full_range i) M (chroma_mean (sampling_of (im_format dst)) (fun x y => thd3 (W x y)) x y)
      | _ => y_level (yc_full_range i) M (fst3 (W x y)) end)) (quantise (quant_of cb) (im_format dst) v0)).
  { intros v0 <-. unfold target. rewrite !PIX, TE, PE.
    destruct CC as [-> |[-> | ->]]; cbv match in AV |- *.
    - destruct (PX x y) as (_ & _ & _ & _ & (P & _) & (PB & _)).
      destruct (store_level cb (im_format dst) i _ (fst3 (W x y)) _ P PB ltac:(lra)) as (T & _). fold M in T. fold hi in T.
      assert (ME' : M * (mix_error (yc_space i) + 33 * u7) <= E) by (eapply Rle_trans; [|exact EM]; apply Rmult_le_compat_l; unfold u7; lra).
      assert (SF := stored_for_weaken _ _ E _ _ (T ltac:(clearbody E; clear - AV ME'; intros X; specialize (AV X); lra)) ME').
      destruct (sampling_of (im_format dst)); try exact SF. congruence.
    - assert (NS : sampling_of (im_format dst) <> S420) by (intros X; specialize (N420 X); discriminate).
      destruct (MN snd3 snd3 ltac:(intros; destruct (PX x0 y0) as (_ & _ & _ & _ & (_ & P & _) & (_ & PB & _)); auto) NS) as (Q & QB).
      destruct (store_level cb (im_format dst) i _ _ _ Q QB ltac:(unfold u7; lra)) as (_ & T). fold M in T. fold hi in T.
      assert (SF := stored_for_weaken _ _ E _ _ (T ltac:(clearbody E; clear - AV EM; intros X; specialize (AV X); lra)) EM).
      destruct (sampling_of (im_format dst)); try exact SF; congruence.
    - assert (NS : sampling_of (im_format dst) <> S420) by (intros X; specialize (N420 X); discriminate).
      destruct (MN thd3 thd3 ltac:(intros; destruct (PX x0 y0) as (_ & _ & _ & _ & (_ & _ & P) & (_ & _ & PB)); auto) NS) as (Q & QB).
      destruct (store_level cb (im_format dst) i _ _ _ Q QB ltac:(unfold u7; lra)) as (_ & T). fold M in T. fold hi in T.
      assert (SF := stored_for_weaken _ _ E _ _ (T ltac:(clearbody E; clear - AV EM; intros X; specialize (AV X); lra)) EM).
      destruct (sampling_of (im_format dst)); try exact SF; congruence. }
  apply TG. reflexivity.
Qed.
Print Assumptions C76_rgb_to_ictcp_partial.

(** With the primaries of BT.2020, the cone responses are those of the
    Recommendation *)
Corollary C76_bt2100_partial : forall sp sl b m src sps dst dps i,
  converts (libm_of sp sl) b m src sps dst dps -> bytes_ok m ->
  sampling_of (im_format src) = SRGB -> sampling_of (im_format dst) <> SRGB ->
  im_color dst = CYUV i -> is_bt2100 (yc_space i) ->
  same_light (im_color src) (im_color dst) = true ->
  let t := ci_transfer (im_color src) in
  t <> TBT2100PQ -> ci_primaries (im_color src) = PrBT2020 ->
  let light c x y := decoded t (level m (im_format src) sps c x y / 255) in
  let bt2100 f x y := f (light CR x y) (light CG x y) (light CB x y) in
  forall c x y, has_comp (im_format dst) c = true -> in_image dst x y ->
  (sampling_of (im_format dst) = S420 -> c = CY) ->
  let cb := column_backend b (im_width dst) x in
  platform_pow sp sl cb ->
  exists l m' n,
    (forall x y,
      SpecIctcp.within3 (1 / 10000) (l x y, m' x y, n x y) (bt2100 bt2100_l x y, bt2100 bt2100_m x y, bt2100 bt2100_s x y) /\
      0 <= l x y /\ 0 <= m' x y /\ 0 <= n x y) /\
    let M := IZR (max_level (im_format dst)) in
    let E := M * ictcp_error (yc_space i) in
    let v := ictcp_level (yc_space i) (yc_full_range i) (im_format dst) l m' n c x y in
    let hi := IZR (top (im_format dst)) in
    exists z, stored (libm_of sp sl) b m src dst dps c x y = Some z /\ (0 <= z)%Z /\
      ((cb = AVX512 -> - (1 / 4) + E <= v <= hi + 1 / 4 - E) -> stored_for cb E (clamp hi v) z).
Proof.
  intros sp sl b m src sps dst dps i CVT B FS FD CI S SL t TS P light bt2100 c x y HC HI N420 cb PL.
  destruct (C76_rgb_to_ictcp_partial sp sl b m src sps dst dps i CVT B FS FD CI S SL TS c x y HC HI N420 PL) as (l & m' & n & H & R).
  exists l, m', n. split; [|exact R]. intros x' y'. destruct (H x' y') as (W & PS). split; [|exact PS]. clear R H.
  rewrite P in W. assert (VS : valid_image src sps) by apply CVT. pose proof (accurate_lane sp sl cb PL) as A.
  destruct (rgb_light _ m src sps x' y' A VS B FS TS) as (_ & (B1 & B2 & B3)).
  pose proof (PropIctcp.cones_standard _ _ _ (12 / 10) B1 B2 B3) as C.
  unfold bt2100, light. change (ci_transfer (im_color src)) with t in C. destruct (cones PrBT2020 _ _ _) as [[a b'] d]. destruct C as (C1 & C2 & C3). destruct W as (W1 & W2 & W3).
  repeat split.
  - eapply Rle_trans; [apply (Rabs_triang_step _ a)|lra].
  - eapply Rle_trans; [apply (Rabs_triang_step _ b')|lra].
  - eapply Rle_trans; [apply (Rabs_triang_step _ d)|lra].
Qed.
Print Assumptions C76_bt2100_partial.

(** An sRGB picture as ICtCp with the HLG curve *)
Definition srgb_2020 : image := ex_image RGBA 2 2 (CRGB TSRGB PrBT2020) (ex_rgba_planes 0).
Definition ictcp22 : image := ex_image I444 2 2 (CYUV (YuvCI TSRGB PrBT2020 SpICtCpHLG true)) i444_planes.
Example C76_example : forall b,
  converts (libm_of avx_pow avx_log) b ex_mem srgb_2020 (ex_rgba_planes 0) ictcp22 i444_planes /\ bytes_ok ex_mem /\
  same_light (im_color srgb_2020) (im_color ictcp22) = true /\ (forall cb, platform_pow avx_pow avx_log cb) /\
  map (fun c => stored (libm_of avx_pow avx_log) b ex_mem srgb_2020 ictcp22 i444_planes c 1 1) [CY; CU; CV] = [Some 139; Some 132; Some 120]%Z.
Proof.
  intros b.
  assert (CV : forall b, converts (libm_of avx_pow avx_log) b ex_mem srgb_2020 (ex_rgba_planes 0) ictcp22 i444_planes).
  { intros b'. apply runs; [| |apply i444_disjoint|discriminate|vm_compute; reflexivity];
      (split; [reflexivity|split; [repeat constructor; cbn; unfold usize; cbn; lia|reflexivity]]). }
  split; [apply CV|]. split; [apply ex_mem_bytes|]. split; [reflexivity|].
  split; [intros cb _; split; [exact avx_pow_ok|split; [exact (log_contract avx_log avx_log_ok)|exact avx_pow_negative]]|].
  unfold comps; cbn [map]; rewrite !(fun c => narrow_expected _ b ex_mem srgb_2020 (ex_rgba_planes 0) ictcp22 i444_planes c 1 1 (CV b)) by
    (first [reflexivity | split; cbn; lia]).
  vm_compute. reflexivity.
Qed.
