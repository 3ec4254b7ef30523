(** Rounding errors of the color formulas for the matrix color spaces. *)

From Coq Require Import ZArith Bool Reals Lia Lra Psatz List.
From Coq Require Import Floats.SpecFloat.
From Flocq Require Import Core.
From Verif Require Import Types F32 Simd SpecVector SpecColor SpecGeom SpecConvert SpecReal FloatProofs SimdProofs QuantProofs PropConvert.
Import ListNotations.
Local Open Scope R_scope.

Lemma approx_le : forall x v e e', approx x v e -> e <= e' -> approx x v e'.
Proof. intros x v e e' (N & H) L. split; [exact N|lra]. Qed.
Lemma approx_eq : forall x v v' e, approx x v e -> v = v' -> approx x v' e.
Proof. intros; subst; assumption. Qed.
Lemma approx_num : forall x v e, approx x v e -> is_num x.
Proof. intros x v e (N & _). exact N. Qed.

Lemma abs_bound : forall x M, - M <= x <= M -> Rabs x <= M.
Proof. intros. apply Rabs_le. lra. Qed.

(** [2^-d] as a fraction *)
Lemma bpow_inv : forall d, bpow radix2 (Z.neg d) = / IZR (2 ^ Z.pos d).
Proof.
  intros d. change (Z.neg d) with (- Z.pos d)%Z. rewrite bpow_opp, <- IZR_Zpower by lia. reflexivity.
Qed.

(** A constant: evaluate it, then compare the fraction with its intended value *)
Ltac const_approx := clear;
  eapply approx_const;
  [vm_compute; reflexivity|vm_compute; reflexivity|];
  cbv iota; rewrite ?bpow_inv;
  repeat match goal with |- context [(2 ^ Z.pos ?p)%Z] =>
    let v := eval vm_compute in (2 ^ Z.pos p)%Z in change (2 ^ Z.pos p)%Z with v end;
  apply Rabs_le; lra.

Definition u7 : R := 1 / 10000000.

(** A product with a constant [c], known up to 1e-7; the factor is at most 4 *)
Lemma acc_mulc : forall a va ea b c C, approx a va ea -> Rabs va <= 4 -> approx b c u7 -> Rabs c <= C ->
  0 <= ea <= 1 / 1000 -> C <= 10 ->
  approx (f32_mul a b) (va * c) (C * ea + 6 * u7 + 3 * C * u7).
Proof.
  intros a va ea b c C A HX B HC E C1. pose proof (Rabs_pos c) as PC. unfold u7 in *.
  assert (ea * C <= 1 / 1000 * C) by (apply Rmult_le_compat_r; lra).
  assert (0 <= ea * C) by (apply Rmult_le_pos; lra).
  eapply approx_le; [eapply (approx_mul a va ea b c _ 4 C ((4 + ea) * (C + 1 / 10000000))); try eassumption; lra|].
  unfold half_ulp. lra.
Qed.

(** A sum of three such products *)
Lemma acc_dot : forall a b c A B C x y z vx vy vz e CA CB CC,
  approx a A u7 -> approx b B u7 -> approx c C u7 -> Rabs A <= CA -> Rabs B <= CB -> Rabs C <= CC -> CA + CB + CC <= 8 ->
  approx x vx e -> approx y vy e -> approx z vz e -> Rabs vx <= 4 -> Rabs vy <= 4 -> Rabs vz <= 4 -> 0 <= e <= 1 / 1000 ->
  approx (dot a b c x y z) (vx * A + vy * B + vz * C) ((CA + CB + CC) * e + 20 * u7 + 10 * (CA + CB + CC) * u7).
Proof.
  intros a b c A B C x y z vx vy vz e CA CB CC HA HB HC BA BB BC S HX HY HZ VX VY VZ E.
  pose proof (Rabs_pos A). pose proof (Rabs_pos B). pose proof (Rabs_pos C).
  pose proof (acc_mulc x vx e a A CA HX VX HA BA E ltac:(lra)) as PX.
  pose proof (acc_mulc y vy e b B CB HY VY HB BB E ltac:(lra)) as PY.
  pose proof (acc_mulc z vz e c C CC HZ VZ HC BC E ltac:(lra)) as PZ.
  assert (MX : Rabs (vx * A) <= 4 * CA) by (rewrite Rabs_mult; apply Rmult_le_compat; try apply Rabs_pos; assumption).
  assert (MY : Rabs (vy * B) <= 4 * CB) by (rewrite Rabs_mult; apply Rmult_le_compat; try apply Rabs_pos; assumption).
  assert (MZ : Rabs (vz * C) <= 4 * CC) by (rewrite Rabs_mult; apply Rmult_le_compat; try apply Rabs_pos; assumption).
  assert (CA * e <= CA * (1 / 1000)) by (apply Rmult_le_compat_l; lra). assert (0 <= CA * e) by (apply Rmult_le_pos; lra).
  assert (CB * e <= CB * (1 / 1000)) by (apply Rmult_le_compat_l; lra). assert (0 <= CB * e) by (apply Rmult_le_pos; lra).
  assert (CC * e <= CC * (1 / 1000)) by (apply Rmult_le_compat_l; lra). assert (0 <= CC * e) by (apply Rmult_le_pos; lra).
  unfold u7 in *.
  assert (T1 : Rabs (vx * A + vy * B) <= 4 * CA + 4 * CB) by (eapply Rle_trans; [apply Rabs_triang|]; lra).
  assert (T2 : Rabs (vx * A + vy * B + vz * C) <= 4 * CA + 4 * CB + 4 * CC) by (eapply Rle_trans; [apply Rabs_triang|]; lra).
  pose proof (approx_add _ _ _ _ _ _ (5 * (CA + CB) + 1 / 100000) PX PY ltac:(lra) ltac:(lra)) as P1.
  unfold half_ulp in P1.
  pose proof (approx_add _ _ _ _ _ _ (5 * (CA + CB + CC) + 1 / 10000) P1 PZ ltac:(lra) ltac:(lra)) as P2.
  unfold dot. cbn [fadd fmul f32_ops]. eapply approx_le; [exact P2|]. unfold half_ulp. lra.
Qed.

Definition weights_known (s : color_space) (k : weights) : Prop :=
  (s = SpBT601 /\ k = bt601) \/ (s = SpBT709 /\ k = bt709).

Ltac unfold_k := unfold cb, cr, green, red, blue, luma, bt601, bt709, bt2020, w_g; cbn [w_r w_b].

(** * RGB to YUV *)

Lemma acc_yuv : forall s k r g b vr vg vb e, weights_known s k ->
  approx r vr e -> approx g vg e -> approx b vb e -> Rabs vr <= 4 -> Rabs vg <= 4 -> Rabs vb <= 4 -> 0 <= e <= 1 / 1000 ->
  let yuv := weights_to_yuv (luma_weights s) (r, g, b) in
  approx (fst3 yuv) (luma k vr vg vb) (e + 40 * u7) /\
  approx (snd3 yuv) (cb k vr vg vb) (11 / 10 * e + 40 * u7) /\
  approx (thd3 yuv) (cr k vr vg vb) (11 / 10 * e + 40 * u7).
Proof.
  intros s k r g b vr vg vb e K HR HG HB VR VG VB E yuv.
  destruct K as [(-> & ->) | (-> & ->)]; unfold yuv, weights_to_yuv, luma_weights, fst3, snd3, thd3; cbn [fst snd];
    (split; [|split]).
  - eapply approx_le; [eapply approx_eq; [eapply (acc_dot _ _ _ (299 / 1000) (587 / 1000) (114 / 1000) r g b vr vg vb e (299 / 1000) (587 / 1000) (114 / 1000));
      try assumption; try (unfold u7; const_approx); try (apply abs_bound; lra); lra|unfold_k; field]|unfold u7; lra].
  - eapply approx_le; [eapply approx_eq; [eapply (acc_dot _ _ _ (- (299 / 1772)) (- (587 / 1772)) (1 / 2) r g b vr vg vb e (169 / 1000) (332 / 1000) (1 / 2));
      try assumption; try (unfold u7; const_approx); try (apply abs_bound; lra); lra|unfold_k; field]|unfold u7; lra].
  - eapply approx_le; [eapply approx_eq; [eapply (acc_dot _ _ _ (1 / 2) (- (587 / 1402)) (- (114 / 1402)) r g b vr vg vb e (1 / 2) (419 / 1000) (82 / 1000));
      try assumption; try (unfold u7; const_approx); try (apply abs_bound; lra); lra|unfold_k; field]|unfold u7; lra].
  - eapply approx_le; [eapply approx_eq; [eapply (acc_dot _ _ _ (2126 / 10000) (7152 / 10000) (722 / 10000) r g b vr vg vb e (2126 / 10000) (7152 / 10000) (722 / 10000));
      try assumption; try (unfold u7; const_approx); try (apply abs_bound; lra); lra|unfold_k; field]|unfold u7; lra].
  - eapply approx_le; [eapply approx_eq; [eapply (acc_dot _ _ _ (- (2126 / 18556)) (- (7152 / 18556)) (1 / 2) r g b vr vg vb e (115 / 1000) (386 / 1000) (1 / 2));
      try assumption; try (unfold u7; const_approx); try (apply abs_bound; lra); lra|unfold_k; field]|unfold u7; lra].
  - eapply approx_le; [eapply approx_eq; [eapply (acc_dot _ _ _ (1 / 2) (- (7152 / 15748)) (- (722 / 15748)) r g b vr vg vb e (1 / 2) (455 / 1000) (46 / 1000));
      try assumption; try (unfold u7; const_approx); try (apply abs_bound; lra); lra|unfold_k; field]|unfold u7; lra].
Qed.

(** * Range encoding *)

Lemma acc_addc : forall a va ea b vb C, approx a va ea -> Rabs va <= C -> approx b vb u7 -> Rabs vb <= 4 ->
  0 <= ea <= 1 / 1000 -> C <= 100 -> approx (f32_add a b) (va + vb) (ea + (6 + C) * u7).
Proof.
  intros a va ea b vb C A HA B HB E HC. pose proof (Rabs_pos va). unfold u7 in *.
  eapply approx_le; [eapply (approx_add _ _ _ _ _ _ (C + 5) A B); [|lra]|unfold half_ulp; lra].
  pose proof (Rabs_triang va vb). lra.
Qed.

Lemma acc_subc : forall a va ea b vb C, approx a va ea -> Rabs va <= C -> approx b vb u7 -> Rabs vb <= 4 ->
  0 <= ea <= 1 / 1000 -> C <= 100 -> approx (f32_sub a b) (va - vb) (ea + (6 + C) * u7).
Proof.
  intros a va ea b vb C A HA B HB E HC. pose proof (Rabs_pos va). unfold u7 in *.
  eapply approx_le; [eapply (approx_sub _ _ _ _ _ _ (C + 5) A B); [|lra]|unfold half_ulp; lra].
  unfold Rminus. pose proof (Rabs_triang va (- vb)). rewrite Rabs_Ropp in *. lra.
Qed.

(** [c + a * b] with constants [b] and [c] *)
Lemma acc_affine : forall a va ea b vb c vc, approx a va ea -> Rabs va <= 4 -> approx b vb u7 -> Rabs vb <= 1 ->
  approx c vc u7 -> Rabs vc <= 1 -> 0 <= ea <= 1 / 10000 ->
  approx (f32_add c (f32_mul a b)) (vc + va * vb) (ea + 20 * u7).
Proof.
  intros a va ea b vb c vc A HA B HB Hc HC E.
  pose proof (acc_mulc a va ea b vb 1 A HA B HB ltac:(lra) ltac:(lra)) as P.
  assert (T : Rabs (va * vb) <= 4) by (rewrite Rabs_mult; replace 4 with (4 * 1) by lra; apply Rmult_le_compat; try apply Rabs_pos; assumption).
  unfold u7 in *.
  eapply approx_le; [eapply (approx_add _ _ _ _ _ _ 6 Hc P); [|lra]|unfold half_ulp; lra].
  pose proof (Rabs_triang vc (va * vb)). lra.
Qed.

Lemma acc_encode_y : forall i y vy e, approx y vy e -> Rabs vy <= 4 -> 0 <= e <= 1 / 10000 ->
  approx (encode_y i y) (y_level (yc_full_range i) 1 vy) (e + 20 * u7).
Proof.
  intros i y vy e A HA E. unfold encode_y, compress_y, y_level. destruct (yc_full_range i).
  - eapply approx_weaken; [exact A|]. rewrite Rmult_1_l, Rminus_diag_eq, Rabs_R0 by reflexivity. unfold u7; lra.
  - cbn [fadd fmul f32_ops]. eapply approx_eq.
    + eapply (acc_affine y vy e _ (219 / 255) _ (16 / 255)); try assumption; try (unfold u7; const_approx); apply abs_bound; lra.
    + field.
Qed.

Lemma acc_encode_c : forall i u vu e, approx u vu e -> Rabs vu <= 3 -> 0 <= e <= 1 / 20000 ->
  approx (encode_c i u) (c_level (yc_full_range i) 1 vu) (e + 30 * u7).
Proof.
  intros i u vu e A HA E. unfold encode_c, compress_c, c_level.
  assert (H : approx (flit 5 1 : f32) (1 / 2) u7) by (unfold u7; const_approx).
  assert (P : approx (fadd u (flit 5 1)) (vu + 1 / 2) (e + 9 * u7)).
  { cbn [fadd f32_ops]. eapply approx_le; [eapply (acc_addc u vu e _ (1 / 2) 3); try eassumption; try lra; apply abs_bound; lra|]. lra. }
  destruct (yc_full_range i).
  - eapply approx_weaken; [exact P|]. rewrite Rmult_1_l, Rminus_diag_eq, Rabs_R0 by reflexivity. unfold u7; lra.
  - cbn [fadd fmul f32_ops] in *. eapply approx_le; [eapply approx_eq|].
    + eapply (acc_affine _ (vu + 1 / 2) _ _ (224 / 255) _ (16 / 255)); [exact P|..]; try (unfold u7; const_approx); try (apply abs_bound; lra).
      * eapply Rle_trans; [apply Rabs_triang|]. rewrite (Rabs_pos_eq (1 / 2)) by lra. lra.
      * unfold u7. lra.
    + field.
    + unfold u7; lra.
Qed.

(** * Range decoding *)

Lemma acc_expand : forall full c d y vy e, approx y vy e -> Rabs vy <= 2 -> 0 <= e <= 1 / 10000 ->
  (d = 219 \/ d = 224) -> approx c (255 / d) u7 ->
  approx (if full : bool then y else f32_mul (f32_sub y (fdiv (flit 16 0) (flit 255 0))) c)
    (if full : bool then vy else (255 * vy - 16) / d) (6 / 5 * e + 30 * u7).
Proof.
  intros full c d y vy e A HA E D C. destruct full.
  - eapply approx_le; [exact A|unfold u7; lra].
  - assert (H : approx (fdiv (flit 16 0) (flit 255 0) : f32) (16 / 255) u7) by (unfold u7; const_approx).
    pose proof (acc_subc y vy e _ (16 / 255) 2 A HA H ltac:(apply abs_bound; lra) ltac:(lra) ltac:(lra)) as P.
    assert (T : Rabs (vy - 16 / 255) <= 4).
    { unfold Rminus. eapply Rle_trans; [apply Rabs_triang|]. rewrite Rabs_Ropp, (Rabs_pos_eq (16 / 255)) by lra. lra. }
    assert (B : Rabs (255 / d) <= 7 / 6) by (apply abs_bound; destruct D as [-> | ->]; lra).
    eapply approx_le; [eapply approx_eq; [eapply (acc_mulc _ _ _ c (255 / d) (7 / 6) P T C B); unfold u7; lra|]|unfold u7; lra].
    destruct D as [-> | ->]; field.
Qed.

(** * YUV to RGB *)

Lemma acc_rgb : forall s k y u v vy vu vv e, weights_known s k ->
  approx y vy e -> approx u vu e -> approx v vv e -> Rabs vy <= 4 -> Rabs vu <= 1 -> Rabs vv <= 1 -> 0 <= e <= 1 / 20000 ->
  let rgb := weights_to_rgb (luma_weights s) (y, u, v) in
  approx (fst3 rgb) (red k vy vu vv) (3 * e + 40 * u7) /\
  approx (snd3 rgb) (green k vy vu vv) (3 * e + 60 * u7) /\
  approx (thd3 rgb) (blue k vy vu vv) (3 * e + 40 * u7).
Proof.
  intros s k y u v vy vu vv e K HY HU HV VY VU VV E rgb.
  assert (R : forall c C, approx c C u7 -> Rabs C <= 2 -> forall t vt, approx t vt e -> Rabs vt <= 1 ->
    approx (f32_add y (f32_mul t c)) (vy + vt * C) (3 * e + 40 * u7)).
  { intros c C HC BC t vt HT BT. pose proof (acc_mulc t vt e c C 2 HT ltac:(lra) HC BC ltac:(lra) ltac:(lra)) as P.
    assert (T : Rabs (vt * C) <= 2) by (rewrite Rabs_mult; replace 2 with (1 * 2) by lra; apply Rmult_le_compat; try apply Rabs_pos; assumption).
    unfold u7 in *. eapply approx_le; [eapply (approx_add _ _ _ _ _ _ 7 HY P); [|lra]|unfold half_ulp; lra].
    pose proof (Rabs_triang vy (vt * C)). lra. }
  assert (G : forall c C d D, approx c C u7 -> Rabs C <= 3 / 4 -> approx d D u7 -> Rabs D <= 3 / 4 ->
    approx (f32_add y (f32_add (f32_mul v c) (f32_mul u d))) (vy + (vv * C + vu * D)) (3 * e + 60 * u7)).
  { intros c C d D HC BC HD BD.
    pose proof (acc_mulc v vv e c C (3 / 4) HV ltac:(lra) HC BC ltac:(lra) ltac:(lra)) as P1.
    pose proof (acc_mulc u vu e d D (3 / 4) HU ltac:(lra) HD BD ltac:(lra) ltac:(lra)) as P2.
    assert (T1 : Rabs (vv * C) <= 3 / 4) by (rewrite Rabs_mult; replace (3 / 4) with (1 * (3 / 4)) by lra; apply Rmult_le_compat; try apply Rabs_pos; assumption).
    assert (T2 : Rabs (vu * D) <= 3 / 4) by (rewrite Rabs_mult; replace (3 / 4) with (1 * (3 / 4)) by lra; apply Rmult_le_compat; try apply Rabs_pos; assumption).
    pose proof (Rabs_triang (vv * C) (vu * D)). pose proof (Rabs_triang vy (vv * C + vu * D)).
    unfold u7 in *.
    pose proof (approx_add _ _ _ _ _ _ 2 P1 P2 ltac:(lra) ltac:(lra)) as P3. unfold half_ulp in P3.
    eapply approx_le; [eapply (approx_add _ _ _ _ _ _ 7 HY P3); [|lra]|unfold half_ulp; lra]. lra. }
  destruct K as [(-> & ->) | (-> & ->)]; unfold rgb, weights_to_rgb, luma_weights, fst3, snd3, thd3; cbv zeta; cbn [fst snd];
    cbn [fadd fmul f32_ops] in *; (split; [|split]).
  - eapply approx_eq; [eapply (R _ (1402 / 1000)); [unfold u7; const_approx|apply abs_bound; lra|exact HV|exact VV]|unfold_k; field].
  - eapply approx_eq; [eapply (G _ (- (299 * 1402) / 587000) _ (- (114 * 1772) / 587000));
      try (unfold u7; const_approx); apply abs_bound; lra|unfold_k; field].
  - eapply approx_eq; [eapply (R _ (1772 / 1000)); [unfold u7; const_approx|apply abs_bound; lra|exact HU|exact VU]|unfold_k; field].
  - eapply approx_eq; [eapply (R _ (15748 / 10000)); [unfold u7; const_approx|apply abs_bound; lra|exact HV|exact VV]|unfold_k; field].
  - eapply approx_eq; [eapply (G _ (- (2126 * 15748) / 71520000) _ (- (722 * 18556) / 71520000));
      try (unfold u7; const_approx); apply abs_bound; lra|unfold_k; field].
  - eapply approx_eq; [eapply (R _ (18556 / 10000)); [unfold u7; const_approx|apply abs_bound; lra|exact HU|exact VU]|unfold_k; field].
Qed.

(** * Stores *)

Lemma num_den_val : forall s m e n d, num_den s m e = (n, d) -> (0 < d)%Z /\ fval (S754_finite s m e) * IZR d = IZR n.
Proof.
  intros s m e n d H. unfold num_den in H. rewrite fval_finite. destruct e as [|p|p]; injection H as <- <-.
  - split; [lia|]. change (bpow radix2 0) with 1. destruct s; rewrite ?Z.mul_1_r; lra.
  - split; [lia|]. rewrite <- IZR_Zpower by lia. rewrite mult_IZR, Rmult_1_r. destruct s; reflexivity.
  - split; [apply pow2_pos|]. rewrite bpow_inv, Rmult_assoc, Rinv_l, Rmult_1_r; [destruct s; reflexivity|].
    apply Rgt_not_eq, IZR_lt, pow2_pos.
Qed.

Lemma clamp_cases : forall hi x, 0 <= hi ->
  (x <= 0 /\ clamp hi x = 0) \/ (hi <= x /\ clamp hi x = hi) \/ (0 <= x <= hi /\ clamp hi x = x).
Proof. intros hi x H. unfold clamp, Rmax, Rmin. destruct (Rle_dec hi x); destruct (Rle_dec 0 _); lra. Qed.

Lemma trunc_sat_val : forall hi x z, is_num x -> (0 <= hi)%Z -> is_trunc_sat hi x z -> truncated 0 (clamp (IZR hi) (fval x)) z.
Proof.
  intros hi x z (V & F) H T. apply IZR_le in H. unfold truncated. destruct x as [s|s| |s m e]; try discriminate F; cbn [is_trunc_sat] in T.
  - subst z. replace (fval (S754_zero s)) with 0 by reflexivity. destruct (clamp_cases (IZR hi) 0 H) as [(_ & ->)|[(A & ->)|(_ & ->)]]; lra.
  - destruct (num_den s m e) as (n, d) eqn:ND. destruct (num_den_val _ _ _ _ _ ND) as (D & E). apply IZR_lt in D.
    set (x := fval _) in *. destruct (Z.leb_spec n 0) as [N|N].
    + subst z. apply IZR_le in N. assert (x <= 0) by nra. destruct (clamp_cases (IZR hi) x H) as [(_ & ->)|[(A & ->)|(A & ->)]]; lra.
    + destruct (Z.leb_spec (hi * d) n) as [B|B].
      * subst z. apply IZR_le in B. rewrite mult_IZR in B. assert (IZR hi <= x) by nra.
        destruct (clamp_cases (IZR hi) x H) as [(A & ->)|[(A & ->)|(A & ->)]]; lra.
      * destruct T as (T1 & T2). apply IZR_le in T1. apply IZR_lt in T2, B, N. rewrite mult_IZR in *. rewrite plus_IZR in T2.
        assert (IZR z <= x) by nra. assert (x < IZR z + 1) by nra. assert (x < IZR hi) by nra. assert (0 < x) by nra.
        destruct (clamp_cases (IZR hi) x H) as [(A & ->)|[(A & ->)|(A & ->)]]; lra.
Qed.

Lemma round_sat_val : forall hi x z, is_num x -> (0 <= hi)%Z -> is_round_sat hi x z -> rounded 0 (clamp (IZR hi) (fval x)) z.
Proof.
  intros hi x z (V & F) H T. pose proof H as HZ. apply IZR_le in H. unfold rounded. destruct x as [s|s| |s m e]; try discriminate F; cbn [is_round_sat] in T.
  - subst z. replace (fval (S754_zero s)) with 0 by reflexivity.
    apply Rabs_le. destruct (clamp_cases (IZR hi) 0 H) as [(_ & ->)|[(A & ->)|(_ & ->)]]; lra.
  - destruct (num_den s m e) as (n, d) eqn:ND. destruct (num_den_val _ _ _ _ _ ND) as (D & E). apply IZR_lt in D.
    set (x := fval _) in *. destruct T as (r & T1 & _ & ->).
    assert (R : - (1 / 2) <= IZR r - x <= 1 / 2).
    { assert (- d <= 2 * (r * d - n) <= d)%Z as (L & U) by lia.
      apply IZR_le in L, U. rewrite opp_IZR, mult_IZR, minus_IZR, mult_IZR in L. rewrite mult_IZR, minus_IZR, mult_IZR in U.
      rewrite <- E in L, U. split; nra. }
    apply Rabs_le. destruct (Z.le_gt_cases r 0) as [A|A].
    + replace (Z.max 0 (Z.min hi r)) with 0%Z by lia. apply IZR_le in A.
      destruct (clamp_cases (IZR hi) x H) as [(_ & ->)|[(B & ->)|(B & ->)]]; lra.
    + destruct (Z.le_gt_cases hi r) as [B|B].
      * replace (Z.max 0 (Z.min hi r)) with hi by lia. apply IZR_lt in A. apply IZR_le in B.
        destruct (clamp_cases (IZR hi) x H) as [(C & ->)|[(C & ->)|(C & ->)]]; lra.
      * replace (Z.max 0 (Z.min hi r)) with r by lia. apply IZR_lt in A, B.
        assert (1 <= IZR r) by (apply IZR_le; apply lt_IZR in A; lia).
        assert (IZR r <= IZR hi - 1) by (rewrite <- minus_IZR; apply IZR_le; apply lt_IZR in B; lia).
        destruct (clamp_cases (IZR hi) x H) as [(C & ->)|[(C & ->)|(C & ->)]]; lra.
Qed.

Lemma abs_below_val : forall b x, is_num x -> Rabs (fval x) < IZR b -> f32_abs_below b x.
Proof.
  intros b x (V & F) H. destruct x as [s|s| |s m e]; try discriminate F; cbn [f32_abs_below]; [exact I|].
  destruct (num_den s m e) as (n, d) eqn:ND. destruct (num_den_val _ _ _ _ _ ND) as (D & E).
  apply lt_IZR. rewrite abs_IZR, mult_IZR, <- E, Rabs_mult. apply IZR_lt in D. rewrite (Rabs_pos_eq (IZR d)) by lra.
  apply Rmult_lt_compat_r; assumption.
Qed.

Lemma in_range_val : forall hi x, is_num x -> - (1 / 2) < fval x < IZR hi + 1 / 2 -> f32_in_range hi x.
Proof.
  intros hi x (V & F) H. destruct x as [s|s| |s m e]; try discriminate F; cbn [f32_in_range]; [exact I|].
  destruct (num_den s m e) as (n, d) eqn:ND. destruct (num_den_val _ _ _ _ _ ND) as (D & E). apply IZR_lt in D.
  split; apply lt_IZR; rewrite ?opp_IZR, ?mult_IZR, ?plus_IZR, ?mult_IZR, <- E; nra.
Qed.

Definition top (f : pixel_format) : Z := if Nat.eqb (sample_bytes f) 2 then 65535%Z else 255%Z.

(** RGB stores clamp on every back end; planar stores need the value in range
    on AVX-512 *)
Lemma quantise_val : forall cb f v, let x := f32_mul v (f32_of_Z (max_level f)) in
  is_num x -> Rabs (fval x) < 32767 ->
  (sampling_of f = SRGB \/ cb <> AVX512 \/ - (1 / 2) < fval x < IZR (top f) + 1 / 2) ->
  stored_for cb 0 (clamp (IZR (top f)) (fval x)) (quantise (quant_of cb) f v).
Proof.
  intros cb f v x N B R.
  assert (H : (0 <= top f)%Z) by (destruct f; discriminate).
  destruct (C18_rounding f v cb) as (T & A2 & A5). fold x in T, A2, A5. fold (top f) in T, A2, A5.
  assert (AB : f32_abs_below 32767 x) by (apply abs_below_val; assumption).
  destruct cb; cbn [stored_for].
  - apply trunc_sat_val; auto.
  - apply round_sat_val; auto.
  - destruct R as [R|[R|R]].
    + unfold top in *. destruct f; try discriminate R; cbn [sample_bytes Nat.eqb] in *;
        cbn [quantise quant_of avx512_quant q_u8i]; apply round_sat_val; try exact N; try exact H; apply avx2_u8_round, AB.
    + congruence.
    + apply round_sat_val; [exact N|exact H|]. apply A5; [reflexivity|]. apply in_range_val; assumption.
  - apply trunc_sat_val; auto.
Qed.
