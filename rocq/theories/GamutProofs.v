(** Rounding errors of changes of the transfer function or the primaries, for
    sources of either kind and colors in the gamut of the destination. *)

From Coq Require Import List ZArith Bool Arith Reals Lia Lra Psatz.
From Coq Require Import Floats.SpecFloat.
From Flocq Require Import Core IEEE754.BinarySingleNaN.
From Verif Require Import Base Types Planes ImageM F32 Vector Simd SpecVector SimdProofs QuantProofs SpecGeom GeomProofs
  SpecColor SpecConvert SpecRun Formats Visit Convert VisitProofs ColorProofs ConvertProofs ExactProofs
  SpecReal FloatProofs AccProofs TargetProofs ColorR SpecTransfer PowerProofs MathProofs SpecMath LaneProofs TransferProofs
  Math NegProofs RecolorProofs.
Import ListNotations.
Local Open Scope R_scope.

(** * Comparisons of small negative numbers *)

Lemma f32_abs_neg : forall x, is_num x -> fval x < 0 -> is_num (f32_abs x) /\ fval (f32_abs x) = - fval x.
Proof.
  intros [s|s| |s m e] N P; try (destruct N as (_ & F); discriminate F).
  - unfold fval in P. cbn [SF2R] in P. lra.
  - destruct s.
    + split; [exact N|]. unfold fval. cbn [f32_abs SFabs SF2R cond_Zopp]. rewrite <- F2R_Zopp. reflexivity.
    + exfalso. unfold fval in P. cbn [SF2R cond_Zopp] in P.
      pose proof (F2R_gt_0 radix2 (Float radix2 (Z.pos m) e) ltac:(simpl; lia)) as L. lra.
Qed.

(** NEON compares absolute values *)
Lemma lane_small : forall sp sl b x y, is_num x -> is_num y -> - fval y < fval x < 0 ->
  let L := lane_of (libm_of sp sl) b in l_lt L x y = true /\ l_le L x y = true.
Proof.
  intros sp sl b x y NX NY B L.
  assert (S : f32_lt x y = true /\ f32_le x y = true).
  { rewrite f32_lt_num, f32_le_num by assumption. split; [apply lt_bool|apply le_bool]; lra. }
  assert (N : neon_lt x y = true /\ neon_le x y = true).
  { unfold neon_lt, neon_le. destruct (f32_abs_neg x NX) as (AX & VX); [lra|]. destruct (f32_abs_nonneg y NY) as (AY & VY); [lra|].
    rewrite f32_lt_num, f32_le_num by assumption. rewrite VX, VY. split; [apply lt_bool|apply le_bool]; lra. }
  unfold L. destruct b; assumption.
Qed.

(** * Decoding *)

Lemma power_lip_up : forall y a b B K, 1 <= y -> 0 <= a <= B -> 0 <= b <= B -> y * power B (y - 1) <= K ->
  Rabs (power a y - power b y) <= K * Rabs (a - b).
Proof.
  intros y a b B K Y A HB HK. eapply Rle_trans; [apply (power_base y a b B); assumption|].
  apply Rmult_le_compat_r; [apply Rabs_pos|exact HK].
Qed.

Lemma power_small_base : forall y, 0 <= y <= 2 -> power (1001 / 1000) y <= 1003 / 1000.
Proof.
  intros y Y. rewrite power_pos by lra. unfold Rpower. pose proof (ln_le_sub (1001 / 1000) ltac:(lra)) as L.
  assert (L0 : 0 <= ln (1001 / 1000)) by (left; rewrite <- ln_1; apply ln_increasing; lra).
  assert (D : Rabs (y * ln (1001 / 1000)) <= 2 / 1000) by (rewrite Rabs_pos_eq; nra).
  pose proof (exp_near_one _ _ D ltac:(lra)) as E. apply Rabs_le_inv in E. lra.
Qed.

(** Change of the decoded value when the encoded value changes a little *)
Definition slope (t : color_transfer) : R := match t with TBT2100HLG => 55 / 10 | _ => 282 / 100 end.

Lemma decoded_lip : forall t a b, t <> TBT2100PQ -> 0 <= a <= 10001 / 10000 -> 0 <= b <= 10001 / 10000 ->
  Rabs (decoded t a - decoded t b) <= slope t * Rabs (a - b) + 12 / 1000000.
Proof.
  assert (ORD : forall t, t <> TBT2100PQ ->
    (forall a b, 0 <= a <= b -> b <= 10001 / 10000 -> Rabs (decoded t a - decoded t b) <= slope t * Rabs (a - b) + 12 / 1000000) ->
    forall a b, 0 <= a <= 10001 / 10000 -> 0 <= b <= 10001 / 10000 -> Rabs (decoded t a - decoded t b) <= slope t * Rabs (a - b) + 12 / 1000000).
  { intros t T H a b A B. destruct (Rle_dec a b); [apply H; lra|]. rewrite (Rabs_minus_sym (decoded t a)), (Rabs_minus_sym a). apply H; lra. }
  intros t a b T. apply ORD; [exact T|]. clear a b ORD. intros a b A B. pose proof (Rabs_pos (a - b)) as D0.
  assert (P : forall y u v, 2 <= y <= 28 / 10 -> 0 <= u <= 1001 / 1000 -> 0 <= v <= 1001 / 1000 -> Rabs (power u y - power v y) <= y * (1003 / 1000) * Rabs (u - v)).
  { intros y u v Y U V. apply (power_lip_up y u v (1001 / 1000)); try lra. pose proof (power_small_base (y - 1) ltac:(lra)). nra. }
  destruct t; cbn [decoded slope]; try congruence.
  - lra.
  - pose proof (P (22 / 10) a b ltac:(lra) ltac:(lra) ltac:(lra)). lra.
  - pose proof (P (28 / 10) a b ltac:(lra) ltac:(lra) ltac:(lra)). lra.
  - assert (K1 : 31308 / 10000000 <= power ((4045 / 100000 + 55 / 1000) / (1055 / 1000)) (12 / 5)) by (left; apply (power_above _ _ _ 12 5); simpl; lra).
    assert (K2 : power ((4045 / 100000 + 55 / 1000) / (1055 / 1000)) (12 / 5) <= 31309 / 10000000) by (left; apply (power_below _ _ _ 12 5); simpl; lra).
    assert (PP : forall u v, 0 <= u <= 10001 / 10000 -> 0 <= v <= 10001 / 10000 ->
      Rabs (power ((u + 55 / 1000) / (1055 / 1000)) (12 / 5) - power ((v + 55 / 1000) / (1055 / 1000)) (12 / 5)) <= 23 / 10 * Rabs (u - v)).
    { intros u v U V. pose proof (P (12 / 5) ((u + 55 / 1000) / (1055 / 1000)) ((v + 55 / 1000) / (1055 / 1000)) ltac:(lra) ltac:(lra) ltac:(lra)) as Q.
      replace ((u + 55 / 1000) / (1055 / 1000) - (v + 55 / 1000) / (1055 / 1000)) with ((u - v) * (1000 / 1055)) in Q by field.
      rewrite Rabs_mult, (Rabs_pos_eq (1000 / 1055)) in Q by lra. pose proof (Rabs_pos (u - v)). lra. }
    unfold srgb_decode. destruct (Rle_dec a _) as [HA|HA], (Rle_dec b _) as [HB|HB].
    + rewrite (Rabs_left1 (a - b)) by lra. apply Rabs_le. lra.
    + pose proof (PP (4045 / 100000) b ltac:(lra) ltac:(lra)) as Q. rewrite (Rabs_left1 (a - b)) by lra.
      rewrite (Rabs_left1 (4045 / 100000 - b)) in Q by lra. apply Rabs_le_inv in Q. apply Rabs_le. lra.
    + lra.
    + pose proof (PP a b ltac:(lra) ltac:(lra)). lra.
  - assert (K1 : 18109 / 1000000 <= power ((81490956 / 1000000000 + 993 / 10000) / (1099 / 1000)) (20 / 9)) by (left; apply (power_above _ _ _ 20 9); simpl; lra).
    assert (K2 : power ((81490956 / 1000000000 + 993 / 10000) / (1099 / 1000)) (20 / 9) <= 181208 / 10000000) by (left; apply (power_below _ _ _ 20 9); simpl; lra).
    assert (PP : forall u v, 0 <= u <= 10001 / 10000 -> 0 <= v <= 10001 / 10000 ->
      Rabs (power ((u + 993 / 10000) / (1099 / 1000)) (20 / 9) - power ((v + 993 / 10000) / (1099 / 1000)) (20 / 9)) <= 21 / 10 * Rabs (u - v)).
    { intros u v U V. pose proof (P (20 / 9) ((u + 993 / 10000) / (1099 / 1000)) ((v + 993 / 10000) / (1099 / 1000)) ltac:(lra) ltac:(lra) ltac:(lra)) as Q.
      replace ((u + 993 / 10000) / (1099 / 1000) - (v + 993 / 10000) / (1099 / 1000)) with ((u - v) * (1000 / 1099)) in Q by field.
      rewrite Rabs_mult, (Rabs_pos_eq (1000 / 1099)) in Q by lra. pose proof (Rabs_pos (u - v)). lra. }
    unfold sdr_decode. destruct (Rlt_dec a _) as [HA|HA], (Rlt_dec b _) as [HB|HB].
    + rewrite (Rabs_left1 (a - b)) by lra. apply Rabs_le. lra.
    + pose proof (PP (81490956 / 1000000000) b ltac:(lra) ltac:(lra)) as Q. rewrite (Rabs_left1 (a - b)) by lra.
      rewrite (Rabs_left1 (_ - b)) in Q by lra. apply Rabs_le_inv in Q. apply Rabs_le. lra.
    + lra.
    + pose proof (PP a b ltac:(lra) ltac:(lra)). lra.
  - pose proof ln_e' as LE. apply Rabs_le_inv in LE. pose proof exp_25 as X25.
    assert (X24 : exp (2462 / 1000) <= 1174 / 100).
    { pose proof (exp_close (2462 / 4000) ltac:(lra)) as (H & _).
      assert (C : 54035 / 100000 <= exp (- (2462 / 4000))) by (eapply Rle_trans; [|exact H]; unfold exp_poly; lra).
      replace (2462 / 1000) with (2462 / 4000 + (2462 / 4000 + (2462 / 4000 + 2462 / 4000))) by lra. rewrite !exp_plus.
      rewrite exp_Ropp in C. set (q := exp (2462 / 4000)) in *. assert (Q : 0 < q) by apply exp_pos.
      assert (QB : q <= 100000 / 54035). { apply Rmult_le_compat_r with (r := q) in C; [|lra]. rewrite Rinv_l in C by lra. lra. }
      assert (Q2 : q * q <= 34250 / 10000) by nra. nra. }
    assert (QE : forall w, w <= 10001 / 10000 -> Rpower e' ((w - hc) / ha) <= 1174 / 100).
    { intros w W. eapply Rle_trans; [|exact X24]. unfold Rpower. apply exp_le.
      assert ((w - hc) / ha <= 24616 / 10000) by (apply Rmult_le_reg_r with ha; [unfold ha; lra|]; replace ((w - hc) / ha * ha) with (w - hc) by (unfold ha; field); unfold ha, hc; lra).
      destruct (Rle_dec 0 ((w - hc) / ha)); nra. }
    assert (EE : forall u v, u <= 10001 / 10000 -> v <= 10001 / 10000 ->
      Rabs ((power e' ((u - hc) / ha) + hb) / 12 - (power e' ((v - hc) / ha) + hb) / 12) <= 548 / 100 * Rabs (u - v)).
    { intros u v U V. rewrite !power_pos by (unfold e'; lra).
      replace ((Rpower e' ((u - hc) / ha) + hb) / 12 - (Rpower e' ((v - hc) / ha) + hb) / 12) with ((Rpower e' ((u - hc) / ha) - Rpower e' ((v - hc) / ha)) / 12) by field.
      unfold Rdiv at 1. rewrite Rabs_mult, (Rabs_pos_eq (/ 12)) by lra.
      pose proof (exp_lip ((u - hc) / ha * ln e') ((v - hc) / ha * ln e') (1174 / 100) (QE u ltac:(lra)) (QE v ltac:(lra))) as H.
      replace ((u - hc) / ha * ln e' - (v - hc) / ha * ln e') with ((u - v) * (ln e' / ha)) in H by (unfold ha; field).
      rewrite Rabs_mult, (Rabs_pos_eq (ln e' / ha)) in H by (unfold ha; lra). unfold Rpower.
      assert (L5 : ln e' / ha <= 55919 / 10000) by (unfold ha; lra). pose proof (Rabs_pos (u - v)).
      assert (Rabs (u - v) * (ln e' / ha) <= Rabs (u - v) * (55919 / 10000)) by (apply Rmult_le_compat_l; lra). lra. }
    assert (K : 1 / 12 - 1 / 1000000 <= (power e' ((1 / 2 - hc) / ha) + hb) / 12 <= 1 / 12 + 1 / 1000000).
    { rewrite power_pos by (unfold e'; lra). unfold Rpower.
      set (q := - ((1 / 2 - hc) / ha * ln e')).
      assert (QB : 335008 / 1000000 <= q <= 335011 / 1000000).
      { unfold q. assert (B2 : -33500964 / 100000000 <= (1 / 2 - hc) / ha <= -33500962 / 100000000).
        { split; apply Rmult_le_reg_r with ha; try (unfold ha; lra); replace ((1 / 2 - hc) / ha * ha) with (1 / 2 - hc) by (unfold ha; field); unfold ha, hc; lra. }
        split; nra. }
      replace ((1 / 2 - hc) / ha * ln e') with (- q) by (unfold q; ring).
      pose proof (exp_close q ltac:(lra)) as (E1 & E2).
      assert (E3 : 71532 / 100000 <= exp (- (335011 / 1000000)) /\ exp (- (335008 / 1000000)) <= 71534 / 100000).
      { pose proof (exp_close (335011 / 1000000) ltac:(lra)) as (F1 & _). pose proof (exp_close (335008 / 1000000) ltac:(lra)) as (_ & F2). unfold exp_poly in *. lra. }
      assert (E4 : exp (- (335011 / 1000000)) <= exp (- q)) by (apply exp_le; lra).
      assert (E5 : exp (- q) <= exp (- (335008 / 1000000))) by (apply exp_le; lra).
      pose proof (exp_close (335011 / 1000000) ltac:(lra)) as (F1 & _). pose proof (exp_close (335008 / 1000000) ltac:(lra)) as (_ & F2).
      unfold exp_poly in F1, F2. unfold hb. lra. }
    unfold hlg_decode. destruct (Rle_dec a _) as [HA|HA], (Rle_dec b _) as [HB|HB].
    + rewrite (Rabs_left1 (a - b)) by lra. apply Rabs_le. nra.
    + pose proof (EE (1 / 2) b ltac:(lra) ltac:(lra)) as Q. rewrite (Rabs_left1 (a - b)) by lra. rewrite (Rabs_left1 (_ - b)) in Q by lra.
      apply Rabs_le_inv in Q. apply Rabs_le. nra.
    + lra.
    + pose proof (EE a b ltac:(lra) ltac:(lra)). lra.
Qed.

Lemma decoded_0 : forall t, t <> TBT2100PQ -> decoded t 0 = 0.
Proof.
  intros t T. destruct t; cbn [decoded]; try congruence; rewrite ?power_0; try reflexivity.
  - unfold srgb_decode. destruct (Rle_dec _ _); lra.
  - unfold sdr_decode. destruct (Rlt_dec _ _); lra.
  - unfold hlg_decode. destruct (Rle_dec _ _); lra.
Qed.

(** Error of decoding a component known up to 190e-7 *)
Definition decode_error (t : color_transfer) : R := match t with TBT2100HLG => 122 / 1000000 | _ => 71 / 1000000 end.

(** Rounding can make a component near 0 negative; gamma 2.2 and 2.8 do not
    support that *)
Definition decodable (t : color_transfer) (v : R) : Prop :=
  0 <= v <= 1 /\ (t = TGamma22 \/ t = TGamma28 -> 1 / 50000 <= v).

Lemma decode_near : forall sp sl b t x v, let L := lane_of (libm_of sp sl) b in
  accurate L -> t <> TBT2100PQ -> approx x v (190 * u7) -> decodable t v ->
  approx (eotf L t x) (decoded t v) (decode_error t).
Proof.
  intros sp sl b t x v L A T (N & E) (V & G). pose proof E as E'. apply Rabs_le_inv in E'. unfold u7 in E, E'.
  destruct (Rle_dec 0 (fval x)) as [P|P].
  - assert (B : 0 <= fval x <= 10001 / 10000) by lra.
    apply approx_weaken with (v := decoded t (fval x)) (e := 5 / 1000000).
    + destruct t; cbn [decoded]; try congruence.
      * eapply approx_le; [apply exact_approx, N|lra].
      * eapply approx_le; [apply (gamma_dec_ok L); assumption|lra].
      * eapply approx_le; [apply (gamma_dec_ok L); assumption|lra].
      * eapply approx_le; [apply srgb_dec_ok; assumption|lra].
      * eapply approx_le; [apply sdr_dec_ok; assumption|lra].
      * apply hlg_dec_ok; assumption.
    + pose proof (decoded_lip t (fval x) v T B ltac:(lra)) as H. unfold slope, decode_error in *. destruct t; lra.
  - assert (TG : t <> TGamma22 /\ t <> TGamma28).
    { split; intros ->; specialize (G ltac:(auto)); lra. }
    assert (HX : approx x 0 (2 / 100000)) by (split; [exact N|apply Rabs_le; lra]).
    assert (SM : decoded t v <= slope t * (2 / 100000) + 12 / 1000000 /\ - (12 / 1000000 + slope t * (2 / 100000)) <= decoded t v).
    { pose proof (decoded_lip t v 0 T ltac:(lra) ltac:(lra)) as H. rewrite decoded_0 in H by exact T. rewrite !Rminus_0_r in H.
      rewrite (Rabs_pos_eq v) in H by lra. apply Rabs_le_inv in H. unfold slope in *. destruct t; lra. }
    destruct t; try congruence; try tauto.
    + cbn [eotf decoded decode_error slope] in *. split; [exact N|apply Rabs_le; lra].
    + assert (CT : approx (f32_lit 4045 5) (10858214 / 268435456) 0) by const_approx. apply const_val in CT. destruct CT as (VT & NT & _).
      run_f32. replace (l_le L x (f32_lit 4045 5)) with true by (symmetry; apply lane_small; [exact N|exact NT|lra]).
      assert (LIN : approx (f32_lit 1292 2) (1292 / 100) (5 / 10000000)) by const_approx.
      pose proof (approx_div2 _ _ _ _ _ _ 12 (1 / 100) (1 / 10) HX LIN) as H. replace (0 / _) with 0 in H by (unfold Rdiv; ring). rewrite Rabs_R0 in H.
      specialize (H ltac:(lra) ltac:(lra) ltac:(lra) ltac:(lra) ltac:(lra)).
      eapply approx_weaken; [exact H|]. unfold half_ulp. cbn [decoded decode_error slope] in *.
      assert (Q : srgb_decode v <= 2 / 1000000 /\ 0 <= srgb_decode v) by (unfold srgb_decode; destruct (Rle_dec v _); lra).
      cbn [decoded]. rewrite Rabs_left1 by lra. lra.
    + assert (CT : approx (f32_lit 81490956 9) (10937531 / 134217728) 0) by const_approx. apply const_val in CT. destruct CT as (VT & NT & _).
      run_f32. replace (l_lt L x (f32_lit 81490956 9)) with true by (symmetry; apply lane_small; [exact N|exact NT|lra]).
      assert (LIN : approx (f32_lit 45 1) (9 / 2) 0) by const_approx.
      pose proof (approx_div2 _ _ _ _ _ _ 4 (2 / 100) (1 / 10) HX LIN) as H. replace (0 / _) with 0 in H by (unfold Rdiv; ring). rewrite Rabs_R0 in H.
      specialize (H ltac:(lra) ltac:(lra) ltac:(lra) ltac:(lra) ltac:(lra)).
      eapply approx_weaken; [exact H|]. unfold half_ulp. cbn [decoded decode_error slope] in *.
      assert (Q : sdr_decode v <= 5 / 1000000 /\ 0 <= sdr_decode v) by (unfold sdr_decode; destruct (Rlt_dec v _); lra).
      rewrite Rabs_left1 by lra. lra.
    + assert (N0 : is_num (f32_lit 0 0)) by (split; reflexivity). assert (V0 : fval (f32_lit 0 0) = 0) by reflexivity.
      assert (EQ : exists y, is_num y /\ fval y = 0 /\ eotf L TBT2100HLG x = eotf L TBT2100HLG y).
      { destruct (acc_max _ A x (f32_lit 0 0) N N0) as (NM & VM). rewrite V0, Rmax_right in VM by lra.
        exists (l_max L x (f32_lit 0 0)). split; [exact NM|]. split; [exact VM|].
        assert (MM : l_max L (l_max L x (f32_lit 0 0)) (f32_lit 0 0) = l_max L x (f32_lit 0 0)).
        { destruct x as [s|s| |[|] m e]; try (destruct N as (_ & F); discriminate F).
          - exfalso. unfold fval in P. cbn [SF2R] in P. lra.
          - unfold L. destruct b; vm_compute; reflexivity.
          - exfalso. apply P. unfold fval. cbn [SF2R cond_Zopp]. left. apply F2R_gt_0. simpl. lia. }
        run_f32. cbv zeta. rewrite MM. reflexivity. }
      destruct EQ as (y & NY & VY & ->). pose proof (hlg_dec_ok L y A NY ltac:(lra)) as H. rewrite VY in H.
      eapply approx_weaken; [exact H|]. pose proof (decoded_0 TBT2100HLG T) as Z0. cbn [decoded decode_error slope] in *. rewrite Z0.
      assert (Q : hlg_decode v <= 1 / 1000000 /\ 0 <= hlg_decode v) by (unfold hlg_decode; destruct (Rle_dec v _); [split; nra|lra]).
      rewrite Rabs_left1 by lra. lra.
Qed.

(** * Linear light *)

Lemma to_xyz_round : forall p v w, approx3 v w 0 -> (let '(x, y, z) := w in -1 / 1000 <= x <= 121 / 100 /\ -1 / 1000 <= y <= 121 / 100 /\ -1 / 1000 <= z <= 121 / 100) ->
  approx3 (to_xyz p v) (to_xyz p w) (111 / 100 * 0 + 11 / 10000000) /\ within3 (to_xyz p w) (3 / 2).
Proof.
  intros p ((a, b), c) ((x, y), z) (HA & HB & HC) (BX & BY & BZ).
  assert (E : 0 <= 0 <= 1 / 10000) by lra.
  assert (AX : Rabs x <= 3 / 2) by (apply Rabs_le; lra). assert (AY : Rabs y <= 3 / 2) by (apply Rabs_le; lra). assert (AZ : Rabs z <= 3 / 2) by (apply Rabs_le; lra).
  split.
  - destruct p; cbn [to_xyz approx3]; (split; [|split]); row E.
  - destruct p; cbn [to_xyz within3]; (split; [|split]); unfold dot; cbn [fadd fmul flit R_ops]; lits; apply Rabs_le; lra.
Qed.

Definition near3 (w w' : R * R * R) (e : R) : Prop :=
  let '(x, y, z) := w in let '(x', y', z') := w' in Rabs (x - x') <= e /\ Rabs (y - y') <= e /\ Rabs (z - z') <= e.

(** The two matrices together *)
Lemma light_lip : forall ps pd w w' e, near3 w w' e -> near3 (from_xyz pd (to_xyz ps w)) (from_xyz pd (to_xyz ps w')) (256 / 100 * e).
Proof.
  intros ps pd ((x, y), z) ((x', y'), z') e (HX & HY & HZ). apply Rabs_le_inv in HX. apply Rabs_le_inv in HY. apply Rabs_le_inv in HZ.
  destruct ps, pd; cbn [to_xyz from_xyz near3]; (split; [|split]); unfold dot; cbn [fadd fmul flit R_ops]; lits; apply Rabs_le; lra.
Qed.

Lemma light_acc : forall ps pd v w e, approx3 v w e -> (let '(x, y, z) := w in 0 <= x <= 12 / 10 /\ 0 <= y <= 12 / 10 /\ 0 <= z <= 12 / 10) ->
  0 <= e <= 1 / 1000 -> approx3 (from_xyz pd (to_xyz ps v)) (from_xyz pd (to_xyz ps w)) (256 / 100 * e + 9 / 1000000).
Proof.
  intros ps pd ((a, b), c) ((x, y), z) e ((NA & HA) & (NB & HB) & (NC & HC)) (BX & BY & BZ) E.
  set (w' := (fval a, fval b, fval c)).
  assert (A0 : approx3 (a, b, c) w' 0) by (repeat split; try apply NA; try apply NB; try apply NC; rewrite Rminus_diag_eq, Rabs_R0 by reflexivity; lra).
  pose proof HA as HA'. pose proof HB as HB'. pose proof HC as HC'. apply Rabs_le_inv in HA'. apply Rabs_le_inv in HB'. apply Rabs_le_inv in HC'.
  destruct (to_xyz_round ps (a, b, c) w' A0) as (X1 & X2); [cbn; lra|].
  pose proof (from_xyz_acc pd _ _ _ X1 X2 ltac:(lra)) as F1.
  pose proof (light_lip ps pd w' (x, y, z) e ltac:(split; [exact HA|split; [exact HB|exact HC]])) as F2.
  destruct (from_xyz pd (to_xyz ps (a, b, c))) as ((q1, q2), q3). destruct (from_xyz pd (to_xyz ps w')) as ((p1, p2), p3).
  destruct (from_xyz pd (to_xyz ps (x, y, z))) as ((r1, r2), r3).
  destruct F1 as (G1 & G2 & G3). destruct F2 as (K1 & K2 & K3).
  split; [|split]; (eapply approx_weaken; [eassumption|]); lra.
Qed.

(** * Encoding *)

(** The curves that are not vertical at black *)
Definition gentle (t : color_transfer) : Prop := t = TLinear \/ t = TSRGB \/ t = TSDR.

Lemma encoded_lip2 : forall t a b, gentle t -> 0 <= a -> 0 <= b ->
  Rabs (encoded t a - encoded t b) <= Rmax (13 * Rabs (a - b) + 1 / 1000000) (46 / 10 * Rabs (a - b) + 1 / 3500).
Proof.
  assert (ORD : forall t, (forall a b, 0 <= a <= b -> Rabs (encoded t a - encoded t b) <= Rmax (13 * Rabs (a - b) + 1 / 1000000) (46 / 10 * Rabs (a - b) + 1 / 3500)) ->
    forall a b, 0 <= a -> 0 <= b -> Rabs (encoded t a - encoded t b) <= Rmax (13 * Rabs (a - b) + 1 / 1000000) (46 / 10 * Rabs (a - b) + 1 / 3500)).
  { intros t H a b A B. destruct (Rle_dec a b); [apply H; lra|]. rewrite (Rabs_minus_sym (encoded t a)), (Rabs_minus_sym a). apply H; lra. }
  intros t a b G. apply ORD. clear a b ORD. intros a b B. rewrite (Rabs_left1 (a - b)) by lra.
  pose proof (Rmax_l (13 * - (a - b) + 1 / 1000000) (46 / 10 * - (a - b) + 1 / 3500)). pose proof (Rmax_r (13 * - (a - b) + 1 / 1000000) (46 / 10 * - (a - b) + 1 / 3500)).
  set (mx := Rmax _ _) in *. clearbody mx.
  destruct G as [-> |[-> | ->]]; cbn [encoded].
  - apply Rabs_le. lra.
  - assert (T1 : power (31308 / 10000000) (5 / 12) <= 2891 / 100 * (31308 / 10000000)) by (left; apply (power_below _ _ _ 5 12); simpl; lra).
    assert (T2 : 9047379 / 100000000 <= power (31308 / 10000000) (5 / 12)) by (left; apply (power_above _ _ _ 5 12); simpl; lra).
    assert (T3 : power (31308 / 10000000) (5 / 12) <= 9047389 / 100000000) by (left; apply (power_below _ _ _ 5 12); simpl; lra).
    unfold srgb_encode. destruct (Rle_dec a _) as [HA|HA], (Rle_dec b _) as [HB|HB]; try (apply Rabs_le; lra).
    + pose proof (power_lip (31308 / 10000000) (31308 / 10000000) b (5 / 12) (2891 / 100) ltac:(lra) ltac:(lra) ltac:(lra) T1). apply Rabs_le. lra.
    + pose proof (power_lip (31308 / 10000000) a b (5 / 12) (2891 / 100) ltac:(lra) ltac:(lra) ltac:(lra) T1). apply Rabs_le. lra.
  - assert (T1 : power (1805397 / 100000000) (9 / 20) <= 91 / 10 * (1805397 / 100000000)) by (left; apply (power_below _ _ _ 9 20); simpl; lra).
    assert (T2 : 164231 / 1000000 <= power (1805397 / 100000000) (9 / 20)) by (left; apply (power_above _ _ _ 9 20); simpl; lra).
    assert (T3 : power (1805397 / 100000000) (9 / 20) <= 164233 / 1000000) by (left; apply (power_below _ _ _ 9 20); simpl; lra).
    unfold sdr_encode. destruct (Rlt_dec a _) as [HA|HA], (Rlt_dec b _) as [HB|HB]; try (apply Rabs_le; lra).
    + pose proof (power_lip (1805397 / 100000000) (1805397 / 100000000) b (9 / 20) (91 / 10) ltac:(lra) ltac:(lra) ltac:(lra) T1). apply Rabs_le. lra.
    + pose proof (power_lip (1805397 / 100000000) a b (9 / 20) (91 / 10) ltac:(lra) ltac:(lra) ltac:(lra) T1). apply Rabs_le. lra.
Qed.

(** A linear channel in the gamut, up to rounding *)
Lemma encode_near : forall sp sl b t q p e, let L := lane_of (libm_of sp sl) b in
  accurate L -> gentle t -> approx q p e -> 2 / 100000 <= e <= 1 / 1000 -> - (1 / 100000) <= p <= 3 ->
  approx (oetf L t q) (encoded t (Rmax 0 p)) (13 * e + 15 / 100000).
Proof.
  intros sp sl b t q p e L A G (N & E) EB P. pose proof E as E'. apply Rabs_le_inv in E'.
  assert (TP : t <> TBT2100PQ) by (destruct G as [-> |[-> | ->]]; discriminate).
  assert (M1 : Rabs (fval q - Rmax 0 p) <= e \/ fval q < 0) by (destruct (Rle_dec 0 (fval q)); [left; apply Rabs_le; unfold Rmax; destruct (Rle_dec 0 p); lra|lra]).
  destruct (Rle_dec 0 (fval q)) as [Q|Q].
  - destruct M1 as [M1|M1]; [|lra]. apply Rabs_le_inv in M1. pose proof (Rmax_l 0 p) as M0.
    destruct (encode_num L t q A TP N ltac:(lra)) as (X & XB & XE & H). eapply approx_weaken; [exact H|].
    eapply Rle_trans; [apply (encoded_lip2 t X (Rmax 0 p) G ltac:(lra) M0)|].
    apply Rabs_le_inv in XE. assert (D : Rabs (X - Rmax 0 p) <= e + 1 / 100000000) by (apply Rabs_le; lra).
    assert (RM : Rmax (13 * Rabs (X - Rmax 0 p) + 1 / 1000000) (46 / 10 * Rabs (X - Rmax 0 p) + 1 / 3500) <= 13 * e + 145 / 1000000) by (apply Rmax_lub; lra).
    lra.
  - assert (PB : 0 <= Rmax 0 p <= e) by (unfold Rmax; destruct (Rle_dec 0 p); lra).
    assert (EN : 0 <= encoded t (Rmax 0 p) <= 13 * Rmax 0 p).
    { set (s := Rmax 0 p) in *. destruct G as [-> |[-> | ->]]; cbn [encoded]; [lra| |].
      - unfold srgb_encode. destruct (Rle_dec s _); lra.
      - unfold sdr_encode. destruct (Rlt_dec s _); lra. }
    assert (PQ : Rmax 0 p - fval q <= e + 1 / 100000) by (unfold Rmax; destruct (Rle_dec 0 p); lra).
    assert (HQ : approx q (fval q) 0) by (apply exact_approx, N).
    assert (AQ : Rabs (fval q) <= 2 / 1000) by (apply Rabs_le; lra).
    destruct G as [-> |[-> | ->]].
    + cbn [oetf]. split; [exact N|]. apply Rabs_le. lra.
    + assert (CT : approx (f32_lit 31308 7) (31308 / 10000000) (1 / 1000000)) by const_approx. destruct CT as (NT & VT). apply Rabs_le_inv in VT.
      run_f32. replace (l_le L q (f32_lit 31308 7)) with true by (symmetry; apply lane_small; [exact N|exact NT|lra]).
      assert (C : approx (f32_lit 1292 2) (1292 / 100) (5 / 10000000)) by const_approx.
      pose proof (approx_mul _ _ _ _ _ _ (2 / 1000) 13 (1 / 10) HQ C AQ ltac:(apply Rabs_le; lra) ltac:(lra) ltac:(lra)) as H.
      eapply approx_weaken; [exact H|]. unfold half_ulp. apply Rle_trans with (13 * (e + 1 / 100000)); [|lra].
      apply Rabs_le. lra.
    + assert (CT : approx (f32_lit 1805397 8) (1805397 / 100000000) (1 / 1000000)) by const_approx. destruct CT as (NT & VT). apply Rabs_le_inv in VT.
      run_f32. replace (l_lt L q (f32_lit 1805397 8)) with true by (symmetry; apply lane_small; [exact N|exact NT|lra]).
      assert (C : approx (f32_lit 45 1) (45 / 10) 0) by const_approx.
      pose proof (approx_mul _ _ _ _ _ _ 13 (2 / 1000) (1 / 10) C HQ ltac:(apply Rabs_le; lra) AQ ltac:(lra) ltac:(lra)) as H.
      eapply approx_weaken; [exact H|]. unfold half_ulp. apply Rle_trans with (13 * (e + 1 / 100000)); [|lra].
      apply Rabs_le. lra.
Qed.

(** * Whole pixels *)

Definition gamut3 (w : R * R * R) : Prop :=
  let '(x, y, z) := w in - (1 / 100000) <= x <= 3 /\ - (1 / 100000) <= y <= 3 /\ - (1 / 100000) <= z <= 3.

Lemma recolor_acc : forall sp sl b ts td ps pd c w e, let L := lane_of (libm_of sp sl) b in
  accurate L -> gentle td -> approx3 (map3 (eotf L ts) c) w e -> (let '(x, y, z) := w in 0 <= x <= 12 / 10 /\ 0 <= y <= 12 / 10 /\ 0 <= z <= 12 / 10) ->
  5 / 1000000 <= e <= 1 / 5000 -> gamut3 (from_xyz pd (to_xyz ps w)) ->
  approx3 (recolor L ts td ps pd c) (map3 (fun v => encoded td (Rmax 0 v)) (from_xyz pd (to_xyz ps w))) (13 * (256 / 100 * e + 9 / 1000000) + 15 / 100000).
Proof.
  intros sp sl b ts td ps pd c w e L A G D W E GM. pose proof (light_acc ps pd _ _ e D W ltac:(lra)) as LA.
  unfold recolor. destruct (from_xyz pd (to_xyz ps (map3 (eotf L ts) c))) as ((q1, q2), q3). destruct (from_xyz pd (to_xyz ps w)) as ((p1, p2), p3).
  destruct LA as (L1 & L2 & L3). destruct GM as (G1 & G2 & G3).
  split; [|split]; apply encode_near; try assumption; lra.
Qed.

Lemma chroma_mean_near : forall s q q' E x y, (forall p, In p (chroma_block s x y) -> Rabs (q (fst p) (snd p) - q' (fst p) (snd p)) <= E) ->
  Rabs (chroma_mean s q x y - chroma_mean s q' x y) <= E.
Proof.
  intros s q q' E x y H. unfold chroma_mean, mean. destruct s; unfold chroma_block in *; cbn [map fold_right length fst snd] in *.
  - pose proof (Rabs_le_inv _ _ (H _ (or_introl eq_refl))). pose proof (Rabs_le_inv _ _ (H _ (or_intror (or_introl eq_refl)))).
    pose proof (Rabs_le_inv _ _ (H _ (or_intror (or_intror (or_introl eq_refl))))).
    pose proof (Rabs_le_inv _ _ (H _ (or_intror (or_intror (or_intror (or_introl eq_refl)))))). cbn [fst snd] in *. apply Rabs_le. simpl INR. lra.
  - pose proof (Rabs_le_inv _ _ (H _ (or_introl eq_refl))). pose proof (Rabs_le_inv _ _ (H _ (or_intror (or_introl eq_refl)))). cbn [fst snd] in *.
    apply Rabs_le. simpl INR. lra.
  - pose proof (Rabs_le_inv _ _ (H _ (or_introl eq_refl))). cbn [fst snd] in *. apply Rabs_le. simpl INR. lra.
  - pose proof (Rabs_le_inv _ _ (H _ (or_introl eq_refl))). cbn [fst snd] in *. apply Rabs_le. simpl INR. lra.
Qed.

(** The level changes by at most as much as the color does *)
Lemma ideal_near : forall k full f r g b r' g' b' E c x y, (k = bt601 \/ k = bt709) -> 0 <= E ->
  (forall p, In p ((x, y) :: chroma_block (sampling_of f) x y) ->
     Rabs (r (fst p) (snd p) - r' (fst p) (snd p)) <= E /\ Rabs (g (fst p) (snd p) - g' (fst p) (snd p)) <= E /\ Rabs (b (fst p) (snd p) - b' (fst p) (snd p)) <= E) ->
  Rabs (ideal_level k full f r g b c x y - ideal_level k full f r' g' b' c x y) <= IZR (max_level f) * E.
Proof.
  intros k full f r g b r' g' b' E c x y K E0 H.
  assert (M : 1 <= IZR (max_level f)) by (apply IZR_le; destruct f; cbn; lia).
  pose proof (chroma_mean_near (sampling_of f) r r' E x y (fun p HP => proj1 (H p (or_intror HP)))) as MR.
  pose proof (chroma_mean_near (sampling_of f) g g' E x y (fun p HP => proj1 (proj2 (H p (or_intror HP))))) as MG.
  pose proof (chroma_mean_near (sampling_of f) b b' E x y (fun p HP => proj2 (proj2 (H p (or_intror HP))))) as MB.
  destruct (H (x, y) (or_introl eq_refl)) as (HR & HG & HB). cbn [fst snd] in *.
  assert (YL : forall u v, Rabs (u - v) <= E -> Rabs (y_level full (IZR (max_level f)) u - y_level full (IZR (max_level f)) v) <= IZR (max_level f) * E /\
    Rabs (c_level full (IZR (max_level f)) u - c_level full (IZR (max_level f)) v) <= IZR (max_level f) * E).
  { intros u v D. apply Rabs_le_inv in D. unfold y_level, c_level. destruct full; split; apply Rabs_le; nra. }
  assert (LIN : forall r1 g1 b1 r2 g2 b2, Rabs (r1 - r2) <= E -> Rabs (g1 - g2) <= E -> Rabs (b1 - b2) <= E ->
    Rabs (luma k r1 g1 b1 - luma k r2 g2 b2) <= E /\ Rabs (cb k r1 g1 b1 - cb k r2 g2 b2) <= E /\ Rabs (cr k r1 g1 b1 - cr k r2 g2 b2) <= E).
  { intros r1 g1 b1 r2 g2 b2 D1 D2 D3. apply Rabs_le_inv in D1. apply Rabs_le_inv in D2. apply Rabs_le_inv in D3.
    destruct K as [-> | ->]; unfold_k; (split; [|split]); apply Rabs_le; lra. }
  destruct (LIN _ _ _ _ _ _ HR HG HB) as (LY & _). destruct (LIN _ _ _ _ _ _ MR MG MB) as (_ & LU & LV).
  unfold ideal_level. destruct c; apply YL; assumption.
Qed.
