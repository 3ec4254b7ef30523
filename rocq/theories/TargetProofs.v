(** Rounding errors of whole pixels: source pixel, and value to be stored. *)

From Coq Require Import ZArith Bool Reals Lia Lra Psatz List Arith.
From Coq Require Import Floats.SpecFloat.
From Flocq Require Import Core.
From Verif Require Import Base Types F32 Simd SpecVector SpecColor SpecGeom SpecConvert SpecReal SimdProofs FloatProofs AccProofs.
Import ListNotations.
Local Open Scope R_scope.

(** * Samples *)

Lemma acc_norm : forall z M, (0 <= z <= M)%Z -> (1 <= M <= 4095)%Z ->
  approx (fdiv (f32_of_Z z) (f32_of_Z M)) (IZR z / IZR M) u7.
Proof.
  intros z M Z0 M0. cbn [fdiv f32_ops].
  destruct (f32_of_Z_num M ltac:(lia)) as (NM & VM).
  pose proof (approx_of_Z z ltac:(lia)) as A.
  assert (H1 : 1 <= IZR M) by (apply IZR_le; lia). assert (HZ : 0 <= IZR z) by (apply IZR_le; lia).
  assert (HM : IZR z <= IZR M) by (apply IZR_le; lia). assert (HB : IZR M <= 4095) by (apply IZR_le; lia).
  eapply approx_le; [eapply (approx_div _ _ _ _ _ (IZR M) A NM VM H1); [rewrite Rabs_pos_eq; lra|lra]|].
  replace (0 / IZR M) with 0 by (field; lra). replace (IZR M / IZR M) with 1 by (field; lra). unfold half_ulp, u7. lra.
Qed.

Lemma level_unit : forall z M, (0 <= z <= M)%Z -> (1 <= M)%Z -> 0 <= IZR z / IZR M <= 1.
Proof.
  intros z M Z0 M0. assert (1 <= IZR M) by (apply IZR_le; lia). assert (0 <= IZR z) by (apply IZR_le; lia).
  assert (IZR z <= IZR M) by (apply IZR_le; lia).
  assert (I : 0 < / IZR M) by (apply Rinv_0_lt_compat; lra). unfold Rdiv. split; [apply Rmult_le_pos; lra|].
  replace 1 with (IZR M * / IZR M) by (field; lra). apply Rmult_le_compat_r; lra.
Qed.

(** * Decoding *)

Lemma level_y_1 : forall full y, level_y full 1 y = if full then y else (255 * y - 16) / 219.
Proof. intros []; intros; unfold level_y; field. Qed.
Lemma level_c_1 : forall full y, level_c full 1 y = if full then y - 1 / 2 else (255 * y - 128) / 224.
Proof. intros []; intros; unfold level_c; field. Qed.

(** [qr], [qg] and [qb] are the color the code computes for [i], up to rounding
    errors. *)
Definition decoder (i : yuv_color_info) (qr qg qb : R -> R -> R -> R) : Prop :=
  (forall y u v vy vu vv e,
    approx y vy e -> approx u vu e -> approx v vv e -> Rabs vy <= 4 -> Rabs vu <= 1 -> Rabs vv <= 1 -> 0 <= e <= 1 / 20000 ->
    let rgb := weights_to_rgb (luma_weights (yc_space i)) (y, u, v) in
    approx (fst3 rgb) (qr vy vu vv) (3 * e + 40 * u7) /\
    approx (snd3 rgb) (qg vy vu vv) (3 * e + 60 * u7) /\
    approx (thd3 rgb) (qb vy vu vv) (3 * e + 40 * u7)) /\
  (forall L c, yuv_rgb L (yc_space i) (yc_transfer i) (yc_primaries i) c = weights_to_rgb (luma_weights (yc_space i)) c).

Lemma acc_decode_by : forall L i qr qg qb y u v vy vu vv, decoder i qr qg qb ->
  approx y vy u7 -> approx u vu u7 -> approx v vv u7 -> 0 <= vy <= 1 -> 0 <= vu <= 1 -> 0 <= vv <= 1 ->
  let Y := level_y (yc_full_range i) 1 vy in
  let U := level_c (yc_full_range i) 1 vu in
  let V := level_c (yc_full_range i) 1 vv in
  let rgb := decode_yuv L i y u v in
  approx (fst3 rgb) (qr Y U V) (190 * u7) /\
  approx (snd3 rgb) (qg Y U V) (190 * u7) /\
  approx (thd3 rgb) (qb Y U V) (190 * u7).
Proof.
  intros L i qr qg qb y u v vy vu vv (K & KE) HY HU HV BY BU BV Y U V rgb.
  set (full := yc_full_range i) in *.
  assert (PY : approx (expand_y full y) Y (42 * u7)).
  { unfold Y. rewrite level_y_1. eapply approx_le.
    - eapply (acc_expand full (fdiv (flit 255 0) (flit 219 0)) 219 y vy u7 HY); [apply abs_bound; lra|unfold u7; lra|auto|unfold u7; const_approx].
    - unfold u7; lra. }
  assert (HC : forall t vt, approx t vt u7 -> 0 <= vt <= 1 -> approx (fsub (expand_c full t) (flit 5 1)) (level_c full 1 vt) (42 * u7)).
  { intros t vt HT BT. rewrite level_c_1.
    assert (PC : approx (expand_c full t) (if full then vt else (255 * vt - 16) / 224) (6 / 5 * u7 + 30 * u7)).
    { eapply (acc_expand full (fdiv (flit 255 0) (flit 224 0)) 224 t vt u7 HT); [apply abs_bound; lra|unfold u7; lra|auto|unfold u7; const_approx]. }
    cbn [fsub f32_ops]. assert (H : approx (flit 5 1 : f32) (1 / 2) u7) by (unfold u7; const_approx).
    eapply approx_le; [eapply approx_eq; [eapply (acc_subc _ _ _ _ (1 / 2) 2 PC); [|exact H|apply abs_bound; lra|unfold u7; lra|lra]|]|unfold u7; lra].
    - apply abs_bound. destruct full; lra.
    - destruct full; field. }
  pose proof (HC u vu HU BU) as PU. pose proof (HC v vv HV BV) as PV. fold U in PU. fold V in PV.
  assert (BYY : Rabs Y <= 4) by (unfold Y; rewrite level_y_1; apply abs_bound; destruct full; lra).
  assert (BUU : Rabs U <= 1) by (unfold U; rewrite level_c_1; apply abs_bound; destruct full; lra).
  assert (BVV : Rabs V <= 1) by (unfold V; rewrite level_c_1; apply abs_bound; destruct full; lra).
  destruct (K _ _ _ Y U V (42 * u7) PY PU PV BYY BUU BVV ltac:(unfold u7; lra)) as (R & G & B).
  assert (E : rgb = weights_to_rgb (luma_weights (yc_space i)) (expand_y full y, fsub (expand_c full u) (flit 5 1), fsub (expand_c full v) (flit 5 1))).
  { unfold rgb, decode_yuv. rewrite KE. reflexivity. }
  rewrite E. split; [|split]; (eapply approx_le; [eassumption|unfold u7; lra]).
Qed.

Lemma decoder_known : forall i k, weights_known (yc_space i) k -> decoder i (red k) (green k) (blue k).
Proof.
  intros i k K. split; [intros; eapply acc_rgb; eassumption|].
  intros L [[y u] v]. unfold yuv_rgb. destruct K as [(-> & _) | (-> & _)]; reflexivity.
Qed.

Lemma acc_decode : forall L i k y u v vy vu vv, weights_known (yc_space i) k ->
  approx y vy u7 -> approx u vu u7 -> approx v vv u7 -> 0 <= vy <= 1 -> 0 <= vu <= 1 -> 0 <= vv <= 1 ->
  let Y := level_y (yc_full_range i) 1 vy in
  let U := level_c (yc_full_range i) 1 vu in
  let V := level_c (yc_full_range i) 1 vv in
  let rgb := decode_yuv L i y u v in
  approx (fst3 rgb) (red k Y U V) (190 * u7) /\
  approx (snd3 rgb) (green k Y U V) (190 * u7) /\
  approx (thd3 rgb) (blue k Y U V) (190 * u7).
Proof.
  intros L i k y u v vy vu vv K HY HU HV BY BU BV.
  exact (acc_decode_by L i _ _ _ y u v vy vu vv (decoder_known i k K) HY HU HV BY BU BV).
Qed.

(** Decoded colors stay small *)
Lemma decode_bound : forall s k vy vu vv, weights_known s k -> Rabs vy <= 6 / 5 -> Rabs vu <= 3 / 5 -> Rabs vv <= 3 / 5 ->
  Rabs (red k vy vu vv) <= 3 /\ Rabs (green k vy vu vv) <= 3 /\ Rabs (blue k vy vu vv) <= 3.
Proof.
  intros s k vy vu vv K BY BU BV. apply Rabs_le_inv in BY, BU, BV.
  destruct K as [(_ & ->) | (_ & ->)]; unfold_k; (split; [|split]); apply Rabs_le; lra.
Qed.

(** * Means *)

Lemma acc_mean4 : forall a b c d va vb vc vd e, approx a va e -> approx b vb e -> approx c vc e -> approx d vd e ->
  Rabs va <= 4 -> Rabs vb <= 4 -> Rabs vc <= 4 -> Rabs vd <= 4 -> 0 <= e <= 1 / 1000 ->
  approx (fmul (fadd (fadd a b) (fadd c d)) (flit 25 2)) ((va + vb + vc + vd) / 4) (e + 30 * u7).
Proof.
  intros a b c d va vb vc vd e A B C D BA BB BC BD E. cbn [fmul fadd f32_ops].
  pose proof (Rabs_triang va vb). pose proof (Rabs_triang vc vd). pose proof (Rabs_triang (va + vb) (vc + vd)).
  pose proof (approx_add _ _ _ _ _ _ 9 A B ltac:(lra) ltac:(lra)) as P1.
  pose proof (approx_add _ _ _ _ _ _ 9 C D ltac:(lra) ltac:(lra)) as P2. unfold half_ulp in P1, P2.
  pose proof (approx_add _ _ _ _ _ _ 17 P1 P2 ltac:(lra) ltac:(lra)) as P3. unfold half_ulp in P3.
  assert (Q : approx (flit 25 2 : f32) (1 / 4) 0) by const_approx.
  eapply approx_le; [eapply approx_eq; [eapply (approx_mul _ _ _ _ _ _ 16 (1 / 4) 5 P3 Q); try (apply abs_bound; lra); lra|field]|].
  unfold half_ulp, u7. lra.
Qed.

Lemma acc_mean2 : forall a b va vb e, approx a va e -> approx b vb e -> Rabs va <= 4 -> Rabs vb <= 4 -> 0 <= e <= 1 / 1000 ->
  approx (fdiv (fadd a b) (flit 2 0)) ((va + vb) / 2) (e + 30 * u7).
Proof.
  intros a b va vb e A B BA BB E. cbn [fdiv fadd f32_ops]. pose proof (Rabs_triang va vb).
  pose proof (approx_add _ _ _ _ _ _ 9 A B ltac:(lra) ltac:(lra)) as P1. unfold half_ulp in P1.
  assert (N : is_num (flit 2 0 : f32)) by (vm_compute; split; reflexivity).
  assert (V : fval (flit 2 0 : f32) = 2).
  { replace (flit 2 0 : f32) with (S754_finite false 8388608 (-22)) by reflexivity. rewrite fval_finite, bpow_inv.
    change (2 ^ 22)%Z with 4194304%Z. lra. }
  eapply approx_le; [eapply (approx_div _ _ _ _ 2 10 P1 N V); lra|]. unfold half_ulp, u7. lra.
Qed.

(** * Encoding *)

Lemma ideal_div : forall (full : bool) M v, M <> 0 -> y_level full 1 v = y_level full M v / M /\ c_level full 1 v = c_level full M v / M.
Proof. intros [] M v H; unfold y_level, c_level; split; field; exact H. Qed.

Lemma mean_linear : forall k r1 g1 b1 r2 g2 b2, (k = bt601 \/ k = bt709) ->
  (cb k r1 g1 b1 + cb k r2 g2 b2) / 2 = cb k ((r1 + r2) / 2) ((g1 + g2) / 2) ((b1 + b2) / 2) /\
  (cr k r1 g1 b1 + cr k r2 g2 b2) / 2 = cr k ((r1 + r2) / 2) ((g1 + g2) / 2) ((b1 + b2) / 2).
Proof. intros k r1 g1 b1 r2 g2 b2 [-> | ->]; unfold_k; split; field. Qed.

Lemma yuv_bound : forall s k r g b, weights_known s k -> Rabs r <= 3 -> Rabs g <= 3 -> Rabs b <= 3 ->
  Rabs (luma k r g b) <= 3 /\ Rabs (cb k r g b) <= 3 /\ Rabs (cr k r g b) <= 3.
Proof.
  intros s k r g b K BR BG BB. apply Rabs_le_inv in BR, BG, BB.
  destruct K as [(_ & ->) | (_ & ->)]; unfold_k; (split; [|split]); apply Rabs_le; lra.
Qed.

Lemma rgb_yuv_known : forall L s k t p c, weights_known s k -> rgb_yuv L s t p c = weights_to_yuv (luma_weights s) c.
Proof. intros L s k t p c [(-> & _) | (-> & _)]; reflexivity. Qed.

Lemma triple_eta : forall (c : f32 * f32 * f32), (fst3 c, snd3 c, thd3 c) = c.
Proof. intros ((a, b), c); reflexivity. Qed.

Lemma abs_mean2 : forall a b, Rabs a <= 3 -> Rabs b <= 3 -> Rabs ((a + b) / 2) <= 3.
Proof. intros a b A B. apply Rabs_le_inv in A, B. apply Rabs_le. lra. Qed.
Lemma abs_mean4 : forall a b c d, Rabs a <= 3 -> Rabs b <= 3 -> Rabs c <= 3 -> Rabs d <= 3 -> Rabs ((a + b + c + d) / 4) <= 3.
Proof. intros a b c d A B C D. apply Rabs_le_inv in A, B, C, D. apply Rabs_le. lra. Qed.

(** The pixel's color is [r], [g], [b] up to [e]. *)
Definition pixel_approx (e : R) (p : pixel) (r g b : R) : Prop :=
  (approx (fst3 (fst p)) r e /\ approx (snd3 (fst p)) g e /\ approx (thd3 (fst p)) b e) /\
  (Rabs r <= 3 /\ Rabs g <= 3 /\ Rabs b <= 3).

(** [qy], [qu] and [qv] are what the code computes of a color for [i], up to
    rounding errors. *)
Definition encoder (L : lane_ops f32) (i : yuv_color_info) (qy qu qv : R -> R -> R -> R) : Prop :=
  (forall p e r g b, 0 <= e <= 1 / 1000 -> pixel_approx e p r g b ->
    let yuv := rgb_yuv L (yc_space i) (yc_transfer i) (yc_primaries i) (fst p) in
    (approx (fst3 yuv) (qy r g b) (e + 40 * u7) /\
     approx (snd3 yuv) (qu r g b) (11 / 10 * e + 40 * u7) /\
     approx (thd3 yuv) (qv r g b) (11 / 10 * e + 40 * u7))) /\
  (forall r g b, Rabs r <= 3 -> Rabs g <= 3 -> Rabs b <= 3 ->
    Rabs (qy r g b) <= 3 /\ Rabs (qu r g b) <= 3 /\ Rabs (qv r g b) <= 3) /\
  (forall r1 g1 b1 r2 g2 b2,
    (qu r1 g1 b1 + qu r2 g2 b2) / 2 = qu ((r1 + r2) / 2) ((g1 + g2) / 2) ((b1 + b2) / 2) /\
    (qv r1 g1 b1 + qv r2 g2 b2) / 2 = qv ((r1 + r2) / 2) ((g1 + g2) / 2) ((b1 + b2) / 2)).

(** [ideal_level] with these *)
Definition level_by (qy qu qv : R -> R -> R -> R) (full : bool) (f : pixel_format) (r g b : nat -> nat -> R) (c : comp) (x y : nat) : R :=
  let M := IZR (max_level f) in
  let s := sampling_of f in
  let r' := chroma_mean s r x y in
  let g' := chroma_mean s g x y in
  let b' := chroma_mean s b x y in
  match c with
  | CU => c_level full M (qu r' g' b')
  | CV => c_level full M (qv r' g' b')
  | _ => y_level full M (qy (r x y) (g x y) (b x y))
  end.

Lemma encoder_known : forall L i k, weights_known (yc_space i) k -> encoder L i (luma k) (cb k) (cr k).
Proof.
  intros L i k K. assert (KK : k = bt601 \/ k = bt709) by (destruct K as [(_ & K) | (_ & K)]; auto).
  split; [|split].
  - intros p e r g b E ((PR & PG & PB) & BR & BG & BB). cbv zeta.
    rewrite (rgb_yuv_known L _ k) by exact K. rewrite <- (triple_eta (fst p)). apply acc_yuv; try assumption; lra.
  - intros. eapply yuv_bound; eassumption.
  - intros. apply mean_linear; exact KK.
Qed.

Lemma acc_target_by : forall L f i qy qu qv pix r g b e x y c, encoder L i qy qu qv -> sampling_of f <> SRGB ->
  has_comp f c = true -> 0 <= e <= 1 / 40000 ->
  (forall p, In p ((x, y) :: chroma_block (sampling_of f) x y) ->
     pixel_approx e (pix (fst p) (snd p)) (r (fst p) (snd p)) (g (fst p) (snd p)) (b (fst p) (snd p))) ->
  approx (target L f (CYUV i) pix c x y) (level_by qy qu qv (yc_full_range i) f r g b c x y / IZR (max_level f)) (11 / 10 * e + 110 * u7).
Proof.
  intros L f i qy qu qv pix r g b e x y c (K1 & K2 & K3) SF HC E H.
  assert (M0 : IZR (max_level f) <> 0) by (destruct f; cbn; lra).
  assert (Q : forall p e, 0 <= e <= 1 / 1000 -> forall r g b, pixel_approx e p r g b ->
    let yuv := rgb_yuv L (yc_space i) (yc_transfer i) (yc_primaries i) (fst p) in
    (approx (fst3 yuv) (qy r g b) (e + 40 * u7) /\
     approx (snd3 yuv) (qu r g b) (11 / 10 * e + 40 * u7) /\
     approx (thd3 yuv) (qv r g b) (11 / 10 * e + 40 * u7)) /\
    Rabs (qy r g b) <= 3 /\ Rabs (qu r g b) <= 3 /\ Rabs (qv r g b) <= 3).
  { intros p e' E' r' g' b' PA. cbv zeta. split; [apply K1; assumption|]. destruct PA as (_ & BR & BG & BB). apply K2; assumption. }
  unfold target. assert (SC : exists s, sampling_of f = s /\ s <> SRGB) by eauto. destruct SC as (s & ES & NS).
  assert (CC : c = CY \/ c = CU \/ c = CV).
  { unfold has_comp in HC. destruct (sampling_of f), c; auto; congruence. }
  pose proof (Q _ e ltac:(lra) _ _ _ (H (x, y) (or_introl eq_refl))) as (P & PB). cbn [fst snd] in P, PB. cbv zeta in P.
  (* luma *)
  assert (HY : approx (encode_y i (fst3 (rgb_yuv L (yc_space i) (yc_transfer i) (yc_primaries i) (fst (pix x y)))))
                 (y_level (yc_full_range i) (IZR (max_level f)) (qy (r x y) (g x y) (b x y)) / IZR (max_level f)) (11 / 10 * e + 110 * u7)).
  { destruct (ideal_div (yc_full_range i) (IZR (max_level f)) (qy (r x y) (g x y) (b x y)) M0) as (<- & _).
    eapply approx_le; [apply acc_encode_y; [apply P|lra|unfold u7; lra]|unfold u7; lra]. }
  (* chroma *)
  set (x0 := (2 * (x / 2))%nat) in *. set (y0 := (2 * (y / 2))%nat) in *.
  assert (HCH : forall (sel : f32 * f32 * f32 -> f32) (q : R -> R -> R -> R),
    (sel = snd3 /\ q = qu) \/ (sel = thd3 /\ q = qv) ->
    approx (encode_c i match sampling_of f with
        | S420 => sel (rgb_yuv L (yc_space i) (yc_transfer i) (yc_primaries i)
                    (mean4 (fst (pix x0 y0)) (fst (pix x0 (y0 + 1)%nat)) (fst (pix (x0 + 1)%nat y0)) (fst (pix (x0 + 1)%nat (y0 + 1)%nat))))
        | S422 => fdiv (fadd (sel (rgb_yuv L (yc_space i) (yc_transfer i) (yc_primaries i) (fst (pix x0 y))))
                    (sel (rgb_yuv L (yc_space i) (yc_transfer i) (yc_primaries i) (fst (pix (x0 + 1)%nat y))))) (flit 2 0)
        | _ => sel (rgb_yuv L (yc_space i) (yc_transfer i) (yc_primaries i) (fst (pix x y)))
        end)
      (c_level (yc_full_range i) (IZR (max_level f))
         (q (chroma_mean (sampling_of f) r x y) (chroma_mean (sampling_of f) g x y) (chroma_mean (sampling_of f) b x y)) / IZR (max_level f))
      (11 / 10 * e + 110 * u7)).
  { intros sel q SQ.
    match goal with |- approx _ (c_level ?a ?m ?v / _) _ => destruct (ideal_div a m v M0) as (_ & <-) end.
    assert (QC : forall p e, 0 <= e <= 1 / 1000 -> forall r g b, pixel_approx e p r g b ->
      approx (sel (rgb_yuv L (yc_space i) (yc_transfer i) (yc_primaries i) (fst p))) (q r g b) (11 / 10 * e + 40 * u7) /\ Rabs (q r g b) <= 3).
    { intros p e' E' r' g' b' PA. destruct (Q p e' E' r' g' b' PA) as ((_ & PU & PV) & (_ & BU & BV)).
      destruct SQ as [(-> & ->) | (-> & ->)]; auto. }
    rewrite ES in *. unfold chroma_mean, mean, chroma_block in *. fold x0 y0 in H |- *. destruct s; [| | |congruence]; cbn [map fst snd fold_right length] in *.
    - (* 4:2:0 *)
      rewrite !Nat.add_1_r.
      pose proof (H (x0, y0) ltac:(cbn; tauto)) as ((AR & AG & AB) & BR & BG & BB).
      pose proof (H (x0, S y0) ltac:(cbn; tauto)) as ((AR' & AG' & AB') & BR' & BG' & BB').
      pose proof (H (S x0, y0) ltac:(cbn; tauto)) as ((AR'' & AG'' & AB'') & BR'' & BG'' & BB'').
      pose proof (H (S x0, S y0) ltac:(cbn; tauto)) as ((AR3 & AG3 & AB3) & BR3 & BG3 & BB3). cbn [fst snd] in *.
      assert (MM : forall q : nat -> nat -> R, (q x0 y0 + (q x0 (S y0) + (q (S x0) y0 + (q (S x0) (S y0) + 0)))) / INR 4
                     = (q x0 y0 + q x0 (S y0) + q (S x0) y0 + q (S x0) (S y0)) / 4) by (intros q'; simpl INR; field).
      rewrite !MM.
      assert (PA : pixel_approx (e + 30 * u7) (mean4 (fst (pix x0 y0)) (fst (pix x0 (S y0))) (fst (pix (S x0) y0)) (fst (pix (S x0) (S y0))), fone)
        ((r x0 y0 + r x0 (S y0) + r (S x0) y0 + r (S x0) (S y0)) / 4)
        ((g x0 y0 + g x0 (S y0) + g (S x0) y0 + g (S x0) (S y0)) / 4)
        ((b x0 y0 + b x0 (S y0) + b (S x0) y0 + b (S x0) (S y0)) / 4)).
      { unfold pixel_approx, mean4, fst3, snd3, thd3 in *. cbn [fst snd]. split; [split; [|split]|split; [|split]];
          try (apply acc_mean4; try assumption; lra); apply abs_mean4; assumption. }
      destruct (QC _ (e + 30 * u7) ltac:(unfold u7; lra) _ _ _ PA) as (PC & BC). cbn [fst] in PC.
      eapply approx_le; [apply acc_encode_c; [exact PC|exact BC|unfold u7; lra]|unfold u7; lra].
    - (* 4:2:2 *)
      rewrite !Nat.add_1_r.
      destruct (QC _ e ltac:(lra) _ _ _ (H (x0, y) ltac:(cbn; tauto))) as (P1 & B1).
      destruct (QC _ e ltac:(lra) _ _ _ (H (S x0, y) ltac:(cbn; tauto))) as (P2 & B2). cbn [fst snd] in *.
      assert (MM : forall q : nat -> nat -> R, (q x0 y + (q (S x0) y + 0)) / INR 2 = (q x0 y + q (S x0) y) / 2) by (intros q'; simpl INR; field).
      rewrite !MM.
      replace (q ((r x0 y + r (S x0) y) / 2) ((g x0 y + g (S x0) y) / 2) ((b x0 y + b (S x0) y) / 2))
        with ((q (r x0 y) (g x0 y) (b x0 y) + q (r (S x0) y) (g (S x0) y) (b (S x0) y)) / 2)
        by (destruct SQ as [(_ & ->) | (_ & ->)]; apply K3).
      eapply approx_le; [apply acc_encode_c; [apply acc_mean2; [exact P1|exact P2|lra|lra|unfold u7; lra]|apply abs_mean2; assumption|unfold u7; lra]|unfold u7; lra].
    - (* 4:4:4 *)
      destruct (QC _ e ltac:(lra) _ _ _ (H (x, y) ltac:(cbn; tauto))) as (P1 & B1). cbn [fst snd] in *.
      assert (MM : forall q : nat -> nat -> R, (q x y + 0) / INR 1 = q x y) by (intros q'; simpl INR; field). rewrite !MM.
      eapply approx_le; [apply acc_encode_c; [exact P1|exact B1|unfold u7; lra]|unfold u7; lra]. }
  unfold level_by. rewrite ES in *.
  destruct CC as [-> |[-> | ->]]; destruct s; try congruence; first [exact HY | apply (HCH snd3 qu); auto | apply (HCH thd3 qv); auto].
Qed.

Lemma acc_target : forall L f i k pix r g b e x y c, weights_known (yc_space i) k -> sampling_of f <> SRGB ->
  has_comp f c = true -> 0 <= e <= 1 / 40000 ->
  (forall p, In p ((x, y) :: chroma_block (sampling_of f) x y) ->
     pixel_approx e (pix (fst p) (snd p)) (r (fst p) (snd p)) (g (fst p) (snd p)) (b (fst p) (snd p))) ->
  approx (target L f (CYUV i) pix c x y) (ideal_level k (yc_full_range i) f r g b c x y / IZR (max_level f)) (11 / 10 * e + 110 * u7).
Proof. intros L f i k pix r g b e x y c K SF HC E H. exact (acc_target_by L f i _ _ _ pix r g b e x y c (encoder_known L i k K) SF HC E H). Qed.

(** * Storing *)

Lemma acc_scale : forall v t e M, approx v t e -> Rabs t <= 4 -> 0 <= e <= 1 / 1000 -> (1 <= M <= 4095)%Z ->
  approx (f32_mul v (f32_of_Z M)) (IZR M * t) (IZR M * (e + 3 * u7)).
Proof.
  intros v t e M A B E HM. assert (H1 : 1 <= IZR M) by (apply IZR_le; lia). assert (H2 : IZR M <= 4095) by (apply IZR_le; lia).
  pose proof (approx_of_Z M ltac:(lia)) as P.
  eapply approx_le; [eapply approx_eq; [eapply (approx_mul _ _ _ _ _ _ 4 (IZR M) (5 * IZR M) A P B)|ring]|].
  - rewrite Rabs_pos_eq; lra.
  - nra.
  - lra.
  - unfold half_ulp, u7. nra.
Qed.

Lemma clamp_near : forall hi x y e, 0 <= hi -> Rabs (x - y) <= e -> Rabs (clamp hi x - clamp hi y) <= e.
Proof.
  intros hi x y e H E. apply Rabs_le_inv in E. apply Rabs_le.
  destruct (clamp_cases hi x H) as [(A & ->)|[(A & ->)|(A & ->)]]; destruct (clamp_cases hi y H) as [(B & ->)|[(B & ->)|(B & ->)]]; lra.
Qed.

Lemma stored_for_near : forall b x t e z, Rabs (x - t) <= e -> stored_for b 0 x z -> stored_for b e t z.
Proof.
  intros b x t e z E H. apply Rabs_le_inv in E. destruct b; cbn [stored_for] in *; unfold truncated, rounded in *; try lra;
    apply Rabs_le_inv in H; apply Rabs_le; lra.
Qed.

Lemma stored_for_weaken : forall b e e' t z, stored_for b e t z -> e <= e' -> stored_for b e' t z.
Proof. intros b e e' t z H E. destruct b; cbn [stored_for] in *; unfold truncated, rounded in *; lra. Qed.

(** The integer stored for a value known up to [e] *)
Lemma acc_store : forall cb f v t e, approx v t e -> Rabs t <= 4 -> 0 <= e <= 1 / 20000 ->
  (sampling_of f = SRGB \/ cb <> AVX512 \/ - (1 / 4) <= IZR (max_level f) * t <= IZR (top f) + 1 / 4) ->
  stored_for cb (IZR (max_level f) * (e + 3 * u7)) (clamp (IZR (top f)) (IZR (max_level f) * t)) (quantise (quant_of cb) f v) /\
  (0 <= quantise (quant_of cb) f v)%Z.
Proof.
  intros cb f v t e A B E R.
  assert (HM : (1 <= max_level f <= 4095)%Z) by (destruct f; cbn; lia).
  assert (HM' : 1 <= IZR (max_level f) <= 4095) by (split; apply IZR_le; lia).
  assert (HT : 0 <= IZR (top f)) by (apply IZR_le; destruct f; discriminate).
  pose proof (acc_scale v t e (max_level f) A B ltac:(lra) HM) as (N & P).
  set (x := f32_mul v (f32_of_Z (max_level f))) in *.
  assert (TOL : IZR (max_level f) * (e + 3 * u7) < 1 / 4) by (unfold u7; nra).
  assert (AB : Rabs (fval x) < 32767).
  { apply Rabs_le_inv in P, B. apply Rabs_lt. nra. }
  assert (Q : stored_for cb 0 (clamp (IZR (top f)) (fval x)) (quantise (quant_of cb) f v)).
  { apply quantise_val; [exact N|exact AB|]. destruct R as [R|[R|R]]; auto. right; right. fold x. apply Rabs_le_inv in P. lra. }
  split; [eapply stored_for_near; [apply clamp_near; [exact HT|exact P]|exact Q]|].
  assert (C : 0 <= clamp (IZR (top f)) (fval x)) by (destruct (clamp_cases (IZR (top f)) (fval x) HT) as [(_ & ->)|[(_ & ->)|(? & ->)]]; lra).
  assert (Z : -1 < IZR (quantise (quant_of cb) f v)).
  { destruct cb; cbn [stored_for] in Q; unfold truncated, rounded in Q; try lra; apply Rabs_le_inv in Q; lra. }
  apply lt_IZR in Z. lia.
Qed.
