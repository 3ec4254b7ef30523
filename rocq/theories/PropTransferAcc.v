(** C53: the transfer functions as the back ends compute them in binary32. *)

From Coq Require Import ZArith Bool Reals Lia Lra Psatz.
From Coq Require Import Floats.SpecFloat.
From Flocq Require Import Core IEEE754.BinarySingleNaN.
From Verif Require Import Types F32 Vector Simd Math Color FloatProofs AccProofs SpecColor SpecTransfer PowerProofs MathProofs
  ColorProofs SpecMath LaneProofs TransferProofs.
Local Open Scope R_scope.

(** The transfer functions of a back end, applied to a vector of samples; for
    [Scalar] these are [ColorTransfer::linear_to_scaled] and
    [ColorTransfer::scaled_to_linear] of the public interface.  [sp] and [sl]
    stand for [f32::powf] and [f32::ln] *)
Definition encode_f32 sp sl b (t : color_transfer) (v : nat -> f32) : nat -> f32 :=
  linear_to_scaled (VO := vec_ops (impl_of (libm_of sp sl) b)) t v.
Definition decode_f32 sp sl b (t : color_transfer) (v : nat -> f32) : nat -> f32 :=
  scaled_to_linear (VO := vec_ops (impl_of (libm_of sp sl) b)) t v.

(** What [f32::powf] and [f32::ln] of the platform have to satisfy; asked for on
    the scalar back end only *)
Definition platform sp sl (b : backend) : Prop := b = Scalar -> pow_accurate sp /\ ln_accurate sl.

Definition encode_error (t : color_transfer) : R :=
  match t with TLinear => 0 | TBT2100PQ => 1 / 4000 | _ => 5 / 1000000 end.
(** Linear light of PQ is in cd/m2, 0 .. 10000 *)
Definition decode_error (t : color_transfer) : R :=
  match t with TLinear => 0 | TBT2100PQ => 6 | _ => 5 / 1000000 end.

(** The float that the literal 0.01805397 of the SDR curve stands for *)
Definition sdr_knee : R := 9692651 / 536870912.

(** Encoding linear light, up to four times the reference white *)
Theorem C53_encode_accurate : forall sp sl b t v k, platform sp sl b -> is_num (v k) -> 0 <= fval (v k) <= 4 ->
  (t = TSDR -> fval (v k) <> sdr_knee) ->
  approx (encode_f32 sp sl b t v k) (encoded t (fval (v k))) (encode_error t).
Proof.
  intros sp sl b t v k H N B K. unfold encode_f32. rewrite linear_to_scaled_lane. apply lane_accurate in H.
  set (L := vi_lane _) in *. destruct t; cbn [encoded encode_error].
  - apply exact_approx, N.
  - eapply approx_le; [apply (gamma_enc_ok L); assumption|lra].
  - eapply approx_le; [apply (gamma_enc_ok L); assumption|lra].
  - apply srgb_enc_ok; assumption.
  - pose proof (sdr_enc_ok L (v k) H N B) as S. destruct (Req_EM_T _ _) as [E|_] in S; [|exact S].
    exfalso. apply K; [reflexivity|exact E].
  - apply pq_enc_ok; assumption.
  - apply hlg_enc_ok; assumption.
Qed.
Print Assumptions C53_encode_accurate.

(** Decoding samples *)
Theorem C53_decode_accurate : forall sp sl b t v k, platform sp sl b -> is_num (v k) -> 0 <= fval (v k) <= 1 ->
  approx (decode_f32 sp sl b t v k) (decoded t (fval (v k))) (decode_error t).
Proof.
  intros sp sl b t v k H N B. unfold decode_f32. rewrite scaled_to_linear_lane. apply lane_accurate in H.
  set (L := vi_lane _) in *. destruct t; cbn [decoded decode_error].
  - apply exact_approx, N.
  - eapply approx_le; [apply (gamma_dec_ok L); assumption || lra|lra].
  - eapply approx_le; [apply (gamma_dec_ok L); assumption || lra|lra].
  - eapply approx_le; [apply srgb_dec_ok; assumption || lra|lra].
  - eapply approx_le; [apply sdr_dec_ok; assumption || lra|lra].
  - apply pq_dec_ok; assumption.
  - apply hlg_dec_ok; assumption || lra.
Qed.
Print Assumptions C53_decode_accurate.

(** At the knee of the SDR curve the two branches do not meet: there the code is
    off by at most 3e-4, *)
Theorem C53_sdr_knee : forall sp sl b v k, platform sp sl b -> is_num (v k) -> fval (v k) = sdr_knee ->
  approx (encode_f32 sp sl b TSDR v k) (sdr_encode (fval (v k))) (3 / 10000).
Proof.
  intros sp sl b v k H N E. unfold encode_f32. rewrite linear_to_scaled_lane. apply lane_accurate in H.
  pose proof (sdr_enc_ok _ (v k) H N) as S. rewrite E in *. unfold sdr_knee in *. specialize (S ltac:(lra)).
  destruct (Req_EM_T _ _) as [_|C] in S; [exact S|]. lra.
Qed.
Print Assumptions C53_sdr_knee.

(** and by more than 2e-4, on every back end *)
Theorem C53_sdr_knee_refuted : forall sp sl b, platform sp sl b -> exists x, is_num x /\ 0 <= fval x <= 1 /\
  2 / 10000 <= Rabs (fval (encode_f32 sp sl b TSDR (fun _ => x) 0%nat) - sdr_encode (fval x)).
Proof.
  intros sp sl b H. exists (f32_lit 1805397 8).
  assert (CT : approx (f32_lit 1805397 8) (9692651 / 536870912) 0) by const_approx. apply const_val in CT. destruct CT as (VT & NT & _).
  split; [exact NT|]. rewrite VT. split; [lra|]. unfold encode_f32. rewrite linear_to_scaled_lane. apply lane_accurate in H. set (L := vi_lane _) in *.
  run_f32. destruct (l_lt L (f32_lit 1805397 8) (f32_lit 1805397 8)) eqn:E; [apply (acc_lt _ H) in E; try assumption; lra|]. clear E.
  assert (CA : approx (f32_lit 1099 3) (1099 / 1000) (1 / 10000000)) by const_approx.
  assert (CB : approx (f32_lit 99 3) (99 / 1000) (1 / 100000000)) by const_approx.
  assert (CE : approx (f32_lit 45 2) (9 / 20) (2 / 100000000)) by const_approx. destruct CE as (NE & EE).
  pose proof (enc_curve (l_pow L) _ _ _ (9 / 20) _ (1099 / 1000) _ (99 / 1000) (acc_pow _ H) NT NE VT ltac:(lra) ltac:(lra) EE CA ltac:(lra) CB ltac:(lra)) as Q.
  destruct Q as (_ & Q). unfold sdr_encode. destruct (Rlt_dec _ _) as [_|C]; [|lra].
  assert (P2 : 16422 / 100000 <= power (9692651 / 536870912) (9 / 20)).
  { left. apply (power_above _ _ _ 9 20); simpl; lra. }
  apply Rabs_le_inv in Q. rewrite Rabs_pos_eq; lra.
Qed.
Print Assumptions C53_sdr_knee_refuted.

(** Every back end, platform included: two of them differ by at most twice the
    error *)
Theorem C53_backends_agree : forall sp sl b sp' sl' b' t v k, platform sp sl b -> platform sp' sl' b' ->
  is_num (v k) -> 0 <= fval (v k) <= 1 ->
  Rabs (fval (decode_f32 sp sl b t v k) - fval (decode_f32 sp' sl' b' t v k)) <= 2 * decode_error t /\
  ((t = TSDR -> fval (v k) <> sdr_knee) ->
   Rabs (fval (encode_f32 sp sl b t v k) - fval (encode_f32 sp' sl' b' t v k)) <= 2 * encode_error t).
Proof.
  intros sp sl b sp' sl' b' t v k H H' N B. split.
  - destruct (C53_decode_accurate sp sl b t v k H N B) as (_ & E1). destruct (C53_decode_accurate sp' sl' b' t v k H' N B) as (_ & E2).
    apply Rabs_le_inv in E1. apply Rabs_le_inv in E2. apply Rabs_le. lra.
  - intros K. destruct (C53_encode_accurate sp sl b t v k H N ltac:(lra) K) as (_ & E1).
    destruct (C53_encode_accurate sp' sl' b' t v k H' N ltac:(lra) K) as (_ & E2).
    apply Rabs_le_inv in E1. apply Rabs_le_inv in E2. apply Rabs_le. lra.
Qed.
Print Assumptions C53_backends_agree.

(** The hypotheses are met: the scalar back end with an accurate [powf] and the
    sample 0.5 *)
Example C53_hypotheses : platform avx_pow avx_log Scalar /\ (forall sp sl, platform sp sl AVX2) /\
  is_num (f32_lit 5 1) /\ 0 <= fval (f32_lit 5 1) <= 1 /\ fval (f32_lit 5 1) <> sdr_knee.
Proof.
  split; [intros _; split; [exact avx_pow_ok|exact (log_contract avx_log avx_log_ok)]|]. split; [intros sp sl C; discriminate C|].
  assert (H1 : approx (f32_lit 5 1) (1 / 2) 0) by const_approx. apply const_val in H1. destruct H1 as (V1 & N1 & _).
  rewrite V1. unfold sdr_knee. split; [exact N1|]. lra.
Qed.

(** Half grey in sRGB, 0.73535693..., and back to 0.49999991..., as AVX2
    computes it *)
Example C53_srgb_half : forall sp sl,
  encode_f32 sp sl AVX2 TSRGB (fun _ => f32_lit 5 1) 0%nat = S754_finite false 12337241 (-24) /\
  decode_f32 sp sl AVX2 TSRGB (fun _ => S754_finite false 12337241 (-24)) 0%nat = S754_finite false 16777213 (-25).
Proof. intros sp sl. split; vm_compute; reflexivity. Qed.
