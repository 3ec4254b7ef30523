(** C25 - C27: the vector interface. *)

From Coq Require Import ZArith Bool List Lia Arith.
From Coq Require Import Floats.SpecFloat.
From Verif Require Import F32 Vector Simd SpecVector SimdProofs QuantProofs.
Import ListNotations.

(** Values stored by the three kinds of stores, for lane [k] *)
Definition stored_u8 (vi : vimpl) (v : vec) (k : nat) : Z := byte_at (vi_write_u8 vi v) k.
Definition stored_u8_2x (vi : vimpl) (v w : vec) (k : nat) : Z := byte_at (vi_write_u8_2x vi v w) k.
Definition stored_u16 (vi : vimpl) (v : vec) (k : nat) : Z := word_at (vi_write_u16 vi v) (2 * k).
Definition stored_u16_2x (vi : vimpl) (v w : vec) (k : nat) : Z := word_at (vi_write_u16_2x vi v w) (2 * k).
Definition stored_3x (vi : vimpl) p (c k : nat) : Z := byte_at (vi_write_u8_3x vi p) (3 * k + c).
Definition stored_4x (vi : vimpl) p (c k : nat) : Z := byte_at (vi_write_u8_4x vi p) (4 * k + c).

(** All stores of a back end meet [P8] (planar 8 bit), [P8i] (interleaved 8
    bit), [P16] (16 bit) *)
Definition stores_meet (vi : vimpl) (P8 P8i P16 : f32 -> Z -> Prop) : Prop :=
  let n := vi_len vi in
  (forall v k, k < n -> P8 (v k) (stored_u8 vi v k)) /\
  (forall v w k, k < 2 * n -> P8 (stream n (v, w) k) (stored_u8_2x vi v w k)) /\
  (forall v k, k < n -> P16 (v k) (stored_u16 vi v k)) /\
  (forall v w k, k < 2 * n -> P16 (stream n (v, w) k) (stored_u16_2x vi v w k)) /\
  (forall p c k, c < 3 -> k < 2 * n -> P8i (ch3 n p c k) (stored_3x vi p c k)) /\
  (forall p c k, c < 4 -> k < 2 * n -> P8i (ch4 n p c k) (stored_4x vi p c k)).

Lemma stores_meet_q : forall lm b (P8 P8i P16 : f32 -> Z -> Prop),
  (forall x, P8 x (q_u8 (quant_of b) x)) -> (forall x, P8i x (q_u8i (quant_of b) x)) ->
  (forall x, P16 x (q_u16 (quant_of b) x)) -> stores_meet (impl_of lm b) P8 P8i P16.
Proof.
  intros lm b P8 P8i P16 H8 H8i H16. pose proof (backend_spec lm b) as S.
  unfold stores_meet, stored_u8, stored_u8_2x, stored_u16, stored_u16_2x, stored_3x, stored_4x. cbv zeta.
  repeat split; intros.
  - rewrite (vs_write_u8 _ _ S) by assumption; auto.
  - rewrite (vs_write_u8_2x _ _ S) by assumption; auto.
  - rewrite (vs_write_u16 _ _ S) by assumption; auto.
  - rewrite (vs_write_u16_2x _ _ S) by assumption; auto.
  - rewrite (vs_write_3x _ _ S) by assumption; auto.
  - rewrite (vs_write_4x _ _ S) by assumption; auto.
Qed.

(** * C25 *)

(** The scalar and the NEON back end: for every float, truncation with
    saturation at both ends (NaN becomes 0) *)
Theorem C25_scalar_neon_saturate : forall lm b, b = Scalar \/ b = NEON ->
  stores_meet (impl_of lm b) (is_trunc_sat 255) (is_trunc_sat 255) (is_trunc_sat 65535).
Proof.
  intros lm b Hb; apply stores_meet_q; intros x; destruct Hb as [-> | ->]; cbn [quant_of scalar_quant neon_quant q_u8 q_u8i q_u16];
    rewrite ?neon_u8_as, ?neon_u16_as; unfold as_u8, as_u16; apply f32_as_trunc; lia.
Qed.

(** AVX2: round to nearest even with saturation, for 8-bit stores of values
    below 32767 and 16-bit stores of values below 2^31 - 1 *)
Theorem C25_avx2_saturate_partial : forall lm,
  stores_meet (impl_of lm AVX2)
    (fun x z => f32_abs_below 32767 x -> is_round_sat 255 x z)
    (fun x z => f32_abs_below 32767 x -> is_round_sat 255 x z)
    (fun x z => f32_abs_below 2147483647 x -> is_round_sat 65535 x z).
Proof.
  intros lm; apply stores_meet_q; intros x; cbn [quant_of avx2_quant q_u8 q_u8i q_u16].
  - apply avx2_u8_round.
  - apply avx2_u8_round.
  - apply avx2_u16_round.
Qed.

(** AVX-512: interleaved stores as AVX2; planar stores only for values that
    round to a representable number *)
Theorem C25_avx512_saturate_partial : forall lm,
  stores_meet (impl_of lm AVX512)
    (fun x z => f32_in_range 255 x -> is_round_sat 255 x z)
    (fun x z => f32_abs_below 32767 x -> is_round_sat 255 x z)
    (fun x z => f32_in_range 65535 x -> is_round_sat 65535 x z).
Proof.
  intros lm; apply stores_meet_q; intros x; cbn [quant_of avx512_quant q_u8 q_u8i q_u16].
  - unfold low_u8. apply low_round; lia.
  - apply avx2_u8_round.
  - unfold low_u16. apply low_round; lia.
Qed.

(** Outside of those ranges the claim fails: AVX2 stores 0 for 40000, AVX-512
    stores 255 for -1 and 0 for 256 *)
Theorem C25_refuted :
  (exists x, x = f32_of_Z 40000 /\
     forall lm v k, k < 8 -> v k = x -> stored_u8 (impl_of lm AVX2) v k = 0%Z) /\
  (exists x, x = f32_of_Z (-1) /\
     forall lm v k, k < 16 -> v k = x -> stored_u8 (impl_of lm AVX512) v k = 255%Z) /\
  (exists x, x = f32_of_Z 256 /\
     forall lm v k, k < 16 -> v k = x -> stored_u8 (impl_of lm AVX512) v k = 0%Z) /\
  (exists x, x = f32_of_Z (-1) /\
     forall lm v k, k < 16 -> v k = x -> stored_u16 (impl_of lm AVX512) v k = 65535%Z).
Proof.
  repeat split; eexists; (split; [reflexivity|]); intros lm v k Hk Hv;
    unfold stored_u8, stored_u16;
    first [ rewrite (vs_write_u8 _ _ (backend_spec lm _)) by exact Hk
          | rewrite (vs_write_u16 _ _ (backend_spec lm _)) by exact Hk ]; rewrite Hv; vm_compute; reflexivity.
Qed.

(** The hypotheses are met by ordinary values, and the specification tells them
    apart: 254.7 is stored as 254 by truncation and as 255 by rounding *)
Example C25_example :
  let x := f32_lit 2547 1 in
  f32_abs_below 32767 x /\ f32_in_range 255 x /\
  is_trunc_sat 255 x 254 /\ ~ is_trunc_sat 255 x 255 /\
  stored_u8 (impl_of (Libm (fun _ a _ => a) (fun _ a => a)) Scalar) (fun _ => x) 0 = 254%Z /\
  stored_u8 (impl_of (Libm (fun _ a _ => a) (fun _ a => a)) AVX2) (fun _ => x) 3 = 255%Z.
Proof. vm_compute. repeat split; try congruence; try reflexivity; intros [H1 H2]; apply H1; reflexivity. Qed.

(** * C26 *)

(** Every back end implements the documented lane layout of zip, unzip, the
    loads, the de-interleaving loads and the interleaving stores; each store
    writes exactly as many bytes as documented. *)
Theorem C26_vector_interface : forall lm b, exists q, vector_spec (impl_of lm b) q.
Proof. intros lm b; exists (quant_of b); apply backend_spec. Qed.

(** unzip undoes zip, and storing interleaved data and loading it again puts
    every channel back in place: independent consequences of the layout *)
Theorem C26_zip_unzip : forall lm b x y k, k < vi_len (impl_of lm b) ->
  let (z0, z1) := vi_zip (impl_of lm b) x y in
  fst (vi_unzip (impl_of lm b) z0 z1) k = x k /\ snd (vi_unzip (impl_of lm b) z0 z1) k = y k.
Proof.
  intros lm b x y k Hk. pose proof (backend_spec lm b) as S.
  destruct (vi_zip (impl_of lm b) x y) as (z0, z1) eqn:E.
  destruct (vs_unzip _ _ S z0 z1 k Hk) as [-> ->]. rewrite <- E.
  rewrite !(vs_zip _ _ S) by lia. split.
  - replace (Nat.even (2 * k)) with true by (symmetry; apply Nat.even_spec; exists k; lia).
    rewrite (Nat.mul_comm 2), Nat.div_mul by lia. reflexivity.
  - replace (Nat.even (2 * k + 1)) with false.
    + f_equal. rewrite Nat.mul_comm, Nat.add_comm, Nat.div_add by lia. reflexivity.
    + rewrite Nat.add_1_r, Nat.even_succ. symmetry. unfold Nat.odd.
      replace (Nat.even (2 * k)) with true by (symmetry; apply Nat.even_spec; exists k; lia). reflexivity.
Qed.

Theorem C26_interleaved_reload : forall lm b l k, k < 2 * vi_len (impl_of lm b) ->
  (forall c, c < 3 ->
    stored_3x (impl_of lm b) (vi_load_u8_3x (impl_of lm b) l) c k
      = q_u8i (quant_of b) (f32_of_Z (byte_at l (3 * k + c)))) /\
  (forall c, c < 4 ->
    stored_4x (impl_of lm b) (vi_load_u8_4x (impl_of lm b) l) c k
      = q_u8i (quant_of b) (f32_of_Z (byte_at l (4 * k + c)))).
Proof.
  intros lm b l k Hk. pose proof (backend_spec lm b) as S. split; intros c Hc; unfold stored_3x, stored_4x.
  - rewrite (vs_write_3x _ _ S), (vs_load_3x _ _ S) by assumption. reflexivity.
  - rewrite (vs_write_4x _ _ S), (vs_load_4x _ _ S) by assumption. reflexivity.
Qed.

(** Byte values survive a load and a store unchanged on every back end. *)
Theorem C26_bytes_survive : forall b z, (0 <= z < 256)%Z ->
  q_u8 (quant_of b) (f32_of_Z z) = z /\ q_u8i (quant_of b) (f32_of_Z z) = z /\
  q_u16 (quant_of b) (f32_of_Z z) = z.
Proof.
  intros b z Hz.
  assert (H : forallb (fun n => let z := Z.of_nat n in
     (Z.eqb (q_u8 (quant_of b) (f32_of_Z z)) z && Z.eqb (q_u8i (quant_of b) (f32_of_Z z)) z
      && Z.eqb (q_u16 (quant_of b) (f32_of_Z z)) z)%bool) (seq 0 256) = true)
    by (destruct b; vm_compute; reflexivity).
  rewrite forallb_forall in H. specialize (H (Z.to_nat z)).
  rewrite Z2Nat.id in H by lia.
  assert (I : In (Z.to_nat z) (seq 0 256)) by (apply in_seq; lia).
  specialize (H I). cbv zeta in H.
  apply andb_prop in H as [H H3]; apply andb_prop in H as [H1 H2].
  apply Z.eqb_eq in H1, H2, H3. auto.
Qed.

(** Lane 5 of the second channel of the second AVX2 block comes from byte 3 * 13 + 1 *)
Example C26_example : forall lm l,
  let '(_, (_, g1, _)) := vi_load_u8_3x (impl_of lm AVX2) l in
  g1 5 = f32_of_Z (byte_at l 40).
Proof.
  intros lm l. pose proof (vs_load_3x _ _ (backend_spec lm AVX2) l 13 1 ltac:(cbn; lia) ltac:(lia)) as H.
  destruct (vi_load_u8_3x (impl_of lm AVX2) l) as [[[a0 b0] c0] [[a1 b1] c1]]. exact H.
Qed.

(** * C27 *)

Definition non_negative (x : f32) : Prop :=
  match x with
  | S754_zero s => True
  | S754_infinity s => s = false
  | S754_nan => True
  | S754_finite s _ _ => s = false
  end.

(** AVX2, AVX-512 and scalar code compare floats identically; on NEON the
    comparison agrees when both operands are non-negative *)
Theorem C27_comparison_partial : forall lm b x y,
  (b = NEON -> non_negative x /\ non_negative y) ->
  l_lt (vi_lane (impl_of lm b)) x y = l_lt (vi_lane (impl_of lm Scalar)) x y /\
  l_le (vi_lane (impl_of lm b)) x y = l_le (vi_lane (impl_of lm Scalar)) x y.
Proof.
  intros lm b x y H. destruct b; cbn [impl_of vi_lane scalar_impl avx2_impl avx512_impl neon_impl
    scalar_lane avx2_lane avx512_lane neon_lane l_lt l_le]; auto.
  destruct (H eq_refl) as [Hx Hy]. unfold neon_lt, neon_le.
  destruct x as [sx|sx| |sx mx ex], y as [sy|sy| |sy my ey]; cbn in Hx, Hy; subst; auto;
    try (destruct sx); try (destruct sy); split; reflexivity.
Qed.

(** On NEON -1 is not below the sRGB threshold 0.0031308, everywhere else it is *)
Theorem C27_refuted : exists x t, t = f32_lit 31308 7 /\ x = f32_of_Z (-1) /\ forall lm,
  l_le (vi_lane (impl_of lm NEON)) x t = false /\ l_lt (vi_lane (impl_of lm NEON)) x t = false /\
  forall b, b <> NEON ->
    l_le (vi_lane (impl_of lm b)) x t = true /\ l_lt (vi_lane (impl_of lm b)) x t = true.
Proof.
  eexists _, _. split; [reflexivity|split; [reflexivity|]]. intros lm.
  split; [reflexivity|split; [reflexivity|]]. intros []; try congruence; intros _; split; reflexivity.
Qed.

(** The maximum of two values other than NaN is the larger one on every back
    end, infinities and values of either sign included *)
Lemma le_cases : forall x y, f32_is_nan x = false -> f32_is_nan y = false ->
  f32_le x x = true /\ (f32_lt x y = true -> f32_le x y = true) /\ (f32_lt x y = false -> f32_le y x = true).
Proof.
  assert (C : forall m n, Pos.compare_cont Eq n m = CompOpp (Pos.compare_cont Eq m n))
    by (intros; change (Pos.compare n m = CompOpp (Pos.compare m n)); symmetry; rewrite <- Pos.compare_antisym; reflexivity).
  intros x y NX NY. unfold f32_le, f32_lt, SFleb, SFltb, SFcompare. split; [|split].
  - destruct x as [|[]| |[] m e]; try reflexivity; try discriminate; rewrite Z.compare_refl;
      change (Pos.compare_cont Eq m m) with (Pos.compare m m); rewrite Pos.compare_refl; reflexivity.
  - destruct x as [[]|[]| |[] m e], y as [[]|[]| |[] n f]; try discriminate; try reflexivity;
      destruct (Z.compare e f); try discriminate; try reflexivity; destruct (Pos.compare_cont Eq m n); try discriminate; reflexivity.
  - destruct x as [[]|[]| |[] m e], y as [[]|[]| |[] n f]; try discriminate; try reflexivity;
      rewrite (Z.compare_antisym e f), (C m n); destruct (Z.compare e f); try discriminate; try reflexivity;
      destruct (Pos.compare_cont Eq m n); try discriminate; reflexivity.
Qed.

Theorem C27_maximum : forall lm b x y, f32_is_nan x = false -> f32_is_nan y = false ->
  let m := l_max (vi_lane (impl_of lm b)) x y in
  (m = x \/ m = y) /\ f32_le x m = true /\ f32_le y m = true.
Proof.
  intros lm b x y NX NY m.
  destruct (le_cases x y NX NY) as (X1 & X2 & X3). destruct (le_cases y x NY NX) as (Y1 & Y2 & Y3).
  destruct b; unfold m; cbn [impl_of vi_lane scalar_impl avx2_impl avx512_impl neon_impl
    scalar_lane avx2_lane avx512_lane neon_lane l_max]; unfold f32_max, x86_max, neon_max; rewrite ?NX, ?NY; cbn [orb].
  - destruct (f32_lt x y); auto.
  - destruct (f32_lt y x); auto.
  - destruct (f32_lt y x); auto.
  - destruct (f32_lt x y); auto. destruct (f32_lt y x); auto. destruct x as [[]| | |]; auto.
Qed.

(** With a NaN the back ends differ: the scalar maximum ignores it, AVX takes
    the second operand, NEON returns NaN *)
Theorem C27_maximum_nan : forall lm x b, let max := l_max (vi_lane (impl_of lm b)) in
  match b with
  | Scalar => max S754_nan x = x /\ max x S754_nan = x
  | AVX2 | AVX512 => max S754_nan x = x /\ max x S754_nan = S754_nan
  | NEON => max S754_nan x = S754_nan /\ max x S754_nan = S754_nan
  end.
Proof. intros lm x []; split; destruct x as [[]|[]| |[]]; reflexivity. Qed.

Example C27_maximum_example : forall lm b,
  l_max (vi_lane (impl_of lm b)) (f32_of_Z (-3)) (f32_lit 5 1) = f32_lit 5 1 /\
  l_max (vi_lane (impl_of lm b)) (f32_of_Z 7) (S754_infinity true) = f32_of_Z 7.
Proof. intros lm []; split; reflexivity. Qed.

Example C27_example : forall lm,
  non_negative (f32_lit 5 1) /\ non_negative (f32_lit 31308 7) /\
  l_le (vi_lane (impl_of lm NEON)) (f32_lit 5 1) (f32_lit 31308 7) = false /\
  l_le (vi_lane (impl_of lm NEON)) (f32_lit 3 3) (f32_lit 31308 7) = true.
Proof. intros; repeat split. Qed.

Print Assumptions C25_scalar_neon_saturate.
Print Assumptions C25_avx2_saturate_partial.
Print Assumptions C25_avx512_saturate_partial.
Print Assumptions C25_refuted.
Print Assumptions C26_vector_interface.
Print Assumptions C26_zip_unzip.
Print Assumptions C26_interleaved_reload.
Print Assumptions C26_bytes_survive.
Print Assumptions C27_comparison_partial.
Print Assumptions C27_refuted.
Print Assumptions C27_maximum.
Print Assumptions C27_maximum_nan.
