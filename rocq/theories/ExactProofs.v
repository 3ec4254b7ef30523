(** Scaling a sample to 0 .. 1 and back is exact: checked for every sample
    value, back end by back end. *)

From Coq Require Import ZArith Bool List Lia.
From Verif Require Import Base Types F32 SpecVector SimdProofs QuantProofs Simd SpecGeom SpecConvert.
Import ListNotations.
Local Open Scope Z_scope.

(** [p z] for all [z] from [a], [n] of them *)
Fixpoint all_from (p : Z -> bool) (a : Z) (n : nat) : bool :=
  match n with
  | O => true
  | S n => p a && all_from p (a + 1) n
  end.

Lemma all_from_spec : forall p n a, all_from p a n = true -> forall z, a <= z < a + Z.of_nat n -> p z = true.
Proof.
  intros p n. induction n as [|n IH]; intros a H z R; [lia|].
  cbn [all_from] in H. apply andb_true_iff in H as [H1 H2].
  destruct (Z.eq_dec z a) as [->|N]; [exact H1|]. apply (IH (a + 1) H2). lia.
Qed.

Definition scaled_back (q : f32 -> Z) (top z : Z) : bool :=
  q (fmul (fdiv (f32_of_Z z) (f32_of_Z top)) (f32_of_Z top)) =? z.

Lemma all_samples : forall q top n, 0 <= n -> all_from (scaled_back q top) 0 (Z.to_nat n) = true ->
  forall z, 0 <= z < n -> q (fmul (fdiv (f32_of_Z z) (f32_of_Z top)) (f32_of_Z top)) = z.
Proof.
  intros q top n Hn H z R. apply Z.eqb_eq. apply (all_from_spec _ _ _ H). rewrite Z2Nat.id; lia.
Qed.

(** Truncating stores *)
Lemma as_u8_exact : forall z, 0 <= z < 256 -> as_u8 (fmul (fdiv (f32_of_Z z) (f32_of_Z 255)) (f32_of_Z 255)) = z.
Proof. apply all_samples; [lia|]. vm_compute. reflexivity. Qed.
Lemma as_u16_exact_10 : forall z, 0 <= z < 1024 -> as_u16 (fmul (fdiv (f32_of_Z z) (f32_of_Z 1023)) (f32_of_Z 1023)) = z.
Proof. apply all_samples; [lia|]. vm_compute. reflexivity. Qed.
Lemma as_u16_exact_12 : forall z, 0 <= z < 4096 -> as_u16 (fmul (fdiv (f32_of_Z z) (f32_of_Z 4095)) (f32_of_Z 4095)) = z.
Proof. apply all_samples; [lia|]. vm_compute. reflexivity. Qed.

(** Rounding stores: for every 16-bit word, also above the nominal maximum *)
Lemma cvt_exact_8 : forall z, 0 <= z < 256 -> cvtps_epi32 (fmul (fdiv (f32_of_Z z) (f32_of_Z 255)) (f32_of_Z 255)) = z.
Proof. apply all_samples; [lia|]. vm_compute. reflexivity. Qed.
Lemma cvt_exact_10 : forall z, 0 <= z < 65536 -> cvtps_epi32 (fmul (fdiv (f32_of_Z z) (f32_of_Z 1023)) (f32_of_Z 1023)) = z.
Proof. apply all_samples; [lia|]. vm_compute. reflexivity. Qed.
Lemma cvt_exact_12 : forall z, 0 <= z < 65536 -> cvtps_epi32 (fmul (fdiv (f32_of_Z z) (f32_of_Z 4095)) (f32_of_Z 4095)) = z.
Proof. apply all_samples; [lia|]. vm_compute. reflexivity. Qed.

(** Largest sample value that survives scaling to 0 .. 1 and back *)
Definition exact_up_to (b : Simd.backend) (f : pixel_format) : Z :=
  match b with
  | Simd.Scalar | Simd.NEON => max_level f
  | Simd.AVX2 | Simd.AVX512 => if (sample_bytes f =? 2)%nat then 65535 else 255
  end.

Lemma quantise_exact : forall b f z, 0 <= z <= exact_up_to b f ->
  quantise (quant_of b) f (fdiv (f32_of_Z z) (f32_of_Z (max_level f))) = z.
Proof.
  intros b f z R. unfold quantise.
  destruct b, f; cbn [exact_up_to sample_bytes Nat.eqb max_level] in R;
    cbn [max_level quant_of scalar_quant avx2_quant avx512_quant neon_quant q_u8 q_u8i q_u16];
    rewrite ?neon_u8_as, ?neon_u16_as; unfold avx2_q8, avx2_q16;
    rewrite ?cvt_exact_8, ?cvt_exact_10, ?cvt_exact_12, ?as_u8_exact, ?as_u16_exact_10, ?as_u16_exact_12 by lia;
    unfold low_u8, low_u16, sat_u8, sat_u16, clampZ; try reflexivity; rewrite ?Z.mod_small by lia; try lia;
    match goal with |- context [(?a <? ?b)] => destruct (Z.ltb_spec a b) end; lia.
Qed.

Lemma exact_max : forall b f, max_level f <= exact_up_to b f.
Proof. destruct b, f; cbn; lia. Qed.

Lemma fone_is : forall f, fone = fdiv (f32_of_Z (max_level f)) (f32_of_Z (max_level f)).
Proof. destruct f; vm_compute; reflexivity. Qed.

Lemma quantise_one : forall b f, quantise (quant_of b) f fone = max_level f.
Proof. intros. rewrite (fone_is f). apply quantise_exact. pose proof (exact_max b f). destruct f; cbn in *; lia. Qed.
