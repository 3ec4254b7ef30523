(** Each back end meets [vector_spec]. *)

From Coq Require Import ZArith Bool List Lia Arith.
From Coq Require Import Floats.SpecFloat.
From Verif Require Import F32 Vector Simd SpecVector.
Import ListNotations.

(** Quantisers of the back ends *)
Definition scalar_quant : quant := Quant as_u8 as_u8 as_u16.
Definition avx2_q8 (x : f32) : Z := sat_u8 (sat_u16 (cvtps_epi32 x)).
Definition avx2_q16 (x : f32) : Z := sat_u16 (cvtps_epi32 x).
Definition avx2_quant : quant := Quant avx2_q8 avx2_q8 avx2_q16.
Definition avx512_quant : quant :=
  Quant (fun x => low_u8 (cvtps_epi32 x)) avx2_q8 (fun x => low_u16 (cvtps_epi32 x)).
Definition neon_quant : quant := Quant neon_narrow_u8 neon_narrow_u8 neon_narrow_u16.

Definition quant_of (b : backend) : quant :=
  match b with
  | Scalar => scalar_quant
  | AVX2 => avx2_quant
  | AVX512 => avx512_quant
  | NEON => neon_quant
  end.

(** Quantisers give bytes / words *)
Lemma clampZ_range : forall lo hi z, (lo <= hi)%Z -> (lo <= clampZ lo hi z <= hi)%Z.
Proof. intros; unfold clampZ; lia. Qed.

Lemma f32_as_range : forall hi x, (0 <= hi)%Z -> (0 <= f32_as hi x <= hi)%Z.
Proof.
  intros hi x H; destruct x as [s|s| |s m e]; cbn [f32_as]; try lia.
  - destruct s; lia.
  - apply clampZ_range; lia.
Qed.

Lemma as_u8_range : forall x, (0 <= as_u8 x < 256)%Z.
Proof. intros; unfold as_u8; pose proof (f32_as_range 255 x); lia. Qed.
Lemma as_u16_range : forall x, (0 <= as_u16 x < 65536)%Z.
Proof. intros; unfold as_u16; pose proof (f32_as_range 65535 x); lia. Qed.
Lemma sat_u8_range : forall x, (0 <= sat_u8 x < 256)%Z.
Proof. intros; unfold sat_u8, clampZ; lia. Qed.
Lemma sat_u16_range : forall x, (0 <= sat_u16 x < 65536)%Z.
Proof. intros; unfold sat_u16, clampZ; lia. Qed.
Lemma low_u8_range : forall x, (0 <= low_u8 x < 256)%Z.
Proof. intros; apply Z.mod_pos_bound; lia. Qed.
Lemma low_u16_range : forall x, (0 <= low_u16 x < 65536)%Z.
Proof. intros; apply Z.mod_pos_bound; lia. Qed.
Lemma neon_u8_range : forall x, (0 <= neon_narrow_u8 x < 256)%Z.
Proof. intros; apply Z.mod_pos_bound; lia. Qed.
Lemma neon_u16_range : forall x, (0 <= neon_narrow_u16 x < 65536)%Z.
Proof. intros; apply Z.mod_pos_bound; lia. Qed.

Lemma quant_ranges : forall b x,
  (0 <= q_u8 (quant_of b) x < 256)%Z /\ (0 <= q_u8i (quant_of b) x < 256)%Z /\
  (0 <= q_u16 (quant_of b) x < 65536)%Z.
Proof.
  intros [] x; cbn; unfold avx2_q8, avx2_q16; repeat split;
    first [ apply as_u8_range | apply as_u16_range | apply sat_u8_range | apply sat_u16_range
          | apply low_u8_range | apply low_u16_range | apply neon_u8_range | apply neon_u16_range ].
Qed.

(** Little-endian words *)
Lemma u16_bytes_length : forall l, length (u16_bytes l) = 2 * length l.
Proof. induction l; cbn [u16_bytes flat_map app length] in *; [reflexivity|]. unfold u16_bytes in IHl. lia. Qed.

Lemma u16_bytes_word : forall l k, word_at (u16_bytes l) (2 * k) = nth k l 0%Z.
Proof.
  unfold word_at, byte_at. induction l as [|a l IH]; intros k.
  - cbn [u16_bytes flat_map]. destruct k; cbn [nth Nat.mul Nat.add]; try reflexivity.
  - destruct k.
    + cbn [Nat.mul Nat.add u16_bytes flat_map app nth]. pose proof (Z.div_mod a 256). lia.
    + replace (2 * S k) with (S (S (2 * k))) by lia. apply IH.
Qed.

Lemma u16_bytes_range : forall l i, (forall k, k < length l -> (0 <= nth k l 0 < 65536)%Z) ->
  (0 <= byte_at (u16_bytes l) i < 256)%Z.
Proof.
  unfold byte_at. induction l as [|a l IH]; intros i H.
  - destruct i; cbn; lia.
  - destruct i as [|[|i]]; cbn [u16_bytes flat_map app nth].
    + apply Z.mod_pos_bound; lia.
    + specialize (H 0 ltac:(cbn; lia)); cbn in H.
      split; [apply Z.div_pos; lia|apply Z.div_lt_upper_bound; lia].
    + apply IH. intros k Hk. apply (H (S k)). cbn; lia.
Qed.

Lemma byte_ptr_add : forall n l i, byte (ptr_add n l) i = byte_at l (n + i).
Proof.
  unfold byte, ptr_add, byte_at. intros n. induction n; intros l i; [reflexivity|].
  destruct l; cbn [skipn nth Nat.add]; [destruct i; reflexivity|apply IHn].
Qed.

Ltac cases k n :=
  match n with
  | O => try (exfalso; lia)
  | S ?m => destruct k as [|k]; [|cases k m]
  end.

(** Evaluate list plumbing only. *)
Ltac lanes :=
  cbv -[f32_of_Z byte byte_at ptr_add u16_of cvtps_epi32 sat_u16 sat_u8 low_u8 low_u16
        as_u8 as_u16 neon_narrow_u8 neon_narrow_u16 u16_bytes word_at Z.add Z.mul].

Ltac lane_case k n := do 1 (cases k n); lanes; try reflexivity.

Lemma u16_of_word : forall l i, u16_of (byte l i) (byte l (S i)) = word_at l i.
Proof. reflexivity. Qed.

Lemma word_ok : forall l k, f32_of_Z (u16_of (byte l (2 * k)) (byte l (2 * k + 1))) = f32_of_Z (word_at l (2 * k)).
Proof. intros. replace (2 * k + 1) with (S (2 * k)) by lia. reflexivity. Qed.

(** ** Scalar *)
Lemma scalar_spec : forall lm, vector_spec (scalar_impl lm) scalar_quant.
Proof.
  intros lm; constructor; cbn [vi_len scalar_impl]; intros.
  - lia.
  - lane_case k 2.
  - cases k 1; split; lanes; reflexivity.
  - lane_case k 1.
  - lane_case k 1.
  - cases k 2; cases c 3; lanes; reflexivity.
  - cases k 2; cases c 4; lanes; reflexivity.
  - reflexivity.
  - lane_case k 1.
  - reflexivity.
  - lane_case k 2.
  - reflexivity.
  - cbn [vi_write_u16 scalar_impl avx2_impl avx512_impl neon_impl]. rewrite u16_bytes_word. cases k 1; reflexivity.
  - reflexivity.
  - cbn [vi_write_u16_2x scalar_impl avx2_impl avx512_impl neon_impl]. rewrite u16_bytes_word. cases k 2; reflexivity.
  - destruct p as [[[? ?] ?] [[? ?] ?]]; reflexivity.
  - destruct p as [[[? ?] ?] [[? ?] ?]]; cases k 2; cases c 3; lanes; reflexivity.
  - destruct p as [[[[? ?] ?] ?] [[[? ?] ?] ?]]; reflexivity.
  - destruct p as [[[[? ?] ?] ?] [[[? ?] ?] ?]]; cases k 2; cases c 4; lanes; reflexivity.
  - apply as_u8_range.
  - apply as_u8_range.
  - apply as_u16_range.
  - apply u16_bytes_range. intros k Hk. cases k 1; [apply as_u16_range|cbn in Hk; lia].
  - apply u16_bytes_range. intros k Hk. cases k 2; try apply as_u16_range; cbn in Hk; lia.
Qed.

(** ** AVX2 *)
Lemma avx2_spec : forall lm, vector_spec (avx2_impl lm) avx2_quant.
Proof.
  intros lm; constructor; cbn [vi_len avx2_impl]; intros.
  - lia.
  - lane_case k 16.
  - cases k 8; split; lanes; reflexivity.
  - reflexivity.
  - apply word_ok.
  - cases k 16; cases c 3; lanes; rewrite ?byte_ptr_add; reflexivity.
  - cases k 16; cases c 4; lanes; rewrite ?byte_ptr_add; reflexivity.
  - reflexivity.
  - lane_case k 8.
  - reflexivity.
  - lane_case k 16.
  - cbn [vi_write_u16 scalar_impl avx2_impl avx512_impl neon_impl]. rewrite u16_bytes_length. reflexivity.
  - cbn [vi_write_u16 scalar_impl avx2_impl avx512_impl neon_impl]. rewrite u16_bytes_word. lane_case k 8.
  - cbn [vi_write_u16_2x scalar_impl avx2_impl avx512_impl neon_impl]. rewrite u16_bytes_length. reflexivity.
  - cbn [vi_write_u16_2x scalar_impl avx2_impl avx512_impl neon_impl]. rewrite u16_bytes_word. lane_case k 16.
  - destruct p as [[[? ?] ?] [[? ?] ?]]; reflexivity.
  - destruct p as [[[? ?] ?] [[? ?] ?]]; cases k 16; cases c 3; lanes; reflexivity.
  - destruct p as [[[[? ?] ?] ?] [[[? ?] ?] ?]]; reflexivity.
  - destruct p as [[[[? ?] ?] ?] [[[? ?] ?] ?]]; cases k 16; cases c 4; lanes; reflexivity.
  - apply sat_u8_range.
  - apply sat_u8_range.
  - apply sat_u16_range.
  - apply u16_bytes_range. intros k Hk. cases k 8; try apply sat_u16_range; cbn in Hk; lia.
  - apply u16_bytes_range. intros k Hk. cases k 16; try apply sat_u16_range; cbn in Hk; lia.
Qed.

(** ** AVX-512 *)
Lemma avx512_spec : forall lm, vector_spec (avx512_impl lm) avx512_quant.
Proof.
  intros lm; constructor; cbn [vi_len avx512_impl]; intros.
  - lia.
  - lane_case k 32.
  - cases k 16; split; lanes; reflexivity.
  - reflexivity.
  - apply word_ok.
  - cases k 32; cases c 3; lanes; rewrite ?byte_ptr_add; reflexivity.
  - cases k 32; cases c 4; lanes; rewrite ?byte_ptr_add; reflexivity.
  - reflexivity.
  - lane_case k 16.
  - reflexivity.
  - lane_case k 32.
  - cbn [vi_write_u16 scalar_impl avx2_impl avx512_impl neon_impl]. rewrite u16_bytes_length. reflexivity.
  - cbn [vi_write_u16 scalar_impl avx2_impl avx512_impl neon_impl]. rewrite u16_bytes_word. lane_case k 16.
  - cbn [vi_write_u16_2x scalar_impl avx2_impl avx512_impl neon_impl]. rewrite u16_bytes_length. reflexivity.
  - cbn [vi_write_u16_2x scalar_impl avx2_impl avx512_impl neon_impl]. rewrite u16_bytes_word. lane_case k 32.
  - destruct p as [[[? ?] ?] [[? ?] ?]]; reflexivity.
  - destruct p as [[[? ?] ?] [[? ?] ?]]; cases k 32; cases c 3; lanes; reflexivity.
  - destruct p as [[[[? ?] ?] ?] [[[? ?] ?] ?]]; reflexivity.
  - destruct p as [[[[? ?] ?] ?] [[[? ?] ?] ?]]; cases k 32; cases c 4; lanes; reflexivity.
  - apply low_u8_range.
  - apply sat_u8_range.
  - apply low_u16_range.
  - apply u16_bytes_range. intros k Hk. cases k 16; try apply low_u16_range; cbn in Hk; lia.
  - apply u16_bytes_range. intros k Hk. cases k 32; try apply low_u16_range; cbn in Hk; lia.
Qed.

(** ** NEON *)
Lemma neon_spec : forall lm, vector_spec (neon_impl lm) neon_quant.
Proof.
  intros lm; constructor; cbn [vi_len neon_impl]; intros.
  - lia.
  - lane_case k 8.
  - cases k 4; split; lanes; reflexivity.
  - lane_case k 4.
  - cases k 4; reflexivity.
  - cases k 8; cases c 3; lanes; reflexivity.
  - cases k 8; cases c 4; lanes; reflexivity.
  - reflexivity.
  - lane_case k 4.
  - reflexivity.
  - lane_case k 8.
  - cbn [vi_write_u16 scalar_impl avx2_impl avx512_impl neon_impl]. rewrite u16_bytes_length. reflexivity.
  - cbn [vi_write_u16 scalar_impl avx2_impl avx512_impl neon_impl]. rewrite u16_bytes_word. lane_case k 4.
  - cbn [vi_write_u16_2x scalar_impl avx2_impl avx512_impl neon_impl]. rewrite u16_bytes_length. reflexivity.
  - cbn [vi_write_u16_2x scalar_impl avx2_impl avx512_impl neon_impl]. rewrite u16_bytes_word. lane_case k 8.
  - destruct p as [[[? ?] ?] [[? ?] ?]]; reflexivity.
  - destruct p as [[[? ?] ?] [[? ?] ?]]; cases k 8; cases c 3; lanes; reflexivity.
  - destruct p as [[[[? ?] ?] ?] [[[? ?] ?] ?]]; reflexivity.
  - destruct p as [[[[? ?] ?] ?] [[[? ?] ?] ?]]; cases k 8; cases c 4; lanes; reflexivity.
  - apply neon_u8_range.
  - apply neon_u8_range.
  - apply neon_u16_range.
  - apply u16_bytes_range. intros k Hk. cases k 4; try apply neon_u16_range; cbn in Hk; lia.
  - apply u16_bytes_range. intros k Hk. cases k 8; try apply neon_u16_range; cbn in Hk; lia.
Qed.

Theorem backend_spec : forall lm b, vector_spec (impl_of lm b) (quant_of b).
Proof.
  intros lm []; [apply scalar_spec|apply avx2_spec|apply avx512_spec|apply neon_spec].
Qed.
