(** The float to integer conversions meet their specification. *)

From Coq Require Import ZArith Bool List Lia Arith.
From Coq Require Import Floats.SpecFloat.
From Verif Require Import F32 Vector Simd SpecVector SimdProofs.
Import ListNotations.
Local Open Scope Z_scope.

Lemma pow2_pos : forall d, 0 < 2 ^ Z.pos d.
Proof. intros; apply Z.pow_pos_nonneg; lia. Qed.

Lemma pow2_nn : forall e, 0 <= e -> 0 < 2 ^ e.
Proof. intros; apply Z.pow_pos_nonneg; lia. Qed.

(** Truncation *)
Lemma f32_as_trunc : forall hi x, 0 <= hi -> is_trunc_sat hi x (f32_as hi x).
Proof.
  intros hi x Hhi; destruct x as [s|s| |s m e]; cbn [f32_as is_trunc_sat]; auto.
  unfold num_den, f32_trunc, clampZ.
  destruct e as [|p|p].
  - change (2 ^ 0) with 1. destruct s.
    + destruct (Z.leb_spec (Z.neg m * 1) 0); [|lia]. lia.
    + destruct (Z.leb_spec (Z.pos m * 1) 0); [lia|].
      destruct (Z.leb_spec (hi * 1) (Z.pos m * 1)); lia.
  - pose proof (pow2_pos p). destruct s.
    + destruct (Z.leb_spec (Z.neg m * 2 ^ Z.pos p) 0); nia.
    + destruct (Z.leb_spec (Z.pos m * 2 ^ Z.pos p) 0); [nia|].
      destruct (Z.leb_spec (hi * 1) (Z.pos m * 2 ^ Z.pos p)); lia.
  - pose proof (pow2_pos p) as Hp.
    pose proof (Z.div_mod (Z.pos m) (2 ^ Z.pos p) ltac:(lia)) as Hd.
    pose proof (Z.mod_pos_bound (Z.pos m) (2 ^ Z.pos p) Hp) as Hr.
    assert (0 <= Z.pos m / 2 ^ Z.pos p) by (apply Z.div_pos; lia).
    set (q := Z.pos m / 2 ^ Z.pos p) in *. set (r := Z.pos m mod 2 ^ Z.pos p) in *.
    destruct s.
    + destruct (Z.leb_spec (Z.neg m) 0); lia.
    + destruct (Z.leb_spec (Z.pos m) 0); [lia|].
      destruct (Z.leb_spec (hi * 2 ^ Z.pos p) (Z.pos m)).
      * assert (hi <= q) by nia. lia.
      * assert (q < hi) by nia. rewrite Z.min_r, Z.max_r by lia. nia.
Qed.

Lemma f32_as_min : forall lo hi x, 0 <= lo <= hi -> Z.min (f32_as hi x) lo = f32_as lo x.
Proof.
  intros lo hi x H; destruct x as [s|s| |s m e]; cbn [f32_as]; try lia.
  - destruct s; lia.
  - unfold clampZ. lia.
Qed.

(** NEON conversions are the scalar ones *)
Lemma neon_u8_as : forall x, neon_narrow_u8 x = as_u8 x.
Proof.
  intros; unfold neon_narrow_u8, vcvt_u32, as_u8. rewrite f32_as_min by lia.
  pose proof (f32_as_range 255 x). rewrite (Z.mod_small _ 65536), Z.mod_small by lia. reflexivity.
Qed.
Lemma neon_u16_as : forall x, neon_narrow_u16 x = as_u16 x.
Proof.
  intros; unfold neon_narrow_u16, vcvt_u32, as_u16. rewrite f32_as_min by lia.
  pose proof (f32_as_range 65535 x). rewrite Z.mod_small by lia. reflexivity.
Qed.

(** Rounding *)
Lemma rne_nearest : forall s m e n d, num_den s m e = (n, d) ->
  let r := f32_rne s m e in
  2 * Z.abs (r * d - n) <= d /\ (2 * Z.abs (r * d - n) = d -> Z.even r = true) /\ 0 < d.
Proof.
  intros s m e n d H r. unfold num_den in H. unfold r, f32_rne. clear r.
  destruct e as [|p|p]; injection H as <- <-.
  - change (2 ^ 0) with 1. destruct s; repeat split; lia.
  - destruct s; repeat split; lia.
  - pose proof (pow2_pos p) as Hp.
    pose proof (Z.div_mod (Z.pos m) (2 ^ Z.pos p) ltac:(lia)) as Hd.
    pose proof (Z.mod_pos_bound (Z.pos m) (2 ^ Z.pos p) Hp) as Hr.
    cbv zeta.
    set (q := Z.pos m / 2 ^ Z.pos p) in *. set (rr := Z.pos m mod 2 ^ Z.pos p) in *.
    set (D := 2 ^ Z.pos p) in *.
    assert (HEV : forall z, Z.even (- z) = Z.even z).
    { intros z. destruct z; reflexivity. }
    destruct (Z.compare_spec (2 * rr) D).
    + destruct (Z.even q) eqn:EQ.
      * destruct s; repeat split; try nia; intros _; rewrite ?HEV; exact EQ.
      * assert (EQ' : Z.even (q + 1) = true) by (rewrite Z.even_add, EQ; reflexivity).
        destruct s; repeat split; try nia; intros _; rewrite ?HEV; exact EQ'.
    + destruct s; repeat split; nia.
    + destruct s; repeat split; nia.
Qed.

Lemma rne_below : forall s m e n d b, num_den s m e = (n, d) -> Z.abs n < b * d -> 0 < d ->
  Z.abs (f32_rne s m e) <= b.
Proof.
  intros s m e n d b H Hb Hd. destruct (rne_nearest _ _ _ _ _ H) as (H1 & _ & _). nia.
Qed.

(** Nearest integer of a finite float of known magnitude *)
Lemma cvt_spec : forall b x, b <= 2 ^ 31 - 1 -> f32_abs_below b x ->
  Z.abs (cvtps_epi32 x) <= Z.max 0 b /\
  match x with
  | S754_finite s m e =>
      let '(n, d) := num_den s m e in
      2 * Z.abs (cvtps_epi32 x * d - n) <= d /\
      (2 * Z.abs (cvtps_epi32 x * d - n) = d -> Z.even (cvtps_epi32 x) = true)
  | _ => cvtps_epi32 x = 0
  end.
Proof.
  intros b x Hb H; destruct x as [s|s| |s m e]; cbn [f32_abs_below cvtps_epi32] in *; try contradiction.
  - split; lia.
  - destruct (num_den s m e) as (n, d) eqn:E.
    destruct (rne_nearest _ _ _ _ _ E) as (H1 & H2 & H3).
    pose proof (rne_below _ _ _ _ _ b E H H3) as H4.
    assert (R : (- 2 ^ 31 <=? f32_rne s m e) && (f32_rne s m e <=? 2 ^ 31 - 1) = true).
    { apply andb_true_intro; split; apply Z.leb_le; lia. }
    rewrite R. split; [lia|]. auto.
Qed.

Lemma avx2_u8_round : forall x, f32_abs_below 32767 x -> is_round_sat 255 x (avx2_q8 x).
Proof.
  intros x H. destruct (cvt_spec 32767 x) as (B & N); [lia|exact H|].
  unfold avx2_q8, sat_u8, sat_u16, clampZ.
  destruct x as [s|s| |s m e]; cbn [is_round_sat f32_abs_below] in *; try contradiction.
  - rewrite N. reflexivity.
  - destruct (num_den s m e) as (n, d). exists (cvtps_epi32 (S754_finite s m e)).
    destruct N. split; [|split]; auto.
    destruct (Z.ltb_spec (Z.max 0 (Z.min 65535 (cvtps_epi32 (S754_finite s m e)))) 32768); lia.
Qed.

Lemma avx2_u16_round : forall x, f32_abs_below 2147483647 x -> is_round_sat 65535 x (avx2_q16 x).
Proof.
  intros x H. destruct (cvt_spec 2147483647 x) as (B & N); [lia|exact H|].
  unfold avx2_q16, sat_u16, clampZ.
  destruct x as [s|s| |s m e]; cbn [is_round_sat f32_abs_below] in *; try contradiction.
  - rewrite N. reflexivity.
  - destruct (num_den s m e) as (n, d). exists (cvtps_epi32 (S754_finite s m e)).
    destruct N. auto.
Qed.

Lemma in_range_below : forall hi x, 0 <= hi -> f32_in_range hi x -> f32_abs_below (hi + 1) x.
Proof.
  intros hi x Hh H; destruct x as [s|s| |s m e]; cbn [f32_in_range f32_abs_below] in *; auto.
  destruct (num_den s m e) as (n, d) eqn:E.
  destruct (rne_nearest _ _ _ _ _ E) as (_ & _ & Hd). nia.
Qed.

Lemma low_round : forall w hi x, 0 <= hi < 2 ^ 20 -> w = hi + 1 -> f32_in_range hi x ->
  is_round_sat hi x (cvtps_epi32 x mod w).
Proof.
  intros w hi x Hh -> H. destruct (cvt_spec (hi + 1) x) as (B & N); [lia|apply in_range_below; [lia|exact H]|].
  destruct x as [s|s| |s m e]; cbn [is_round_sat f32_in_range] in *; try contradiction.
  - rewrite N. apply Z.mod_0_l; lia.
  - destruct (num_den s m e) as (n, d) eqn:E. exists (cvtps_epi32 (S754_finite s m e)).
    destruct N as (N1 & N2). split; [|split]; auto.
    destruct (rne_nearest _ _ _ _ _ E) as (_ & _ & Hd).
    assert (0 <= cvtps_epi32 (S754_finite s m e) <= hi) by nia.
    rewrite Z.mod_small by lia. lia.
Qed.
