(** Powers of negative numbers. *)

From Coq Require Import ZArith Bool Reals Lia Lra Psatz.
From Coq Require Import Floats.SpecFloat.
From Flocq Require Import Core IEEE754.BinarySingleNaN.
From Verif Require Import F32 Vector Simd Math FloatProofs AccProofs PolyProofs MathProofs SpecMath LaneProofs.
Local Open Scope R_scope.

(** * NEON *)

Lemma neg_step : forall y x c s a b C, s = 1 \/ s = -1 -> is_num y -> is_num x -> is_num c ->
  a <= s * fval y <= b -> 0 <= a -> b <= 1000 -> -3 <= fval x <= -2 -> - s * fval c = C -> 0 <= C <= 1 ->
  is_num (mul_add y x c) /\ 2 * a + C - 1 / 1000 <= - s * fval (mul_add y x c) <= 3 * b + C + 1 / 1000.
Proof.
  intros y x c s a b C S NY NX NC Y A B X EC CB. unfold mul_add.
  assert (P : 2 * a <= - s * (fval y * fval x) <= 3 * b).
  { replace (- s * (fval y * fval x)) with ((s * fval y) * - fval x) by ring. split; nra. }
  assert (PA : Rabs (fval y * fval x) <= 3000) by (apply Rabs_le; destruct S as [-> | ->]; lra).
  destruct (f32_mul_num y x NY NX) as (NP & VP); [apply big_bound; lra|]. pose proof (rnd_half _ _ PA) as R1. rewrite <- VP in R1.
  set (p := fval (f32_mul y x)) in *. unfold half_ulp in R1. apply Rabs_le_inv in R1.
  assert (SA : Rabs (p + fval c) <= 3002) by (apply Rabs_le_inv in PA; apply Rabs_le; destruct S as [-> | ->]; lra).
  destruct (f32_add_num _ c NP NC) as (NS & VS); [apply big_bound; fold p; lra|]. fold p in VS. pose proof (rnd_half _ _ SA) as R2. rewrite <- VS in R2.
  unfold half_ulp in R2. apply Rabs_le_inv in R2. split; [exact NS|]. destruct S as [-> | ->]; lra.
Qed.

(** Operations with a generous error *)
Lemma loose_op : forall v lo hi, lo <= v <= hi -> -100000 <= lo -> hi <= 100000 -> lo - 1 / 100 <= rnd v <= hi + 1 / 100.
Proof.
  intros v lo hi V L H. assert (A : Rabs v <= 100000) by (apply Rabs_le; lra). pose proof (rnd_half _ _ A) as R.
  unfold half_ulp in R. apply Rabs_le_inv in R. lra.
Qed.
Lemma loose_mul : forall a b lo hi, is_num a -> is_num b -> lo <= fval a * fval b <= hi -> -100000 <= lo -> hi <= 100000 ->
  is_num (f32_mul a b) /\ lo - 1 / 100 <= fval (f32_mul a b) <= hi + 1 / 100.
Proof.
  intros a b lo hi A B V L H. destruct (f32_mul_num a b A B) as (N & E); [apply big_bound, Rabs_le; lra|]. split; [exact N|]. rewrite E. apply loose_op; assumption.
Qed.
Lemma loose_add : forall a b lo hi, is_num a -> is_num b -> lo <= fval a + fval b <= hi -> -100000 <= lo -> hi <= 100000 ->
  is_num (f32_add a b) /\ lo - 1 / 100 <= fval (f32_add a b) <= hi + 1 / 100.
Proof.
  intros a b lo hi A B V L H. destruct (f32_add_num a b A B) as (N & E); [apply big_bound, Rabs_le; lra|]. split; [exact N|]. rewrite E. apply loose_op; assumption.
Qed.
Lemma loose_sub : forall a b lo hi, is_num a -> is_num b -> lo <= fval a - fval b <= hi -> -100000 <= lo -> hi <= 100000 ->
  is_num (f32_sub a b) /\ lo - 1 / 100 <= fval (f32_sub a b) <= hi + 1 / 100.
Proof.
  intros a b lo hi A B V L H. destruct (f32_sub_num a b A B) as (N & E); [apply big_bound, Rabs_le; lra|]. split; [exact N|]. rewrite E. apply loose_op; assumption.
Qed.

Lemma neon_core_neg : forall x e, is_num x -> is_num e -> -3 <= fval x <= -2 -> -400 <= fval e <= -100 ->
  is_num (log_core mul_add x e) /\ -31000 <= fval (log_core mul_add x e) <= -300.
Proof.
  intros x e NX NE X E. unfold log_core.
  destruct c_p0 as (V0 & N0 & _). destruct c_p1 as (V1 & N1 & _). destruct c_p2 as (V2 & N2 & _). destruct c_p3 as (V3 & N3 & _).
  destruct c_p4 as (V4 & N4 & _). destruct c_p5 as (V5 & N5 & _). destruct c_p6 as (V6 & N6 & _). destruct c_p7 as (V7 & N7 & _).
  destruct c_p8 as (V8 & N8 & _).
  destruct (neg_step LOG_P0 x LOG_P1 1 (7 / 100) (71 / 1000) _ ltac:(lra) N0 NX N1 ltac:(lra) ltac:(lra) ltac:(lra) X eq_refl ltac:(lra)) as (M1 & B1).
  set (y1 := mul_add LOG_P0 x LOG_P1) in *. rewrite V1 in B1.
  destruct (neg_step y1 x LOG_P2 (-1) (25 / 100) (33 / 100) _ ltac:(lra) M1 NX N2 ltac:(lra) ltac:(lra) ltac:(lra) X eq_refl ltac:(lra)) as (M2 & B2).
  set (y2 := mul_add y1 x LOG_P2) in *. rewrite V2 in B2.
  destruct (neg_step y2 x LOG_P3 1 (6 / 10) (12 / 10) _ ltac:(lra) M2 NX N3 ltac:(lra) ltac:(lra) ltac:(lra) X eq_refl ltac:(lra)) as (M3 & B3).
  set (y3 := mul_add y2 x LOG_P3) in *. rewrite V3 in B3.
  destruct (neg_step y3 x LOG_P4 (-1) (13 / 10) 4 _ ltac:(lra) M3 NX N4 ltac:(lra) ltac:(lra) ltac:(lra) X eq_refl ltac:(lra)) as (M4 & B4).
  set (y4 := mul_add y3 x LOG_P4) in *. rewrite V4 in B4.
  destruct (neg_step y4 x LOG_P5 1 (27 / 10) 13 _ ltac:(lra) M4 NX N5 ltac:(lra) ltac:(lra) ltac:(lra) X eq_refl ltac:(lra)) as (M5 & B5).
  set (y5 := mul_add y4 x LOG_P5) in *. rewrite V5 in B5.
  destruct (neg_step y5 x LOG_P6 (-1) (55 / 10) 40 _ ltac:(lra) M5 NX N6 ltac:(lra) ltac:(lra) ltac:(lra) X eq_refl ltac:(lra)) as (M6 & B6).
  set (y6 := mul_add y5 x LOG_P6) in *. rewrite V6 in B6.
  destruct (neg_step y6 x LOG_P7 1 11 121 _ ltac:(lra) M6 NX N7 ltac:(lra) ltac:(lra) ltac:(lra) X eq_refl ltac:(lra)) as (M7 & B7).
  set (y7 := mul_add y6 x LOG_P7) in *. rewrite V7 in B7.
  destruct (neg_step y7 x LOG_P8 (-1) 22 364 _ ltac:(lra) M7 NX N8 ltac:(lra) ltac:(lra) ltac:(lra) X eq_refl ltac:(lra)) as (M8 & B8).
  set (y8 := mul_add y7 x LOG_P8) in *. rewrite V8 in B8.
  clearbody y1 y2 y3 y4 y5 y6 y7 y8. assert (Y8 : 44 <= fval y8 <= 1093) by lra. clear - NX NE X E M8 Y8.
  destruct c_q1 as (VQ1 & NQ1 & _). destruct c_q2 as (VQ2 & NQ2 & _).
  assert (CH : approx m_half (1 / 2) 0) by const_approx. apply const_val in CH. destruct CH as (VH & NH & _).
  destruct (loose_mul y8 x (-3300) (-88) M8 NX ltac:(nra) ltac:(lra) ltac:(lra)) as (MA & BA). set (a := f32_mul y8 x) in *.
  destruct (loose_mul x x 4 9 NX NX ltac:(nra) ltac:(lra) ltac:(lra)) as (MZ & BZ). set (z := f32_mul x x) in *.
  destruct (loose_mul a z (-30000) (-350) MA MZ ltac:(nra) ltac:(lra) ltac:(lra)) as (MB & BB). set (bb := f32_mul a z) in *.
  destruct (loose_mul e LOG_Q1 0 1 NE NQ1 ltac:(rewrite VQ1; nra) ltac:(lra) ltac:(lra)) as (MC & BC). set (c := f32_mul e LOG_Q1) in *.
  destruct (loose_mul z m_half 1 5 MZ NH ltac:(rewrite VH; nra) ltac:(lra) ltac:(lra)) as (MD & BD). set (d := f32_mul z m_half) in *.
  destruct (loose_mul e LOG_Q2 (-300) (-60) NE NQ2 ltac:(rewrite VQ2; nra) ltac:(lra) ltac:(lra)) as (ME & BE). set (f := f32_mul e LOG_Q2) in *.
  destruct (loose_add bb c (-30002) (-347) MB MC ltac:(lra) ltac:(lra) ltac:(lra)) as (MF & BF). set (g := f32_add bb c) in *.
  destruct (loose_sub g d (-30010) (-345) MF MD ltac:(lra) ltac:(lra) ltac:(lra)) as (MG & BG). set (h := f32_sub g d) in *.
  destruct (loose_add x h (-30020) (-344) NX MG ltac:(lra) ltac:(lra) ltac:(lra)) as (MI & BI). set (i := f32_add x h) in *.
  destruct (loose_add i f (-30400) (-400) MI ME ltac:(lra) ltac:(lra) ltac:(lra)) as (MJ & BJ). split; [exact MJ|lra].
Qed.

(** Bits of a negative number *)
Lemma neg_bits : forall x, is_num x -> fval x < 0 ->
  exists ex fr, (0 <= ex <= 254)%Z /\ (0 <= fr < 2 ^ 23)%Z /\ f32_bits x = (2 ^ 31 + (ex * 2 ^ 23 + fr))%Z.
Proof.
  intros x N P. destruct x as [s|s| |s m e]; try (destruct N as (_ & F); discriminate F).
  - change (fval (S754_zero s)) with 0 in P. lra.
  - assert (s = true).
    { destruct s; [reflexivity|]. exfalso. rewrite fval_finite in P. pose proof (bpow_gt_0 radix2 e). assert (0 < IZR (Z.pos m)) by (apply IZR_lt; lia). nra. }
    subst s. assert (N' : is_num (S754_finite false m e)) by exact N.
    destruct (bits_split _ N') as (ex & fr & EX & FR & B & _); [|discriminate|].
    { rewrite fval_finite. pose proof (bpow_gt_0 radix2 e). assert (0 < IZR (Z.pos m)) by (apply IZR_lt; lia). nra. }
    exists ex, fr. split; [exact EX|]. split; [exact FR|]. rewrite <- B. unfold f32_bits. lia.
Qed.

Lemma neg_mant : forall ex fr, (0 <= ex <= 254)%Z -> (0 <= fr < 2 ^ 23)%Z ->
  Z.lor (Z.land (2 ^ 31 + (ex * 2 ^ 23 + fr)) INV_MANT_MASK) (f32_bits m_half) = (2 ^ 31 + (126 * 2 ^ 23 + fr))%Z.
Proof.
  intros ex fr EX FR.
  assert (S : forall n, (0 <= n < 2 ^ 31)%Z -> (2 ^ 31 + n)%Z = Z.lor (2 ^ 31) n).
  { intros n NB. rewrite <- Z.lxor_lor by (apply land_high; lia). apply Z.add_nocarry_lxor, land_high. lia. }
  rewrite S by lia. rewrite Z.land_comm, Z.land_lor_distr_r, mant_mask by assumption.
  replace (Z.land INV_MANT_MASK (2 ^ 31)) with (2 ^ 31)%Z by (vm_compute; reflexivity).
  rewrite <- Z.lor_assoc, (Z.lor_comm fr), half_bits by assumption. symmetry. apply S. lia.
Qed.

Lemma of_bits_neg : forall fr, (0 <= fr < 2 ^ 23)%Z -> f32_of_bits (2 ^ 31 + (126 * 2 ^ 23 + fr)) = S754_finite true (Z.to_pos (fr + 2 ^ 23)) (-24).
Proof.
  intros fr F. unfold f32_of_bits.
  replace ((2 ^ 31 + (126 * 2 ^ 23 + fr)) mod 2 ^ 31)%Z with (126 * 2 ^ 23 + fr)%Z
    by (replace (2 ^ 31 + (126 * 2 ^ 23 + fr))%Z with ((126 * 2 ^ 23 + fr) + 1 * 2 ^ 31)%Z by lia; rewrite Z.mod_add, Z.mod_small by lia; lia).
  replace ((126 * 2 ^ 23 + fr) / 2 ^ 23)%Z with 126%Z by (rewrite Z.div_add_l, Z.div_small by lia; lia).
  replace ((2 ^ 31 + (126 * 2 ^ 23 + fr)) mod 2 ^ 23)%Z with fr
    by (replace (2 ^ 31 + (126 * 2 ^ 23 + fr))%Z with (fr + 382 * 2 ^ 23)%Z by lia; rewrite Z.mod_add, Z.mod_small by lia; lia).
  destruct (Z.leb_spec (2 ^ 31) (2 ^ 31 + (126 * 2 ^ 23 + fr))); [|lia]. reflexivity.
Qed.

Lemma neon_log_neg : forall x, is_num x -> fval x < 0 -> is_num (neon_log x) /\ -31000 <= fval (neon_log x) <= -300.
Proof.
  intros x N P. destruct (neg_bits x N P) as (ex & fr & EX & FR & B).
  rewrite neon_log_tail. replace (f32_is_nan x) with false by (destruct N as (_ & F), x; try discriminate F; reflexivity). cbn [negb].
  rewrite B, neg_mant, of_bits_neg by assumption.
  replace (i32_wrap (2 ^ 31 + (ex * 2 ^ 23 + fr))) with (ex * 2 ^ 23 + fr - 2 ^ 31)%Z.
  2: { unfold i32_wrap. replace (2 ^ 31 + (ex * 2 ^ 23 + fr) + 2 ^ 31)%Z with ((ex * 2 ^ 23 + fr) + 1 * 2 ^ 32)%Z by lia. rewrite Z.mod_add, Z.mod_small by lia. lia. }
  replace ((ex * 2 ^ 23 + fr - 2 ^ 31) / 2 ^ 23)%Z with (ex - 256)%Z.
  2: { replace (ex * 2 ^ 23 + fr - 2 ^ 31)%Z with ((ex - 256) * 2 ^ 23 + fr)%Z by lia. rewrite Z.div_add_l, Z.div_small by lia. lia. }
  rewrite i32_small by lia. unfold log_tail.
  set (q := S754_finite true (Z.to_pos (fr + 2 ^ 23)) (-24)).
  assert (Q : is_num q /\ -1 <= fval q <= - (1 / 2)).
  { split; [split; [apply bounded_24; rewrite ?Z2Pos.id; lia|reflexivity]|]. unfold q. rewrite fval_finite. change (bpow radix2 (-24)) with (/ 16777216).
    replace (Z.neg (Z.to_pos (fr + 2 ^ 23))) with (- (fr + 2 ^ 23))%Z by (rewrite <- (Z2Pos.id (fr + 2 ^ 23)) at 1 by lia; reflexivity).
    rewrite opp_IZR. assert (8388608 <= IZR (fr + 2 ^ 23) <= 16777215) by (split; apply IZR_le; lia). lra. }
  destruct Q as (NQ & BQ). clearbody q.
  destruct (const_val _ _ c_sqrt) as (VS & (NS & _)). destruct c_one as (V1 & (N1 & _)).
  assert (MK : f32_lt q SQRT_HF = true) by (rewrite f32_lt_num, VS by assumption; apply lt_bool; lra). rewrite MK. cbn [masked].
  destruct (f32_of_Z_num (ex - 256 - 127)) as (NE & VE); [lia|].
  assert (EB : -383 <= IZR (ex - 256 - 127) <= -129) by (split; apply IZR_le; lia).
  destruct (loose_add (f32_of_Z (ex - 256 - 127)) m_one (-382) (-128) NE N1 ltac:(lra) ltac:(lra) ltac:(lra)) as (NA & BA).
  destruct (loose_sub _ m_one (-384) (-127) NA N1 ltac:(lra) ltac:(lra) ltac:(lra)) as (NB & BB).
  destruct (f32_sub_num q m_one NQ N1) as (NC & VC); [apply big_bound, Rabs_le; lra|].
  assert (BC : -2 <= fval (f32_sub q m_one) <= - (3 / 2)).
  { rewrite VC. split.
    - apply Rle_trans with (rnd (-2)); [|apply rnd_mono; lra]. right. symmetry. replace (-2) with (IZR (-1) * bpow radix2 1) by (simpl; lra). apply rnd_exact; lia.
    - apply Rle_trans with (rnd (- (3 / 2))); [apply rnd_mono; lra|]. right. replace (- (3 / 2)) with (IZR (-3) * bpow radix2 (-1)) by (simpl; lra). apply rnd_exact; lia. }
  destruct (f32_add_num _ q NC NQ) as (ND & VD); [apply big_bound, Rabs_le; lra|].
  apply neon_core_neg; try assumption; [|lra]. rewrite VD. split.
  - apply Rle_trans with (rnd (-3)); [|apply rnd_mono; lra]. right. symmetry. replace (-3) with (IZR (-3) * bpow radix2 0) by (simpl; lra). apply rnd_exact; lia.
  - apply Rle_trans with (rnd (-2)); [apply rnd_mono; lra|]. right. replace (-2) with (IZR (-1) * bpow radix2 1) by (simpl; lra). apply rnd_exact; lia.
Qed.

Lemma neon_pow_negative : pow_negative neon_pow.
Proof.
  intros x y N P NY Y. right. destruct (neon_log_neg x N P) as (NL & BL). unfold neon_pow.
  destruct (loose_mul y (neon_log x) (-31000) (-100) NY NL ltac:(nra) ltac:(lra) ltac:(lra)) as (NM & BM).
  destruct (neon_exp_ok _ NM) as (_ & E). destruct (E ltac:(lra)) as (NE & BE). split; [exact NE|].
  assert (bpow radix2 (-122) <= bpow radix2 (-20)) by (apply bpow_le; lia). change (bpow radix2 (-20)) with (/ 1048576) in *. lra.
Qed.

(** * AVX2 and AVX-512 *)

Lemma avx_pow_negative : pow_negative avx_pow.
Proof.
  intros x y N P NY Y. left.
  assert (L : avx_log x = S754_nan).
  { unfold avx_log. cbv zeta. destruct zero_num as (N0 & V0). rewrite (f32_le_num _ _ N0 N), V0.
    destruct (Rle_bool_spec 0 (fval x)); [lra|reflexivity]. }
  unfold avx_pow. rewrite L. replace (f32_mul y S754_nan) with S754_nan by (destruct y as [[|]|[|]| |[|] m e]; reflexivity). vm_compute. reflexivity.
Qed.

Lemma lane_negative : forall b sp sl, (b = Scalar -> pow_negative sp) -> pow_negative (l_pow (vi_lane (impl_of (libm_of sp sl) b))).
Proof. intros [] sp sl H; [apply H; reflexivity|exact avx_pow_negative|exact avx_pow_negative|exact neon_pow_negative]. Qed.
