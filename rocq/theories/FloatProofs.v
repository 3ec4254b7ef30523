(** The operations of F32.v in terms of real numbers: each is the exact result,
    rounded to nearest even.  Obtained from Flocq's theorems about the same
    algorithms. *)

From Coq Require Import ZArith Bool Reals Lia Lra Psatz.
From Coq Require Import Floats.SpecFloat.
From Flocq Require Import Core.
From Flocq Require Import BinarySingleNaN Relative.
From Verif Require Import F32.
Local Open Scope R_scope.

Local Instance prec_pos : FLX.Prec_gt_0 24 := eq_refl.
Local Instance prec_max : Prec_lt_emax 24 128 := eq_refl.

(** A float that is a number: its mantissa is normalised (or it is
    subnormal), and it is neither infinite nor NaN *)
Definition is_num (x : f32) : Prop := valid_binary 24 128 x = true /\ is_finite_SF x = true.

(** Its value *)
Definition fval (x : f32) : R := SF2R radix2 x.

(** Rounding to the nearest binary32, ties to even *)
Definition rnd (x : R) : R := round radix2 (SpecFloat.fexp 24 128) ZnearestE x.

(** * The operations *)

Lemma rne_equiv s m l : round_nearest_even m l = choice_mode mode_NE s m l.
Proof. case l; [reflexivity|intro c]. case c; [|reflexivity..]. now simpl; unfold Round.cond_incr; case Z.even. Qed.

Lemma round_aux_equiv sx mx ex lx :
  SpecFloat.binary_round_aux 24 128 sx mx ex lx = binary_round_aux 24 128 mode_NE sx mx ex lx.
Proof.
  unfold SpecFloat.binary_round_aux, binary_round_aux.
  set (mrse' := shr_fexp _ _ _). case mrse'; intros mrs' e'; simpl. now rewrite (rne_equiv sx).
Qed.

Lemma round_equiv s m e : SpecFloat.binary_round 24 128 s m e = binary_round 24 128 mode_NE s m e.
Proof.
  unfold SpecFloat.binary_round, binary_round, shl_align_fexp.
  set (mez := shl_align _ _ _); case mez as [mz ez]. apply round_aux_equiv.
Qed.

Lemma normalize_equiv m e szero :
  SpecFloat.binary_normalize 24 128 m e szero = B2SF (binary_normalize 24 128 prec_pos prec_max mode_NE m e szero).
Proof. case m as [|p|p]; [now simpl|..]; simpl; rewrite B2SF_SF2B; apply round_equiv. Qed.

Lemma mul_equiv : forall x y, f32_mul (B2SF x) (B2SF y) = B2SF (@Bmult 24 128 prec_pos prec_max mode_NE x y).
Proof.
  intros x y. unfold f32_mul, f32_prec, f32_emax.
  case x as [sx|sx| |sx mx ex Bx]; case y as [sy|sy| |sy my ey By]; [now trivial..|].
  simpl. rewrite B2SF_SF2B. apply round_aux_equiv.
Qed.

Lemma add_equiv : forall x y, f32_add (B2SF x) (B2SF y) = B2SF (@Bplus 24 128 prec_pos prec_max mode_NE x y).
Proof.
  intros x y. unfold f32_add, f32_prec, f32_emax.
  case x as [sx|sx| |sx mx ex Bx]; case y as [sy|sy| |sy my ey By]; [now (trivial || simpl; case Bool.eqb)..|].
  apply normalize_equiv.
Qed.

Lemma sub_equiv : forall x y, f32_sub (B2SF x) (B2SF y) = B2SF (@Bminus 24 128 prec_pos prec_max mode_NE x y).
Proof.
  intros x y. unfold f32_sub, f32_prec, f32_emax.
  case x as [sx|sx| |sx mx ex Bx]; case y as [sy|sy| |sy my ey By]; [now (trivial || simpl; case Bool.eqb)..|].
  simpl. unfold Zminus. rewrite <- cond_Zopp_negb. apply normalize_equiv.
Qed.

Lemma div_equiv : forall x y, f32_div (B2SF x) (B2SF y) = B2SF (@Bdiv 24 128 prec_pos prec_max mode_NE x y).
Proof.
  intros x y. unfold f32_div, f32_prec, f32_emax.
  case x as [sx|sx| |sx mx ex Bx]; case y as [sy|sy| |sy my ey By]; [now (trivial || simpl; case Bool.eqb)..|].
  simpl. rewrite B2SF_SF2B. set (melz := SFdiv_core_binary _ _ _ _ _ _). case melz as [[mz ez] lz].
  apply round_aux_equiv.
Qed.

Lemma sqrt_equiv : forall x, f32_sqrt (B2SF x) = B2SF (@Bsqrt 24 128 prec_pos prec_max mode_NE x).
Proof.
  intros x. unfold f32_sqrt, f32_prec, f32_emax.
  case x as [sx|sx| |sx mx ex Bx]; [now (trivial || case sx)..|]. case sx; [reflexivity|].
  simpl. rewrite B2SF_SF2B. set (melz := SFsqrt_core_binary _ _ _ _). case melz as [[mz ez] lz].
  apply round_aux_equiv.
Qed.

(** * From [binary_float] to [f32] *)

Lemma num_lift : forall x, is_num x -> exists b : binary_float 24 128, x = B2SF b /\ is_finite b = true /\ fval x = B2R b.
Proof.
  intros x (V & F). exists (SF2B x V). split; [symmetry; apply B2SF_SF2B|split].
  - rewrite is_finite_SF2B. exact F.
  - unfold fval. rewrite B2R_SF2B. reflexivity.
Qed.

Lemma num_lower : forall b : binary_float 24 128, is_finite b = true -> is_num (B2SF b) /\ fval (B2SF b) = B2R b.
Proof.
  intros b F. split; [split; [apply valid_binary_B2SF|rewrite is_finite_SF_B2SF; exact F]|].
  unfold fval. apply SF2R_B2SF.
Qed.

Lemma rnd_bound : forall x k, (k <= 127)%Z -> (-149 <= k)%Z -> Rabs x <= bpow radix2 k -> Rabs (rnd x) <= bpow radix2 k.
Proof.
  intros x k K1 K2 H. unfold rnd. apply abs_round_le_generic; [typeclasses eauto|typeclasses eauto| |exact H].
  apply generic_format_bpow. unfold SpecFloat.fexp, SpecFloat.emin. lia.
Qed.

Lemma no_overflow : forall x, Rabs x <= bpow radix2 127 ->
  Rlt_bool (Rabs (round radix2 (SpecFloat.fexp 24 128) (round_mode mode_NE) x)) (bpow radix2 128) = true.
Proof.
  intros x H. apply Rlt_bool_true. apply Rle_lt_trans with (bpow radix2 127).
  - apply (rnd_bound x 127); [lia|lia|exact H].
  - apply bpow_lt. lia.
Qed.

Lemma f32_mul_num : forall a b, is_num a -> is_num b -> Rabs (fval a * fval b) <= bpow radix2 127 ->
  is_num (f32_mul a b) /\ fval (f32_mul a b) = rnd (fval a * fval b).
Proof.
  intros a b A B H. destruct (num_lift a A) as (x & -> & FX & EX). destruct (num_lift b B) as (y & -> & FY & EY).
  rewrite EX, EY in *. rewrite mul_equiv.
  pose proof (@Bmult_correct 24 128 prec_pos prec_max mode_NE x y) as C. rewrite (no_overflow _ H) in C.
  destruct C as (C1 & C2 & _). destruct (num_lower (Bmult mode_NE x y)) as (N & E); [rewrite C2, FX, FY; reflexivity|].
  split; [exact N|]. rewrite E, C1. reflexivity.
Qed.

Lemma f32_add_num : forall a b, is_num a -> is_num b -> Rabs (fval a + fval b) <= bpow radix2 127 ->
  is_num (f32_add a b) /\ fval (f32_add a b) = rnd (fval a + fval b).
Proof.
  intros a b A B H. destruct (num_lift a A) as (x & -> & FX & EX). destruct (num_lift b B) as (y & -> & FY & EY).
  rewrite EX, EY in *. rewrite add_equiv.
  pose proof (@Bplus_correct 24 128 prec_pos prec_max mode_NE x y FX FY) as C. rewrite (no_overflow _ H) in C.
  destruct C as (C1 & C2 & _). destruct (num_lower (Bplus mode_NE x y) C2) as (N & E).
  split; [exact N|]. rewrite E, C1. reflexivity.
Qed.

Lemma f32_sub_num : forall a b, is_num a -> is_num b -> Rabs (fval a - fval b) <= bpow radix2 127 ->
  is_num (f32_sub a b) /\ fval (f32_sub a b) = rnd (fval a - fval b).
Proof.
  intros a b A B H. destruct (num_lift a A) as (x & -> & FX & EX). destruct (num_lift b B) as (y & -> & FY & EY).
  rewrite EX, EY in *. rewrite sub_equiv.
  pose proof (@Bminus_correct 24 128 prec_pos prec_max mode_NE x y FX FY) as C. rewrite (no_overflow _ H) in C.
  destruct C as (C1 & C2 & _). destruct (num_lower (Bminus mode_NE x y) C2) as (N & E).
  split; [exact N|]. rewrite E, C1. reflexivity.
Qed.

Lemma f32_div_num : forall a b, is_num a -> is_num b -> fval b <> 0 -> Rabs (fval a / fval b) <= bpow radix2 127 ->
  is_num (f32_div a b) /\ fval (f32_div a b) = rnd (fval a / fval b).
Proof.
  intros a b A B NZ H. destruct (num_lift a A) as (x & -> & FX & EX). destruct (num_lift b B) as (y & -> & FY & EY).
  rewrite EX, EY in *. rewrite div_equiv.
  pose proof (@Bdiv_correct 24 128 prec_pos prec_max mode_NE x y NZ) as C. rewrite (no_overflow _ H) in C.
  destruct C as (C1 & C2 & _). destruct (num_lower (Bdiv mode_NE x y)) as (N & E); [rewrite C2; exact FX|].
  split; [exact N|]. rewrite E, C1. reflexivity.
Qed.

Lemma f32_sqrt_num : forall a, is_num a -> 0 <= fval a ->
  is_num (f32_sqrt a) /\ fval (f32_sqrt a) = rnd (sqrt (fval a)).
Proof.
  intros a A P. destruct (num_lift a A) as (x & -> & FX & EX). rewrite EX in *. rewrite sqrt_equiv.
  pose proof (@Bsqrt_correct 24 128 prec_pos prec_max mode_NE x) as (C1 & C2 & _).
  destruct (num_lower (Bsqrt mode_NE x)) as (N & E).
  - rewrite C2. destruct x as [| | |s m e H]; try reflexivity; try discriminate. destruct s; [|reflexivity].
    exfalso. cbn in P. pose proof (F2R_lt_0 radix2 (Float radix2 (Z.neg m) e) eq_refl). lra.
  - split; [exact N|]. rewrite E, C1. reflexivity.
Qed.

Lemma f32_neg_num : forall a, is_num a -> is_num (f32_neg a) /\ fval (f32_neg a) = - fval a.
Proof.
  intros a (V & F). destruct a as [s|s| |s m e]; try discriminate F.
  - split; [split; reflexivity|]. unfold fval. cbn. lra.
  - split; [split; [exact V|reflexivity]|]. unfold fval. cbn. destruct s; cbn; unfold F2R; cbn; try rewrite <- Ropp_mult_distr_l_reverse; f_equal;
      rewrite <- opp_IZR; reflexivity.
Qed.

(** Comparisons *)
Lemma f32_lt_num : forall a b, is_num a -> is_num b -> f32_lt a b = Rlt_bool (fval a) (fval b).
Proof.
  intros a b A B. destruct (num_lift a A) as (x & -> & FX & EX). destruct (num_lift b B) as (y & -> & FY & EY).
  rewrite EX, EY. exact (Bltb_correct _ _ x y FX FY).
Qed.
Lemma f32_le_num : forall a b, is_num a -> is_num b -> f32_le a b = Rle_bool (fval a) (fval b).
Proof.
  intros a b A B. destruct (num_lift a A) as (x & -> & FX & EX). destruct (num_lift b B) as (y & -> & FY & EY).
  rewrite EX, EY. exact (Bleb_correct _ _ x y FX FY).
Qed.

(** * Rounding *)

Lemma rnd_mono : forall x y, x <= y -> rnd x <= rnd y.
Proof. intros x y H. apply round_le; [typeclasses eauto|typeclasses eauto|exact H]. Qed.

Lemma num_format : forall a, is_num a -> generic_format radix2 (SpecFloat.fexp 24 128) (fval a).
Proof. intros a A. destruct (num_lift a A) as (x & -> & FX & EX). rewrite EX. apply generic_format_B2R. Qed.

Lemma rnd_num : forall a, is_num a -> rnd (fval a) = fval a.
Proof. intros a A. apply round_generic; [typeclasses eauto|apply num_format, A]. Qed.

(** Half an ulp, relative for normal numbers and absolute for subnormal ones *)
Lemma rnd_error : forall x, Rabs (rnd x - x) <= / 2 * bpow radix2 (-23) * Rabs x + / 2 * bpow radix2 (-149).
Proof.
  intros x. unfold rnd.
  destruct (error_N_FLT radix2 (-149) 24 eq_refl (fun x => negb (Z.even x)) x) as (eps & eta & E1 & E2 & _ & E).
  change (round radix2 (SpecFloat.fexp 24 128) ZnearestE x)
    with (round radix2 (FLT_exp (-149) 24) (Znearest (fun x => negb (Z.even x))) x). rewrite E.
  replace (x * (1 + eps) + eta - x) with (x * eps + eta) by ring.
  eapply Rle_trans; [apply Rabs_triang|]. rewrite Rabs_mult.
  apply Rplus_le_compat; [|exact E2]. rewrite Rmult_comm. apply Rmult_le_compat_r; [apply Rabs_pos|exact E1].
Qed.

(** With a bound on the magnitude *)
Lemma rnd_error_below : forall x M, Rabs x <= M -> Rabs (rnd x - x) <= M / 16777216 + 1 / 16777216 / 16777216.
Proof.
  intros x M H. eapply Rle_trans; [apply rnd_error|].
  assert (E1 : bpow radix2 (-23) = / 8388608) by (cbn; reflexivity || (cbn; lra)).
  assert (E2 : bpow radix2 (-149) <= bpow radix2 (-48)) by (apply bpow_le; lia).
  assert (E3 : bpow radix2 (-48) = / 281474976710656) by (cbn; reflexivity).
  rewrite E1. rewrite E3 in E2. lra.
Qed.

(** * Integers *)

Lemma f32_of_Z_num : forall z, (Z.abs z <= 2 ^ 24)%Z -> is_num (f32_of_Z z) /\ fval (f32_of_Z z) = IZR z.
Proof.
  intros z Hz. unfold f32_of_Z, f32_prec, f32_emax. rewrite normalize_equiv.
  pose proof (binary_normalize_correct 24 128 prec_pos prec_max mode_NE z 0 false) as C. cbv zeta in C.
  assert (E : F2R (Float radix2 z 0) = IZR z) by (unfold F2R; cbn; lra).
  assert (G : generic_format radix2 (SpecFloat.fexp 24 128) (IZR z)).
  { apply generic_format_FLT. change (SpecFloat.fexp 24 128) with (FLT_exp (-149) 24).
    destruct (Z.eq_dec (Z.abs z) (2 ^ 24)) as [EQ|NE].
    - exists (Float radix2 (z / 2 ^ 24) 24).
      + unfold F2R. cbn [Fnum Fexp]. change (bpow radix2 24) with (IZR (2 ^ 24)). rewrite <- mult_IZR. f_equal.
        assert (z = 2 ^ 24 \/ z = - 2 ^ 24)%Z as [-> | ->] by lia; reflexivity.
      + cbn [Fnum]. assert (z = 2 ^ 24 \/ z = - 2 ^ 24)%Z as [-> | ->] by lia; reflexivity.
      + vm_compute. discriminate.
    - exists (Float radix2 z 0); [symmetry; exact E|cbn [Fnum]; change (Z.abs z < 2 ^ 24)%Z; lia|vm_compute; discriminate]. }
  rewrite E in C. rewrite no_overflow in C.
  - destruct C as (C1 & C2 & _). destruct (num_lower _ C2) as (N & V). split; [exact N|].
    rewrite V, C1. apply round_generic; [typeclasses eauto|exact G].
  - rewrite <- abs_IZR. change (bpow radix2 127) with (IZR (2 ^ 127)). apply IZR_le. lia.
Qed.

(** A float given by its mantissa and exponent *)
Lemma fval_finite : forall s m e, fval (S754_finite s m e) = IZR (if s then Z.neg m else Z.pos m) * bpow radix2 e.
Proof. intros [] m e; reflexivity. Qed.

(** * Errors *)

(** [x] is a number at most [e] away from [v] *)
Definition approx (x : f32) (v e : R) : Prop := is_num x /\ Rabs (fval x - v) <= e.

(** Upper bound of the rounding error of a result of magnitude at most [M] *)
Definition half_ulp (M : R) : R := M / 16777216 + 1 / 281474976710656.

Lemma big_bound : forall x, Rabs x <= 1000000 -> Rabs x <= bpow radix2 127.
Proof. intros x H. eapply Rle_trans; [exact H|]. change (bpow radix2 127) with (IZR (2 ^ 127)). apply IZR_le. lia. Qed.

Lemma approx_weaken : forall x v e v' e', approx x v e -> Rabs (v - v') <= e' - e -> approx x v' e'.
Proof.
  intros x v e v' e' (N & A) H. split; [exact N|]. replace (fval x - v') with ((fval x - v) + (v - v')) by ring.
  eapply Rle_trans; [apply Rabs_triang|]. lra.
Qed.

Lemma rnd_approx : forall x v e M, Rabs (x - v) <= e -> Rabs v + e <= M -> Rabs (rnd x - v) <= e + half_ulp M.
Proof.
  intros x v e M H HM. assert (B : Rabs x <= M).
  { replace x with ((x - v) + v) by ring. eapply Rle_trans; [apply Rabs_triang|]. lra. }
  replace (rnd x - v) with ((rnd x - x) + (x - v)) by ring. eapply Rle_trans; [apply Rabs_triang|].
  pose proof (rnd_error_below x M B). unfold half_ulp. lra.
Qed.

Lemma approx_bound : forall x v e M, Rabs (x - v) <= e -> Rabs v + e <= M -> M <= 1000000 -> Rabs x <= bpow radix2 127.
Proof.
  intros x v e M H HM HB. apply big_bound. replace x with ((x - v) + v) by ring. eapply Rle_trans; [apply Rabs_triang|]. lra.
Qed.

Lemma approx_add : forall a va ea b vb eb M, approx a va ea -> approx b vb eb ->
  Rabs (va + vb) + (ea + eb) <= M -> M <= 1000000 ->
  approx (f32_add a b) (va + vb) (ea + eb + half_ulp M).
Proof.
  intros a va ea b vb eb M (NA & A) (NB & B) HM HB.
  assert (E : Rabs (fval a + fval b - (va + vb)) <= ea + eb).
  { replace (fval a + fval b - (va + vb)) with ((fval a - va) + (fval b - vb)) by ring.
    eapply Rle_trans; [apply Rabs_triang|]. lra. }
  destruct (f32_add_num a b NA NB) as (N & V); [eapply approx_bound; eassumption|].
  split; [exact N|]. rewrite V. apply rnd_approx; assumption.
Qed.

Lemma approx_sub : forall a va ea b vb eb M, approx a va ea -> approx b vb eb ->
  Rabs (va - vb) + (ea + eb) <= M -> M <= 1000000 ->
  approx (f32_sub a b) (va - vb) (ea + eb + half_ulp M).
Proof.
  intros a va ea b vb eb M (NA & A) (NB & B) HM HB.
  assert (E : Rabs (fval a - fval b - (va - vb)) <= ea + eb).
  { replace (fval a - fval b - (va - vb)) with ((fval a - va) - (fval b - vb)) by ring.
    unfold Rminus at 1. eapply Rle_trans; [apply Rabs_triang|]. rewrite Rabs_Ropp. lra. }
  destruct (f32_sub_num a b NA NB) as (N & V); [eapply approx_bound; eassumption|].
  split; [exact N|]. rewrite V. apply rnd_approx; assumption.
Qed.

Lemma approx_mul : forall a va ea b vb eb A B M, approx a va ea -> approx b vb eb ->
  Rabs va <= A -> Rabs vb <= B -> (A + ea) * (B + eb) <= M -> M <= 1000000 ->
  approx (f32_mul a b) (va * vb) (A * eb + B * ea + ea * eb + half_ulp M).
Proof.
  intros a va ea b vb eb A B M (NA & HA) (NB & HB) BA BB HM BM.
  pose proof (Rabs_pos (fval a - va)). pose proof (Rabs_pos (fval b - vb)). pose proof (Rabs_pos va). pose proof (Rabs_pos vb).
  assert (E : Rabs (fval a * fval b - va * vb) <= A * eb + B * ea + ea * eb).
  { replace (fval a * fval b - va * vb) with (va * (fval b - vb) + vb * (fval a - va) + (fval a - va) * (fval b - vb)) by ring.
    eapply Rle_trans; [apply Rabs_triang|]. apply Rplus_le_compat; [eapply Rle_trans; [apply Rabs_triang|]; apply Rplus_le_compat|];
      rewrite Rabs_mult; apply Rmult_le_compat; lra. }
  assert (M2 : Rabs (va * vb) + (A * eb + B * ea + ea * eb) <= M).
  { rewrite Rabs_mult. assert (Rabs va * Rabs vb <= A * B) by (apply Rmult_le_compat; lra). lra. }
  destruct (f32_mul_num a b NA NB) as (N & V); [eapply approx_bound; eassumption|].
  split; [exact N|]. rewrite V. apply rnd_approx; assumption.
Qed.

(** Division by an exactly represented number *)
Lemma approx_div : forall a va ea b d M, approx a va ea -> is_num b -> fval b = d -> 1 <= d ->
  (Rabs va + ea) <= M -> M <= 1000000 ->
  approx (f32_div a b) (va / d) (ea / d + half_ulp (M / d)).
Proof.
  intros a va ea b d M (NA & HA) NB EB D HM BM. subst d.
  assert (I : 0 < / fval b <= 1).
  { split; [apply Rinv_0_lt_compat; lra|]. rewrite <- Rinv_1. apply Rinv_le_contravar; lra. }
  assert (E : Rabs (fval a / fval b - va / fval b) <= ea / fval b).
  { replace (fval a / fval b - va / fval b) with ((fval a - va) * / fval b) by (unfold Rdiv; ring).
    rewrite Rabs_mult, (Rabs_pos_eq (/ fval b)) by lra. unfold Rdiv. apply Rmult_le_compat_r; lra. }
  assert (M2 : Rabs (va / fval b) + ea / fval b <= M / fval b).
  { unfold Rdiv. rewrite Rabs_mult, (Rabs_pos_eq (/ fval b)) by lra.
    rewrite <- Rmult_plus_distr_r. apply Rmult_le_compat_r; lra. }
  assert (M3 : M / fval b <= 1000000).
  { unfold Rdiv. pose proof (Rabs_pos va). pose proof (Rabs_pos (fval a - va)).
    apply Rle_trans with (M * 1); [apply Rmult_le_compat_l; lra|lra]. }
  destruct (f32_div_num a b NA NB) as (N & V); [lra|eapply approx_bound; eassumption|].
  split; [exact N|]. rewrite V. apply rnd_approx; assumption.
Qed.

Lemma approx_of_Z : forall z, (Z.abs z <= 2 ^ 24)%Z -> approx (f32_of_Z z) (IZR z) 0.
Proof. intros z H. destruct (f32_of_Z_num z H) as (N & V). split; [exact N|]. rewrite V, Rminus_diag_eq, Rabs_R0 by reflexivity. lra. Qed.

(** A float constant: [v] differs from its exact value by at most [e] *)
Lemma approx_const : forall x s m e v err, x = S754_finite s m e -> bounded 24 128 m e = true ->
  Rabs (IZR (if s then Z.neg m else Z.pos m) * bpow radix2 e - v) <= err -> approx x v err.
Proof. intros x s m e v err -> B H. split; [split; [exact B|reflexivity]|]. rewrite fval_finite. exact H. Qed.
