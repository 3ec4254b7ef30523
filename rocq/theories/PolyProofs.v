(** Bounds of polynomials on an interval, by computation on integers. *)

From Coq Require Import ZArith List Reals Lia Lra Psatz Bool.
From Coquelicot Require Import Coquelicot.
Import ListNotations.

(** * Integer polynomials, constant term first *)

Fixpoint zshift1 (p : list Z) (c : Z) : list Z :=
  (* coefficients of [(x + c) * q(x)] + a, for [p = a + x * ...] *)
  match p with
  | [] => []
  | a :: p' => let q := zshift1 p' c in
      (* a + (x + c) * q *)
      match q with
      | [] => [a]
      | b :: r => (a + c * b)%Z :: (fix go (prev : Z) (l : list Z) : list Z :=
                    match l with [] => [prev] | d :: l' => (prev + c * d)%Z :: go d l' end) b r
      end
  end.

Definition zbound (p : list Z) (w : Z) : Z := fold_right (fun a s => Z.abs a + w * s)%Z 0%Z p.

(** The largest bound over [n] pieces of half width [w], starting at [lo] *)
Fixpoint zpieces (p : list Z) (lo w : Z) (n : nat) : Z :=
  match n with
  | O => 0%Z
  | S n' => Z.max (zbound (zshift1 p (lo + w)) w) (zpieces p (lo + 2 * w) w n')
  end.

Local Open Scope R_scope.

Definition peval (p : list Z) (x : R) : R := fold_right (fun a s => IZR a + x * s) 0 p.

Lemma go_eval : forall c x l prev,
  peval ((fix go (prev : Z) (l : list Z) : list Z :=
     match l with [] => [prev] | d :: l' => (prev + c * d)%Z :: go d l' end) prev l) x = IZR prev + (x + IZR c) * peval l x.
Proof.
  intros c x. induction l as [|d l IH]; intros prev; cbn [peval fold_right]; [ring|].
  fold (peval l x). rewrite plus_IZR, mult_IZR.
  change (fold_right (fun (a : Z) (s : R) => IZR a + x * s) 0 ((fix go (prev0 : Z) (l0 : list Z) {struct l0} : list Z :=
        match l0 with [] => [prev0] | d0 :: l' => (prev0 + c * d0)%Z :: go d0 l' end) d l))
    with (peval ((fix go (prev0 : Z) (l0 : list Z) {struct l0} : list Z :=
        match l0 with [] => [prev0] | d0 :: l' => (prev0 + c * d0)%Z :: go d0 l' end) d l) x).
  rewrite IH. ring.
Qed.

Lemma zshift1_eval : forall p c x, peval (zshift1 p c) x = peval p (x + IZR c).
Proof.
  induction p as [|a p IH]; intros c x; [reflexivity|]. specialize (IH c x).
  cbn [zshift1]. cbn [peval fold_right]. fold (peval p (x + IZR c)). rewrite <- IH.
  destruct (zshift1 p c) as [|b r]; [cbn; ring|].
  cbn [peval fold_right]. fold (peval r x). rewrite plus_IZR, mult_IZR.
  match goal with |- _ + x * fold_right _ 0 ?t = _ => change (fold_right (fun (a : Z) (s : R) => IZR a + x * s) 0 t) with (peval t x) end.
  rewrite go_eval. ring.
Qed.

Lemma zbound_ok : forall p w x, Rabs x <= IZR w -> Rabs (peval p x) <= IZR (zbound p w).
Proof.
  induction p as [|a p IH]; intros w x H; cbn [peval fold_right zbound]; [rewrite Rabs_R0; lra|].
  fold (peval p x). fold (zbound p w). rewrite plus_IZR, mult_IZR, abs_IZR.
  eapply Rle_trans; [apply Rabs_triang|]. apply Rplus_le_compat_l. rewrite Rabs_mult.
  apply Rmult_le_compat; try apply Rabs_pos; [exact H|apply IH, H].
Qed.

Lemma zpieces_ok : forall p w n lo x, (0 <= w)%Z -> IZR lo <= x <= IZR (lo + 2 * w * Z.of_nat n) -> (0 < n)%nat ->
  Rabs (peval p x) <= IZR (zpieces p lo w n).
Proof.
  intros p w. induction n as [|n IH]; intros lo x W H N; [lia|]. cbn [zpieces].
  destruct (Rle_dec x (IZR (lo + 2 * w))) as [C|C].
  - apply Rle_trans with (IZR (zbound (zshift1 p (lo + w)) w)); [|apply IZR_le; lia].
    replace x with ((x - IZR (lo + w)) + IZR (lo + w)) by ring. rewrite <- zshift1_eval. apply zbound_ok.
    apply Rabs_le. rewrite !plus_IZR, ?mult_IZR in *. lra.
  - destruct n as [|n].
    + exfalso. apply C. replace (lo + 2 * w)%Z with (lo + 2 * w * Z.of_nat 1)%Z by lia. apply H.
    + apply Rle_trans with (IZR (zpieces p (lo + 2 * w) w (S n))); [|apply IZR_le; lia]. apply IH; [exact W| |lia].
      split; [lra|]. replace (lo + 2 * w + 2 * w * Z.of_nat (S n))%Z with (lo + 2 * w * Z.of_nat (S (S n)))%Z by lia. apply H.
Qed.

(** The sum of the bounds over the pieces *)
Fixpoint zsum (p : list Z) (lo w : Z) (n : nat) : Z :=
  match n with
  | O => 0%Z
  | S n' => (zbound (zshift1 p (lo + w)) w + zsum p (lo + 2 * w) w n')%Z
  end.

Lemma zbound_pos : forall p w, (0 <= w)%Z -> (0 <= zbound p w)%Z.
Proof. induction p as [|a p IH]; intros w W; cbn; [lia|]. specialize (IH w W). fold (zbound p w). nia. Qed.

Lemma zsum_pos : forall p w n lo, (0 <= w)%Z -> (0 <= zsum p lo w n)%Z.
Proof. intros p w. induction n as [|n IH]; intros lo W; cbn [zsum]; [lia|]. specialize (IH (lo + 2 * w)%Z W). pose proof (zbound_pos (zshift1 p (lo + w)) w W). lia. Qed.

(** A function whose slope is bounded by the polynomial moves by at most the
    sum of the bounds *)
Lemma zsum_ok : forall (f : R -> R) (p : list Z) w n lo,
  (0 <= w)%Z ->
  (forall a b B, IZR lo <= a -> a <= b -> b <= IZR (lo + 2 * w * Z.of_nat n) ->
     (forall c, a <= c <= b -> Rabs (peval p c) <= B) -> Rabs (f b - f a) <= B * (b - a)) ->
  forall x, IZR lo <= x <= IZR (lo + 2 * w * Z.of_nat n) ->
  Rabs (f x - f (IZR lo)) <= IZR (2 * w * zsum p lo w n).
Proof.
  intros f p w. induction n as [|n IH]; intros lo W H x X.
  - replace (lo + 2 * w * Z.of_nat 0)%Z with lo in X by lia. replace x with (IZR lo) by lra.
    rewrite Rminus_diag_eq, Rabs_R0 by reflexivity. cbn [zsum]. rewrite Z.mul_0_r. lra.
  - assert (WR : 0 <= IZR w) by (apply IZR_le, W).
    assert (EX : forall c, IZR lo <= c <= IZR (lo + 2 * w) -> Rabs (peval p c) <= IZR (zbound (zshift1 p (lo + w)) w)).
    { intros c Hc. replace c with ((c - IZR (lo + w)) + IZR (lo + w)) by ring. rewrite <- zshift1_eval. apply zbound_ok.
      apply Rabs_le. rewrite !plus_IZR, ?mult_IZR in *. lra. }
    assert (ZB : 0 <= IZR (zbound (zshift1 p (lo + w)) w)) by (apply IZR_le, zbound_pos, W).
    assert (ZS : 0 <= IZR (zsum p (lo + 2 * w) w n)) by (apply IZR_le, zsum_pos, W).
    assert (LE : (lo + 2 * w <= lo + 2 * w * Z.of_nat (S n))%Z) by nia.
    apply IZR_le in LE. cbn [zsum].
    destruct (Rle_dec x (IZR (lo + 2 * w))) as [C|C].
    + eapply Rle_trans; [apply (H (IZR lo) x (IZR (zbound (zshift1 p (lo + w)) w))); try lra; intros; apply EX; lra|].
      rewrite !mult_IZR, plus_IZR. assert (x - IZR lo <= 2 * IZR w) by (rewrite plus_IZR, mult_IZR in C; lra). nra.
    + replace (f x - f (IZR lo)) with ((f x - f (IZR (lo + 2 * w))) + (f (IZR (lo + 2 * w)) - f (IZR lo))) by ring.
      eapply Rle_trans; [apply Rabs_triang|].
      assert (LO : IZR lo <= IZR (lo + 2 * w)) by (apply IZR_le; lia).
      assert (A1 : Rabs (f x - f (IZR (lo + 2 * w))) <= IZR (2 * w * zsum p (lo + 2 * w) w n)).
      { apply IH; [exact W| |].
        - intros a b B HA HAB HB HC. apply H; try lra; [|exact HC].
          eapply Rle_trans; [exact HB|]. apply IZR_le. lia.
        - split; [lra|]. replace (lo + 2 * w + 2 * w * Z.of_nat n)%Z with (lo + 2 * w * Z.of_nat (S n))%Z by lia. apply X. }
      assert (A2 : Rabs (f (IZR (lo + 2 * w)) - f (IZR lo)) <= IZR (zbound (zshift1 p (lo + w)) w) * (IZR (lo + 2 * w) - IZR lo)).
      { apply H; try lra. intros; apply EX; lra. }
      replace (IZR (lo + 2 * w) - IZR lo) with (2 * IZR w) in A2 by (rewrite plus_IZR, mult_IZR; ring).
      rewrite (mult_IZR (2 * w)), (mult_IZR 2 w) in A1. rewrite (mult_IZR (2 * w)), (mult_IZR 2 w), (plus_IZR (zbound _ _)). nra.
Qed.

(** The mean value theorem as a bound *)
Lemma mvt_bound : forall (f df : R -> R) a b B, a <= b -> (forall c, a <= c <= b -> is_derive f c (df c)) ->
  (forall c, a <= c <= b -> Rabs (df c) <= B) -> Rabs (f b - f a) <= B * (b - a).
Proof.
  intros f df a b B AB HD HB.
  destruct (MVT_gen f a b df) as (c & HC & E).
  - intros x X. apply HD. rewrite Rmin_left, Rmax_right in X by exact AB. lra.
  - intros x X. rewrite Rmin_left, Rmax_right in X by exact AB. apply continuity_pt_filterlim. apply (ex_derive_continuous f x). exists (df x). apply HD. lra.
  - rewrite Rmin_left, Rmax_right in HC by exact AB. rewrite E, Rabs_mult, (Rabs_pos_eq (b - a)) by lra.
    apply Rmult_le_compat_r; [lra|apply HB, HC].
Qed.

(** * The logarithm *)

(** The polynomial of [log] with the coefficients of the code *)
Definition vlog_poly (t : R) : R := t + t * t * (- (1 / 2) + t * ((5592405 / 16777216) + t * ((- (4194303 / 16777216)) + t * ((3355563 / 16777216) + t * ((- (699109 / 4194304)) + t * ((9562559 / 67108864) + t * ((- (16670031 / 134217728)) + t * ((7836301 / 67108864) + t * ((- (1931831 / 16777216)) + t * (9445819 / 134217728)))))))))).

(** [1 - (1 + t) * vlog_poly' t], scaled, as a polynomial in [512 t] *)
Definition log_slope : list Z := [0; 0; 19342813113834066795298816; (-113336795588871485128704); (-44493546705787438497792); 115436265648760553472; 12423672153310756864; (-35430250376593408); (-1032559798517760); 3537125244928; 25928945152; (-103904009)]%Z.

(** * The exponential *)
Definition vexp_poly (r : R) : R := 1 + r + r * r * ((1 / 2) + r * ((5592405 / 33554432) + r * ((11184577 / 268435456) + r * ((1118497 / 134217728) + r * ((6005223 / 4294967296) + r * (13658471 / 68719476736)))))).

Definition exp_slope : list Z := [0; 0; (-72057594037927936); (-16395917393395712); 13503377178624; 1004258983936; (-242826752); (-13658471)]%Z.

Definition log_err (u : R) : R := ln (1 + u / 512) - vlog_poly (u / 512).

Lemma log_slope_eval : forall u, peval log_slope u = 85070591730234615865843651857942052864 * (1 - (1 + u / 512) * Derive vlog_poly (u / 512)).
Proof.
  intros u. assert (E : forall t, is_derive vlog_poly t (Derive vlog_poly t)).
  { intros t. apply Derive_correct. unfold vlog_poly. auto_derive. exact I. }
  replace (Derive vlog_poly (u / 512)) with (Derive vlog_poly (u / 512)) by reflexivity.
  erewrite (is_derive_unique vlog_poly (u / 512)).
  2:{ unfold vlog_poly. auto_derive; [exact I|reflexivity]. }
  unfold log_slope. cbn [peval fold_right]. field.
Qed.

Lemma log_err_slope : forall u k, 0 < k -> k <= 1 + u / 512 ->
  is_derive log_err u ((1 / (1 + u / 512) - Derive vlog_poly (u / 512)) / 512) /\
  512 * 85070591730234615865843651857942052864 * k * Rabs ((1 / (1 + u / 512) - Derive vlog_poly (u / 512)) / 512) <= Rabs (peval log_slope u).
Proof.
  intros u k K H. split.
  - unfold log_err. apply (is_derive_ext (fun u => ln (1 + u / 512) - vlog_poly (u / 512))); [reflexivity|].
    evar_last; [apply (is_derive_minus (fun u => ln (1 + u / 512)) (fun u => vlog_poly (u / 512))); [auto_derive; [lra|reflexivity]|apply (is_derive_comp vlog_poly (fun u => u / 512)); [apply Derive_correct; unfold vlog_poly; auto_derive; exact I|auto_derive; [exact I|reflexivity]]]|]. unfold minus, plus, opp, scal; simpl; unfold mult; simpl. field. lra.
  - rewrite log_slope_eval. set (d := Derive vlog_poly (u / 512)). set (s := 1 + u / 512) in *.
    replace ((1 / s - d) / 512) with ((1 - s * d) * (/ s * / 512)) by (field; lra).
    rewrite !Rabs_mult. rewrite (Rabs_pos_eq 85070591730234615865843651857942052864) by lra.
    rewrite (Rabs_pos_eq (/ s)), (Rabs_pos_eq (/ 512)) by (try (left; apply Rinv_0_lt_compat); lra).
    assert (k * / s <= 1) by (apply Rmult_le_reg_r with s; [lra|]; rewrite Rmult_assoc, Rinv_l by lra; lra).
    pose proof (Rabs_pos (1 - s * d)). nra.
Qed.

Lemma log_err_zero : log_err 0 = 0.
Proof. unfold log_err, vlog_poly. replace (1 + 0 / 512) with 1 by field. rewrite ln_1. field. Qed.

Lemma log_err_moves : forall k lo n, 0 < k -> k <= 1 + IZR lo / 512 -> forall x, IZR lo <= x <= IZR (lo + 2 * Z.of_nat n) ->
  512 * 85070591730234615865843651857942052864 * k * Rabs (log_err x - log_err (IZR lo)) <= IZR (2 * zsum log_slope lo 1 n).
Proof.
  intros k lo n K HK x X. set (c := 512 * 85070591730234615865843651857942052864 * k).
  assert (C : 0 < c) by (unfold c; lra).
  replace (c * Rabs (log_err x - log_err (IZR lo))) with (Rabs (c * log_err x - c * log_err (IZR lo)))
    by (rewrite <- Rmult_minus_distr_l, Rabs_mult, (Rabs_pos_eq c) by lra; reflexivity).
  replace (2 * zsum log_slope lo 1 n)%Z with (2 * 1 * zsum log_slope lo 1 n)%Z by lia.
  apply (zsum_ok (fun u => c * log_err u) log_slope 1 n lo); [lia| |].
  2:{ replace (lo + 2 * 1 * Z.of_nat n)%Z with (lo + 2 * Z.of_nat n)%Z by lia. exact X. }
  intros a b B A AB _ HB.
  assert (SL : forall u, a <= u -> k <= 1 + u / 512) by (intros; lra).
  apply (mvt_bound (fun u => c * log_err u) (fun u => c * ((1 / (1 + u / 512) - Derive vlog_poly (u / 512)) / 512)) a b B AB).
  - intros u U. destruct (log_err_slope u k K (SL u (proj1 U))) as (D & _). evar_last; [apply (is_derive_scal log_err u c _ D)|].
    unfold scal; simpl; unfold mult; simpl; reflexivity.
  - intros u U. destruct (log_err_slope u k K (SL u (proj1 U))) as (_ & D). rewrite Rabs_mult, (Rabs_pos_eq c) by lra.
    eapply Rle_trans; [exact D|apply HB, U].
Qed.

(** The polynomial of [log] is within 1.1e-8 of the logarithm *)
Lemma vlog_poly_ok : forall t, - (75 / 256) <= t <= 107 / 256 -> Rabs (ln (1 + t) - vlog_poly t) <= 11 / 1000000000.
Proof.
  intros t T. replace (ln (1 + t) - vlog_poly t) with (log_err (512 * t)) by (unfold log_err; replace (512 * t / 512) with t by field; reflexivity).
  destruct (Rle_dec 0 t) as [C|C].
  - pose proof (log_err_moves 1 0 107 ltac:(lra) ltac:(lra) (512 * t)) as M.
    replace (IZR (0 + 2 * Z.of_nat 107)) with 214 in M by (vm_compute; reflexivity).
    assert (S : IZR (2 * zsum log_slope 0 1 107) <= 512 * 85070591730234615865843651857942052864 * (11 / 1000000000))
      by (let v := eval vm_compute in (2 * zsum log_slope 0 1 107)%Z in replace (2 * zsum log_slope 0 1 107)%Z with v by (vm_compute; reflexivity); lra).
    rewrite log_err_zero, Rminus_0_r in M. specialize (M ltac:(lra)). lra.
  - pose proof (log_err_moves (7 / 10) (-150) 75 ltac:(lra) ltac:(lra)) as M.
    replace (IZR (-150 + 2 * Z.of_nat 75)) with 0 in M by (vm_compute; reflexivity).
    assert (S : IZR (2 * zsum log_slope (-150) 1 75) <= 512 * 85070591730234615865843651857942052864 * (7 / 10) * (4 / 1000000000))
      by (let v := eval vm_compute in (2 * zsum log_slope (-150) 1 75)%Z in replace (2 * zsum log_slope (-150) 1 75)%Z with v by (vm_compute; reflexivity); lra).
    pose proof (M (512 * t) ltac:(lra)) as M1. pose proof (M 0 ltac:(lra)) as M2. rewrite log_err_zero in M2.
    set (y := log_err (512 * t)) in *. set (z := log_err (IZR (-150))) in *.
    assert (A1 : Rabs (y - z) <= 4 / 1000000000) by lra. assert (A2 : Rabs (0 - z) <= 4 / 1000000000) by lra.
    replace y with ((y - z) - (0 - z)) by ring. eapply Rle_trans; [apply Rabs_triang|]. rewrite Rabs_Ropp. lra.
Qed.

(** ** The exponential *)

Definition exp_err (u : R) : R := vexp_poly (u / 512) * exp (- (u / 512)).

Lemma exp_slope_eval : forall u, peval exp_slope u = 633825300114114700748351602688 * (Derive vexp_poly (u / 512) - vexp_poly (u / 512)).
Proof.
  intros u. erewrite (is_derive_unique vexp_poly (u / 512)).
  2:{ unfold vexp_poly. auto_derive; [exact I|reflexivity]. }
  unfold exp_slope, vexp_poly. cbn [peval fold_right]. field.
Qed.

Lemma exp_err_slope : forall u k, 0 <= k -> k <= exp (u / 512) ->
  is_derive exp_err u ((Derive vexp_poly (u / 512) - vexp_poly (u / 512)) * exp (- (u / 512)) / 512) /\
  512 * 633825300114114700748351602688 * k * Rabs ((Derive vexp_poly (u / 512) - vexp_poly (u / 512)) * exp (- (u / 512)) / 512) <= Rabs (peval exp_slope u).
Proof.
  intros u k K H. split.
  - unfold exp_err. evar_last; [apply (is_derive_mult (fun u => vexp_poly (u / 512)) (fun u => exp (- (u / 512))));
      [apply (is_derive_comp vexp_poly (fun u => u / 512)); [apply Derive_correct; unfold vexp_poly; auto_derive; exact I|auto_derive; [exact I|reflexivity]]
      |auto_derive; [exact I|reflexivity]|intros; apply Rmult_comm]|].
    unfold minus, plus, opp, scal; simpl; unfold mult; simpl. change (u * / 512) with (u / 512). field.
  - rewrite exp_slope_eval. set (d := Derive vexp_poly (u / 512) - vexp_poly (u / 512)).
    unfold Rdiv at 1. rewrite !Rabs_mult. rewrite (Rabs_pos_eq 633825300114114700748351602688) by lra.
    pose proof (exp_pos (- (u / 512))) as EP. rewrite (Rabs_pos_eq (exp _)), (Rabs_pos_eq (/ 512)) by lra.
    assert (k * exp (- (u / 512)) <= 1).
    { replace 1 with (exp (u / 512) * exp (- (u / 512))) by (rewrite <- exp_plus; replace (u / 512 + - (u / 512)) with 0 by ring; apply exp_0).
      apply Rmult_le_compat_r; lra. }
    pose proof (Rabs_pos d). nra.
Qed.

(** The polynomial of [exp] is within 1.5e-8 of the exponential, relatively *)
Lemma vexp_poly_ok : forall r, - (89 / 256) <= r <= 89 / 256 -> Rabs (vexp_poly r - exp r) <= 15 / 1000000000 * exp r.
Proof.
  intros r T.
  assert (E0 : exp_err 0 = 1) by (unfold exp_err, vexp_poly; replace (- (0 / 512)) with 0 by field; rewrite exp_0; field).
  assert (KEY : forall x, -178 <= x <= 178 -> 512 * 633825300114114700748351602688 * (69 / 100) * Rabs (exp_err x - exp_err (-178)) <= IZR (2 * zsum exp_slope (-178) 1 178)).
  { intros x X. set (c := 512 * 633825300114114700748351602688 * (69 / 100)). assert (C : 0 < c) by (unfold c; lra).
    replace (c * Rabs (exp_err x - exp_err (-178))) with (Rabs (c * exp_err x - c * exp_err (-178)))
      by (rewrite <- Rmult_minus_distr_l, Rabs_mult, (Rabs_pos_eq c) by lra; reflexivity).
    change (2 * zsum exp_slope (-178) 1 178)%Z with (2 * 1 * zsum exp_slope (-178) 1 178)%Z.
    apply (zsum_ok (fun u => c * exp_err u) exp_slope 1 178 (-178)); [lia| |].
    2:{ replace (IZR (-178 + 2 * 1 * Z.of_nat 178)) with 178 by (vm_compute; reflexivity). lra. }
    intros a b B A AB _ HB.
    assert (SL : forall u, a <= u -> 69 / 100 <= exp (u / 512)).
    { intros u U. apply Rle_trans with (exp (- (178 / 512))); [|destruct (Rle_lt_or_eq_dec (- (178 / 512)) (u / 512) ltac:(lra)) as [L|L]; [left; apply exp_increasing, L|rewrite L; right; reflexivity]].
      rewrite exp_Ropp. replace (178 / 512) with (89 / 512 + 89 / 512) by field. rewrite exp_plus.
      rewrite Rinv_mult, <- exp_Ropp. replace (- (89 / 512)) with (- (89 / 1024) + - (89 / 1024)) by field. rewrite exp_plus.
      pose proof (exp_ineq1_le (- (89 / 1024))) as Q. set (e := exp (- (89 / 1024))) in *.
      assert (8336 / 10000 <= e * e) by nra. nra. }
    apply (mvt_bound (fun u => c * exp_err u) (fun u => c * ((Derive vexp_poly (u / 512) - vexp_poly (u / 512)) * exp (- (u / 512)) / 512)) a b B AB).
    - intros u U. destruct (exp_err_slope u (69 / 100) ltac:(lra) (SL u (proj1 U))) as (D & _). evar_last; [apply (is_derive_scal exp_err u c _ D)|].
      unfold scal; simpl; unfold mult; simpl; reflexivity.
    - intros u U. destruct (exp_err_slope u (69 / 100) ltac:(lra) (SL u (proj1 U))) as (_ & D). rewrite Rabs_mult, (Rabs_pos_eq c) by lra.
      eapply Rle_trans; [exact D|apply HB, U]. }
  assert (S : IZR (2 * zsum exp_slope (-178) 1 178) <= 512 * 633825300114114700748351602688 * (69 / 100) * (7 / 1000000000))
    by (let v := eval vm_compute in (2 * zsum exp_slope (-178) 1 178)%Z in replace (2 * zsum exp_slope (-178) 1 178)%Z with v by (vm_compute; reflexivity); lra).
  pose proof (KEY (512 * r) ltac:(lra)) as M1. pose proof (KEY 0 ltac:(lra)) as M2. rewrite E0 in M2.
  set (y := exp_err (512 * r)) in *. set (z := exp_err (-178)) in *.
  assert (A1 : Rabs (y - z) <= 7 / 1000000000) by lra. assert (A2 : Rabs (1 - z) <= 7 / 1000000000) by lra.
  assert (A : Rabs (y - 1) <= 14 / 1000000000).
  { replace (y - 1) with ((y - z) - (1 - z)) by ring. eapply Rle_trans; [apply Rabs_triang|]. rewrite Rabs_Ropp. lra. }
  unfold y, exp_err in A. replace (512 * r / 512) with r in A by field.
  pose proof (exp_pos r) as EP.
  replace (vexp_poly r - exp r) with ((vexp_poly r * exp (- r) - 1) * exp r).
  2:{ rewrite Rmult_minus_distr_r, Rmult_assoc, <- exp_plus. replace (- r + r) with 0 by ring. rewrite exp_0. ring. }
  rewrite Rabs_mult, (Rabs_pos_eq (exp r)) by lra. apply Rmult_le_compat_r; lra.
Qed.
