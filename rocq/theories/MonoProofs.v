(** Monotonicity of binary32 arithmetic and of the color formulas, for C63. *)

From Coq Require Import List ZArith Bool Arith Reals Lia Lra Psatz.
From Coq Require Import Floats.SpecFloat.
From Flocq Require Import Core.
From Verif Require Import Base Types Planes ImageM F32 Vector Simd SpecVector SimdProofs QuantProofs SpecGeom GeomProofs
  SpecColor SpecConvert SpecRun Formats Visit Convert VisitProofs ColorProofs ConvertProofs PropConvert PropFidelity
  SpecReal FloatProofs AccProofs TargetProofs.
Import ListNotations.
Local Open Scope R_scope.

(** Numbers below 2^k in size, in order *)
Definition mle (k : Z) (a b : f32) : Prop :=
  is_num a /\ is_num b /\ Rabs (fval a) <= bpow radix2 k /\ Rabs (fval b) <= bpow radix2 k /\ fval a <= fval b.

Lemma mle_refl : forall k a, is_num a -> Rabs (fval a) <= bpow radix2 k -> mle k a a.
Proof. unfold mle. intros. repeat split; auto; try apply H; lra. Qed.

Lemma mle_weaken : forall k k' a b, mle k a b -> (k <= k')%Z -> mle k' a b.
Proof.
  intros k k' a b (A & B & C & D & E) K. pose proof (bpow_le radix2 _ _ K).
  split; [exact A|split; [exact B|split; [lra|split; [lra|exact E]]]].
Qed.

Lemma mle_left : forall k a b, mle k a b -> mle k a a.
Proof. intros k a b (A & _ & C & _). apply mle_refl; assumption. Qed.
Lemma mle_right : forall k a b, mle k a b -> mle k b b.
Proof. intros k a b (_ & A & _ & C & _). apply mle_refl; assumption. Qed.

Lemma pow_127 : forall k, (k <= 126)%Z -> forall x, Rabs x <= bpow radix2 k -> Rabs x <= bpow radix2 127.
Proof. intros k K x H. assert (bpow radix2 k <= bpow radix2 127) by (apply bpow_le; lia). lra. Qed.

Lemma mle_add : forall k a b a' b', (-100 <= k <= 100)%Z -> mle k a b -> mle k a' b' -> mle (k + 1) (f32_add a a') (f32_add b b').
Proof.
  intros k a b a' b' K (A & B & C & D & E) (A' & B' & C' & D' & E').
  assert (P : bpow radix2 (k + 1) = bpow radix2 k + bpow radix2 k) by (rewrite bpow_plus; cbn; lra).
  assert (S1 : Rabs (fval a + fval a') <= bpow radix2 (k + 1)) by (pose proof (Rabs_triang (fval a) (fval a')); lra).
  assert (S2 : Rabs (fval b + fval b') <= bpow radix2 (k + 1)) by (pose proof (Rabs_triang (fval b) (fval b')); lra).
  destruct (f32_add_num a a' A A' (pow_127 (k + 1) ltac:(lia) _ S1)) as (N1 & V1).
  destruct (f32_add_num b b' B B' (pow_127 (k + 1) ltac:(lia) _ S2)) as (N2 & V2).
  split; [exact N1|split; [exact N2|]]. rewrite V1, V2.
  split; [apply rnd_bound; [lia|lia|exact S1]|split; [apply rnd_bound; [lia|lia|exact S2]|]]. apply rnd_mono. lra.
Qed.

(** A number of known sign and size *)
Definition pos_num (k : Z) (c : f32) : Prop := is_num c /\ 0 <= fval c <= bpow radix2 k.
Definition neg_num (k : Z) (c : f32) : Prop := is_num c /\ - bpow radix2 k <= fval c <= 0.

Definition num_check (s : bool) (k : Z) (c : f32) : bool :=
  match c with
  | S754_finite s' m e => valid_binary 24 128 c && Bool.eqb s s' && (Z.pos m * 2 ^ (e + 200) <=? 2 ^ (k + 200))%Z && (-200 <=? e)%Z && (-200 <=? k)%Z
  | _ => false
  end.

Lemma check_val : forall s k c, num_check s k c = true -> is_num c /\
  exists m e, c = S754_finite s m e /\ IZR (Z.pos m) * bpow radix2 e <= bpow radix2 k.
Proof.
  intros s k c H. destruct c as [ | | |s' m e]; try discriminate H. unfold num_check in H.
  apply andb_true_iff in H as (H & K). apply andb_true_iff in H as (H & E). apply andb_true_iff in H as (H & L).
  apply andb_true_iff in H as (V & S). apply eqb_prop in S. subst s'. split; [split; [exact V|reflexivity]|].
  exists m, e. split; [reflexivity|]. apply Z.leb_le in L, K, E. apply IZR_le in L. rewrite mult_IZR in L.
  rewrite !(IZR_Zpower radix2) in L by lia. rewrite !bpow_plus in L.
  assert (0 < bpow radix2 200) by apply bpow_gt_0. apply Rmult_le_reg_r with (bpow radix2 200); [assumption|]. lra.
Qed.

Lemma check_pos : forall k c, num_check false k c = true -> pos_num k c.
Proof.
  intros k c H. destruct (check_val _ _ _ H) as (N & m & e & -> & B). split; [exact N|]. rewrite fval_finite. split; [|exact B].
  apply Rmult_le_pos; [apply IZR_le; lia|apply bpow_ge_0].
Qed.
Lemma check_neg : forall k c, num_check true k c = true -> neg_num k c.
Proof.
  intros k c H. destruct (check_val _ _ _ H) as (N & m & e & -> & B). split; [exact N|]. rewrite fval_finite. cbv iota.
  change (Z.neg m) with (- Z.pos m)%Z. rewrite opp_IZR.
  assert (0 <= IZR (Z.pos m) * bpow radix2 e) by (apply Rmult_le_pos; [apply IZR_le; lia|apply bpow_ge_0]). lra.
Qed.

Lemma pos_mle : forall k c, pos_num k c -> mle k c c.
Proof. intros k c (N & B). apply mle_refl; [exact N|]. rewrite Rabs_pos_eq; lra. Qed.
Lemma neg_mle : forall k c, neg_num k c -> mle k c c.
Proof. intros k c (N & B). apply mle_refl; [exact N|]. apply Rabs_le. lra. Qed.

Lemma mul_size : forall k j a c, Rabs a <= bpow radix2 k -> Rabs c <= bpow radix2 j -> Rabs (a * c) <= bpow radix2 (k + j).
Proof. intros. rewrite Rabs_mult, bpow_plus. apply Rmult_le_compat; auto using Rabs_pos. Qed.

Lemma mle_mul : forall k j a b c, (-100 <= k + j <= 100)%Z -> mle k a b -> pos_num j c -> mle (k + j) (f32_mul a c) (f32_mul b c).
Proof.
  intros k j a b c K (A & B & C & D & E) (N & P).
  assert (AC : Rabs (fval c) <= bpow radix2 j) by (rewrite Rabs_pos_eq; lra).
  pose proof (mul_size _ _ _ _ C AC) as S1. pose proof (mul_size _ _ _ _ D AC) as S2.
  destruct (f32_mul_num a c A N (pow_127 (k + j) ltac:(lia) _ S1)) as (N1 & V1).
  destruct (f32_mul_num b c B N (pow_127 (k + j) ltac:(lia) _ S2)) as (N2 & V2).
  split; [exact N1|split; [exact N2|]]. rewrite V1, V2.
  split; [apply rnd_bound; [lia|lia|exact S1]|split; [apply rnd_bound; [lia|lia|exact S2]|]]. apply rnd_mono. nra.
Qed.

Lemma mle_mul_neg : forall k j a b c, (-100 <= k + j <= 100)%Z -> mle k b a -> neg_num j c -> mle (k + j) (f32_mul a c) (f32_mul b c).
Proof.
  intros k j a b c K (A & B & C & D & E) (N & P).
  assert (AC : Rabs (fval c) <= bpow radix2 j) by (apply Rabs_le; lra).
  pose proof (mul_size _ _ _ _ C AC) as S1. pose proof (mul_size _ _ _ _ D AC) as S2.
  destruct (f32_mul_num b c A N (pow_127 (k + j) ltac:(lia) _ S1)) as (N1 & V1).
  destruct (f32_mul_num a c B N (pow_127 (k + j) ltac:(lia) _ S2)) as (N2 & V2).
  split; [exact N2|split; [exact N1|]]. rewrite V1, V2.
  split; [apply rnd_bound; [lia|lia|exact S2]|split; [apply rnd_bound; [lia|lia|exact S1]|]]. apply rnd_mono. nra.
Qed.

Lemma mle_sub : forall k a b c, (-100 <= k <= 100)%Z -> mle k a b -> mle k c c -> mle (k + 1) (f32_sub a c) (f32_sub b c).
Proof.
  intros k a b c K (A & B & C & D & E) (N & _ & P & _).
  assert (Q : bpow radix2 (k + 1) = bpow radix2 k + bpow radix2 k) by (rewrite bpow_plus; cbn; lra).
  assert (S1 : Rabs (fval a - fval c) <= bpow radix2 (k + 1))
    by (apply Rabs_le_inv in C, P; apply Rabs_le; lra).
  assert (S2 : Rabs (fval b - fval c) <= bpow radix2 (k + 1))
    by (apply Rabs_le_inv in D, P; apply Rabs_le; lra).
  destruct (f32_sub_num a c A N (pow_127 (k + 1) ltac:(lia) _ S1)) as (N1 & V1).
  destruct (f32_sub_num b c B N (pow_127 (k + 1) ltac:(lia) _ S2)) as (N2 & V2).
  split; [exact N1|split; [exact N2|]]. rewrite V1, V2.
  split; [apply rnd_bound; [lia|lia|exact S1]|split; [apply rnd_bound; [lia|lia|exact S2]|]]. apply rnd_mono. lra.
Qed.

(** Division by a number that is at least 1 *)
Lemma mle_div : forall k a b c, (-100 <= k <= 100)%Z -> mle k a b -> is_num c -> 1 <= fval c -> mle k (f32_div a c) (f32_div b c).
Proof.
  intros k a b c K (A & B & C & D & E) N P.
  assert (I : 0 < / fval c <= 1) by (split; [apply Rinv_0_lt_compat; lra|rewrite <- Rinv_1; apply Rinv_le_contravar; lra]).
  assert (S : forall x, Rabs x <= bpow radix2 k -> Rabs (x / fval c) <= bpow radix2 k).
  { intros x X. unfold Rdiv. rewrite Rabs_mult. rewrite (Rabs_pos_eq (/ fval c)) by lra. pose proof (Rabs_pos x). nra. }
  pose proof (S _ C) as S1. pose proof (S _ D) as S2.
  destruct (f32_div_num a c A N ltac:(lra) (pow_127 k ltac:(lia) _ S1)) as (N1 & V1).
  destruct (f32_div_num b c B N ltac:(lra) (pow_127 k ltac:(lia) _ S2)) as (N2 & V2).
  split; [exact N1|split; [exact N2|]]. rewrite V1, V2.
  split; [apply rnd_bound; [lia|lia|exact S1]|split; [apply rnd_bound; [lia|lia|exact S2]|]]. apply rnd_mono.
  unfold Rdiv. apply Rmult_le_compat_r; lra.
Qed.

(** Closed constants *)
Ltac cpos := apply check_pos; clear; vm_compute; reflexivity.
Ltac cneg := apply check_neg; clear; vm_compute; reflexivity.

(** * The formulas *)

Definition matrix_space (s : color_space) : Prop := is_ictcp s = false.

Lemma mono_dot : forall k x y z x' y' z' a b c, (-50 <= k <= 50)%Z ->
  mle k (f32_mul x a) (f32_mul x' a) -> mle k (f32_mul y b) (f32_mul y' b) -> mle k (f32_mul z c) (f32_mul z' c) ->
  mle (k + 2) (dot a b c x y z) (dot a b c x' y' z').
Proof.
  intros k x y z x' y' z' a b c K X Y Z. unfold dot. cbn [fadd fmul f32_ops].
  replace (k + 2)%Z with (k + 1 + 1)%Z by lia. apply mle_add; [lia|apply mle_add; [lia|assumption|assumption]|].
  eapply mle_weaken; [exact Z|lia].
Qed.

Definition mono3 (k : Z) (ur ug ub : bool) (c c' : f32 * f32 * f32) : Prop :=
  let m (up : bool) x y := if up then mle k x y else mle k y x in
  m ur (fst3 c) (fst3 c') /\ m ug (snd3 c) (snd3 c') /\ m ub (thd3 c) (thd3 c').

Ltac mul_up := match goal with |- mle ?K _ _ => replace K with (K + 0)%Z by lia end; apply mle_mul; [lia|assumption|cpos].
Ltac mul_down := match goal with |- mle ?K _ _ => replace K with (K + 0)%Z by lia end; apply mle_mul_neg; [lia|assumption|cneg].

(** Y grows with red, green and blue; U with blue, and falls with red and green; V
    with red, and falls with green and blue *)
Lemma mono_luma : forall L s t p k c c', matrix_space s -> (-40 <= k <= 40)%Z -> mono3 k true true true c c' ->
  mle (k + 2) (fst3 (rgb_yuv L s t p c)) (fst3 (rgb_yuv L s t p c')).
Proof.
  intros L s t p k ((r, g), b) ((r', g'), b') S K (R & G & B). unfold fst3, snd3, thd3 in *. cbn [fst snd] in *.
  destruct s; try discriminate S; cbn [rgb_yuv luma_weights weights_to_yuv fst snd]; apply mono_dot; try lia; mul_up.
Qed.

Lemma mono_u : forall L s t p k c c', matrix_space s -> (-40 <= k <= 40)%Z -> mono3 k false false true c c' ->
  mle (k + 2) (snd3 (rgb_yuv L s t p c)) (snd3 (rgb_yuv L s t p c')).
Proof.
  intros L s t p k ((r, g), b) ((r', g'), b') S K (R & G & B). unfold fst3, snd3, thd3 in *. cbn [fst snd] in *.
  destruct s; try discriminate S; cbn [rgb_yuv luma_weights weights_to_yuv fst snd]; apply mono_dot; try lia; first [mul_up|mul_down].
Qed.

Lemma mono_v : forall L s t p k c c', matrix_space s -> (-40 <= k <= 40)%Z -> mono3 k true false false c c' ->
  mle (k + 2) (thd3 (rgb_yuv L s t p c)) (thd3 (rgb_yuv L s t p c')).
Proof.
  intros L s t p k ((r, g), b) ((r', g'), b') S K (R & G & B). unfold fst3, snd3, thd3 in *. cbn [fst snd] in *.
  destruct s; try discriminate S; cbn [rgb_yuv luma_weights weights_to_yuv fst snd]; apply mono_dot; try lia; first [mul_up|mul_down].
Qed.

(** Mean of four colors *)
Lemma mono_mean4 : forall k ur ug ub a b c d a' b' c' d', (-40 <= k <= 40)%Z ->
  mono3 k ur ug ub a a' -> mono3 k ur ug ub b b' -> mono3 k ur ug ub c c' -> mono3 k ur ug ub d d' ->
  mono3 (k + 2) ur ug ub (mean4 a b c d) (mean4 a' b' c' d').
Proof.
  intros k ur ug ub a b c d a' b' c' d' K A B C D.
  assert (M : forall x y z w x' y' z' w', mle k x x' -> mle k y y' -> mle k z z' -> mle k w w' ->
    mle (k + 2) (f32_mul (f32_add (f32_add x y) (f32_add z w)) (flit 25 2)) (f32_mul (f32_add (f32_add x' y') (f32_add z' w')) (flit 25 2))).
  { intros. replace (k + 2)%Z with ((k + 1 + 1) + 0)%Z by lia. apply mle_mul; [lia| |cpos].
    apply mle_add; [lia|apply mle_add; [lia|assumption|assumption]|apply mle_add; [lia|assumption|assumption]]. }
  destruct A as (A1 & A2 & A3), B as (B1 & B2 & B3), C as (C1 & C2 & C3), D as (D1 & D2 & D3).
  unfold mono3, mean4. cbn [fmul fadd f32_ops]. unfold fst3, snd3, thd3 in *. cbn [fst snd].
  split; [|split]; [destruct ur|destruct ug|destruct ub]; apply M; assumption.
Qed.

(** Ranges *)
Lemma mono_encode_y : forall i k y y', (0 <= k <= 40)%Z -> mle k y y' -> mle (k + 1) (encode_y i y) (encode_y i y').
Proof.
  intros i k y y' K Y. unfold encode_y, compress_y. destruct (yc_full_range i); [eapply mle_weaken; [exact Y|lia]|].
  cbn [fadd fmul fdiv f32_ops]. apply mle_add; [lia| |].
  - eapply mle_weaken; [apply pos_mle; instantiate (1 := 0%Z); cpos|lia].
  - replace k with (k + 0)%Z by lia. apply mle_mul; [lia|exact Y|cpos].
Qed.

Lemma mono_encode_c : forall i k u u', (0 <= k <= 40)%Z -> mle k u u' -> mle (k + 2) (encode_c i u) (encode_c i u').
Proof.
  intros i k u u' K U. unfold encode_c, compress_c. cbn [fadd fmul fdiv f32_ops].
  assert (A : mle (k + 1) (f32_add u (flit 5 1)) (f32_add u' (flit 5 1))).
  { apply mle_add; [lia|exact U|]. eapply mle_weaken; [apply pos_mle; instantiate (1 := 0%Z); cpos|lia]. }
  destruct (yc_full_range i); [eapply mle_weaken; [exact A|lia]|].
  replace (k + 2)%Z with (k + 1 + 1)%Z by lia. apply mle_add; [lia| |].
  - eapply mle_weaken; [apply pos_mle; instantiate (1 := 0%Z); cpos|lia].
  - replace (k + 1)%Z with (k + 1 + 0)%Z by lia. apply mle_mul; [lia|exact A|cpos].
Qed.

Lemma mono_expand : forall k (full : bool) d y y', (0 <= k <= 40)%Z -> mle k y y' ->
  pos_num 1 d ->
  mle (k + 2) (if full then y else f32_mul (f32_sub y (f32_div (flit 16 0) (flit 255 0))) d)
    (if full then y' else f32_mul (f32_sub y' (f32_div (flit 16 0) (flit 255 0))) d).
Proof.
  intros k full d y y' K Y D. destruct full; [eapply mle_weaken; [exact Y|lia]|].
  replace (k + 2)%Z with (k + 1 + 1)%Z by lia. apply mle_mul; [lia| |exact D]. apply mle_sub; [lia|exact Y|].
  eapply mle_weaken; [apply pos_mle; instantiate (1 := 0%Z); cpos|lia].
Qed.

(** Decoding: red grows with Y and V, green with Y and falls with U and V, blue
    grows with Y and U *)
Lemma mono_decode : forall L i k y u v y' u' v', matrix_space (yc_space i) -> (0 <= k <= 20)%Z -> mle k y y' ->
  (mle k v v' -> mle (k + 5) (fst3 (decode_yuv L i y u v)) (fst3 (decode_yuv L i y' u' v'))) /\
  (mle k u' u -> mle k v' v -> mle (k + 7) (snd3 (decode_yuv L i y u v)) (snd3 (decode_yuv L i y' u' v'))) /\
  (mle k u u' -> mle (k + 5) (thd3 (decode_yuv L i y u v)) (thd3 (decode_yuv L i y' u' v'))).
Proof.
  intros L i k y u v y' u' v' S K Y. unfold decode_yuv.
  assert (EY : mle (k + 2) (expand_y (yc_full_range i) y) (expand_y (yc_full_range i) y')).
  { unfold expand_y. cbn [fmul fsub fdiv f32_ops]. apply mono_expand; [lia|exact Y|cpos]. }
  assert (EC : forall u u', mle k u u' -> mle (k + 3) (f32_sub (expand_c (yc_full_range i) u) (flit 5 1)) (f32_sub (expand_c (yc_full_range i) u') (flit 5 1))).
  { intros w w' W. cbn [fsub f32_ops]. replace (k + 3)%Z with (k + 2 + 1)%Z by lia. apply mle_sub; [lia| |].
    - unfold expand_c. cbn [fmul fsub fdiv f32_ops]. apply mono_expand; [lia|exact W|cpos].
    - eapply mle_weaken; [apply pos_mle; instantiate (1 := 0%Z); cpos|lia]. }
  set (Y1 := expand_y _ y) in *. set (Y2 := expand_y _ y') in *.
  assert (UP : forall c w w', pos_num 1 c -> mle (k + 3) w w' -> mle (k + 5) (f32_add Y1 (f32_mul w c)) (f32_add Y2 (f32_mul w' c))).
  { intros c w w' C W. replace (k + 5)%Z with (k + 4 + 1)%Z by lia. apply mle_add; [lia|eapply mle_weaken; [exact EY|lia]|].
    replace (k + 4)%Z with (k + 3 + 1)%Z by lia. apply mle_mul; [lia|exact W|exact C]. }
  assert (DN : forall c d w w' z z', neg_num 2 c -> neg_num 2 d -> mle (k + 3) w' w -> mle (k + 3) z' z ->
    mle (k + 7) (f32_add Y1 (f32_add (f32_mul w c) (f32_mul z d))) (f32_add Y2 (f32_add (f32_mul w' c) (f32_mul z' d)))).
  { intros c d w w' z z' C D W Z. replace (k + 7)%Z with (k + 6 + 1)%Z by lia. apply mle_add; [lia|eapply mle_weaken; [exact EY|lia]|].
    replace (k + 6)%Z with (k + 5 + 1)%Z by lia.
    apply mle_add; [lia| |]; replace (k + 5)%Z with (k + 3 + 2)%Z by lia; (apply mle_mul_neg; [lia|assumption|assumption]). }
  unfold fst3, snd3, thd3.
  split; [|split]; intros; destruct (yc_space i); try discriminate S; cbn [yuv_rgb luma_weights weights_to_rgb fst snd fadd fmul f32_ops];
    first [apply UP; [cpos|apply EC; assumption] | apply DN; [cneg|cneg|apply EC; assumption|apply EC; assumption]].
Qed.

(** * Storing *)

Lemma trunc_le : forall hi x x' z z', (0 <= hi)%Z -> is_num x -> is_num x' -> fval x <= fval x' ->
  is_trunc_sat hi x z -> is_trunc_sat hi x' z' -> (z <= z')%Z.
Proof.
  intros hi x x' z z' H N N' L T T'.
  pose proof (trunc_sat_val hi x z N H T) as (A1 & A2). pose proof (trunc_sat_val hi x' z' N' H T') as (B1 & B2).
  assert (C : clamp (IZR hi) (fval x) <= clamp (IZR hi) (fval x')).
  { unfold clamp. apply Rle_max_compat_l. apply Rle_min_compat_l. exact L. }
  assert (IZR z < IZR z' + 1) by lra. rewrite <- plus_IZR in H0. apply lt_IZR in H0. lia.
Qed.

Definition rne_of (x : f32) (r : Z) : Prop :=
  Rabs (IZR r - fval x) <= 1 / 2 /\ (Rabs (IZR r - fval x) = 1 / 2 -> Z.even r = true).

Lemma round_sat_rne : forall hi x z, (0 <= hi)%Z -> is_num x -> is_round_sat hi x z -> exists r, rne_of x r /\ z = Z.max 0 (Z.min hi r).
Proof.
  intros hi x z H N R. destruct x as [s| | |s m e]; try (destruct N as (_ & N); discriminate N).
  - cbn in R. exists 0%Z. split; [|lia]. unfold rne_of. change (fval (S754_zero s)) with 0. rewrite Rminus_0_r, Rabs_R0. split; [lra|reflexivity].
  - cbn [is_round_sat] in R. destruct (num_den s m e) as (n, d) eqn:ND. destruct (num_den_val _ _ _ _ _ ND) as (D & E).
    destruct R as (r & R1 & R2 & R3). exists r. split; [|exact R3].
    set (v := fval (S754_finite s m e)) in *. assert (D' : 0 < IZR d) by (apply IZR_lt; exact D).
    assert (A : IZR (Z.abs (r * d - n)) = Rabs (IZR r - v) * IZR d).
    { rewrite abs_IZR, minus_IZR, mult_IZR, <- E. rewrite <- (Rabs_pos_eq (IZR d)) at 3 by lra. rewrite <- Rabs_mult. f_equal. ring. }
    split.
    + apply IZR_le in R1. rewrite mult_IZR, A in R1. fold v. apply Rmult_le_reg_r with (IZR d); [exact D'|]. lra.
    + intros Q. fold v in Q. apply R2. apply eq_IZR. rewrite mult_IZR, A, Q. field.
Qed.

Lemma round_le : forall hi x x' z z', (0 <= hi)%Z -> is_num x -> is_num x' -> fval x <= fval x' ->
  is_round_sat hi x z -> is_round_sat hi x' z' -> (z <= z')%Z.
Proof.
  intros hi x x' z z' H N N' L R R'.
  destruct (round_sat_rne _ _ _ H N R) as (r & (A1 & A2) & ->). destruct (round_sat_rne _ _ _ H N' R') as (r' & (B1 & B2) & ->).
  enough (r <= r')%Z by lia. destruct (Z_le_gt_dec r r') as [|G]; [assumption|exfalso].
  assert (GE : IZR r' + 1 <= IZR r) by (rewrite <- plus_IZR; apply IZR_le; lia).
  pose proof (Rabs_le_inv _ _ A1). pose proof (Rabs_le_inv _ _ B1).
  assert (Q1 : IZR r - fval x = 1 / 2) by lra. assert (Q2 : IZR r' - fval x' = - (1 / 2)) by lra.
  assert (Q3 : IZR r = IZR r' + 1) by lra. rewrite <- plus_IZR in Q3. apply eq_IZR in Q3.
  rewrite Q1 in A2. rewrite Q2 in B2. rewrite Rabs_Ropp in B2. rewrite Rabs_pos_eq in A2, B2 by lra.
  specialize (A2 eq_refl). specialize (B2 eq_refl). subst r. rewrite Z.even_add, B2 in A2. discriminate A2.
Qed.

Definition storable (cb : backend) (f : pixel_format) (v : f32) : Prop :=
  sampling_of f = SRGB \/ cb <> AVX512 \/ - (1 / 2) < fval (f32_mul v (f32_of_Z (max_level f))) < IZR (top f) + 1 / 2.

(** The scaled value fits in 16 bits *)
Definition fits (f : pixel_format) (v : f32) : Prop := Rabs (fval (f32_mul v (f32_of_Z (max_level f)))) < 32767.

Lemma scale_mono : forall f k v v', (-50 <= k <= 50)%Z -> mle k v v' ->
  mle (k + 12) (f32_mul v (f32_of_Z (max_level f))) (f32_mul v' (f32_of_Z (max_level f))).
Proof.
  intros f k v v' K M. destruct (f32_of_Z_num (max_level f) ltac:(destruct f; cbn; lia)) as (NM & VM).
  apply mle_mul; [lia|exact M|]. split; [exact NM|]. rewrite VM. destruct f; cbn; lra.
Qed.

(** Storing keeps the order *)
Lemma quantise_le : forall cb f v v' k, (-50 <= k <= 50)%Z -> mle k v v' -> fits f v -> fits f v' ->
  storable cb f v -> storable cb f v' ->
  (quantise (quant_of cb) f v <= quantise (quant_of cb) f v')%Z.
Proof.
  intros cb f v v' k K M B B' S S'. unfold fits in B, B'.
  destruct (scale_mono f k v v' K M) as (N & N' & _ & _ & L).
  set (x := f32_mul v (f32_of_Z (max_level f))) in *. set (x' := f32_mul v' (f32_of_Z (max_level f))) in *.
  assert (H : (0 <= top f)%Z) by (destruct f; discriminate).
  destruct (C18_rounding f v cb) as (T & A2 & A5). fold x in T, A2, A5. fold (top f) in T, A2, A5.
  destruct (C18_rounding f v' cb) as (T' & A2' & A5'). fold x' in T', A2', A5'. fold (top f) in T', A2', A5'.
  assert (AB : f32_abs_below 32767 x) by (apply abs_below_val; assumption).
  assert (AB' : f32_abs_below 32767 x') by (apply abs_below_val; assumption).
  destruct cb.
  - apply (trunc_le (top f) x x'); auto.
  - apply (round_le (top f) x x'); auto.
  - unfold storable in S, S'.
    assert (RS : forall w z, (sampling_of f = SRGB \/ AVX512 <> AVX512 \/ - (1 / 2) < fval (f32_mul w (f32_of_Z (max_level f))) < IZR (top f) + 1 / 2) ->
      is_num (f32_mul w (f32_of_Z (max_level f))) -> f32_abs_below 32767 (f32_mul w (f32_of_Z (max_level f))) -> z = quantise (quant_of AVX512) f w ->
      is_round_sat (top f) (f32_mul w (f32_of_Z (max_level f))) z).
    { intros w z SS NW AW ->. destruct (sampling_of f) eqn:SF.
      4: { unfold top in *. destruct f; try discriminate SF; cbn [sample_bytes Nat.eqb] in *;
        cbn [quantise quant_of avx512_quant q_u8i]; apply avx2_u8_round, AW. }
      all: (destruct SS as [SS|[SS|SS]]; [discriminate SS|congruence|]);
        (destruct (C18_rounding f w AVX512) as (_ & _ & A5w); apply A5w; [reflexivity|]; apply in_range_val; assumption). }
    eapply round_le; [exact H|exact N|exact N'|exact L|exact (RS v _ S N AB eq_refl)|exact (RS v' _ S' N' AB' eq_refl)].
  - apply (trunc_le (top f) x x'); auto.
Qed.

(** * Values between the extremes *)

Lemma const_val : forall x s m e v, x = S754_finite s m e -> SpecFloat.bounded 24 128 m e = true ->
  IZR (if s then Z.neg m else Z.pos m) * bpow radix2 e = v -> is_num x /\ fval x = v.
Proof. intros x s m e v -> B H. split; [split; [exact B|reflexivity]|]. rewrite fval_finite. exact H. Qed.

Ltac const_eq := clear; eapply const_val; [vm_compute; reflexivity|vm_compute; reflexivity|cbn; lra].

(** The scaled values from [lo] to [hi] are storable and fit in 16 bits *)
Definition scaled_in (f : pixel_format) (a b lo hi : f32) : bool :=
  let s v := f32_mul v (f32_of_Z (max_level f)) in f32_lt a (s lo) && f32_lt (s hi) b.

Lemma scaled_between : forall f a b lo hi v k, (-50 <= k <= 50)%Z -> is_num a -> is_num b -> scaled_in f a b lo hi = true ->
  mle k lo v -> mle k v hi -> fval a < fval (f32_mul v (f32_of_Z (max_level f))) < fval b.
Proof.
  intros f a b lo hi v k K NA NB S L H. unfold scaled_in in S. apply andb_true_iff in S as (S1 & S2).
  destruct (scale_mono f k lo v K L) as (N1 & N2 & _ & _ & L1). destruct (scale_mono f k v hi K H) as (_ & N3 & _ & _ & L2).
  rewrite f32_lt_num in S1, S2 by assumption.
  destruct (Rlt_bool_spec (fval a) (fval (f32_mul lo (f32_of_Z (max_level f))))); try discriminate S1.
  destruct (Rlt_bool_spec (fval (f32_mul hi (f32_of_Z (max_level f)))) (fval b)); try discriminate S2. lra.
Qed.

Definition minus_half : f32 := flit (-5) 1.
Definition over_top (f : pixel_format) : f32 := f32_add (f32_of_Z (top f)) (flit 5 1).

Lemma in_range_storable : forall cb f lo hi v k, (-50 <= k <= 50)%Z -> scaled_in f minus_half (over_top f) lo hi = true ->
  mle k lo v -> mle k v hi -> storable cb f v.
Proof.
  intros cb f lo hi v k K S L H. right; right.
  assert (A : is_num minus_half /\ fval minus_half = - (1 / 2)) by const_eq.
  assert (B : is_num (over_top f) /\ fval (over_top f) = IZR (top f) + 1 / 2).
  { assert (T : top f = 255%Z \/ top f = 65535%Z) by (destruct f; auto). unfold over_top. destruct T as [-> | ->]; const_eq. }
  destruct A as (NA & VA), B as (NB & VB). pose proof (scaled_between f _ _ lo hi v k K NA NB S L H) as R. rewrite VA, VB in R. exact R.
Qed.

Lemma in_range_fits : forall f lo hi v k, (-50 <= k <= 50)%Z -> scaled_in f (f32_of_Z (-32767)) (f32_of_Z 32767) lo hi = true ->
  mle k lo v -> mle k v hi -> fits f v.
Proof.
  intros f lo hi v k K S L H. destruct (f32_of_Z_num (-32767) ltac:(lia)) as (NA & VA). destruct (f32_of_Z_num 32767 ltac:(lia)) as (NB & VB).
  pose proof (scaled_between f _ _ lo hi v k K NA NB S L H) as R. rewrite VA, VB in R. apply Rabs_def1; lra.
Qed.

(** * The stored value *)

(** Direction in which Y, U and V depend on red, green and blue *)
Definition dir (c : comp) : bool * bool * bool :=
  match c with CU => (false, false, true) | CV => (true, false, false) | _ => (true, true, true) end.

Lemma mono_target : forall L f i pix pix' c x y k, matrix_space (yc_space i) -> sampling_of f <> SRGB -> In c [CY; CU; CV] ->
  (0 <= k <= 20)%Z ->
  (forall p, In p (match c with CY => [(x, y)] | _ => chroma_block (sampling_of f) x y end) ->
     let '(ur, ug, ub) := dir c in mono3 k ur ug ub (fst (pix (fst p) (snd p))) (fst (pix' (fst p) (snd p)))) ->
  mle (k + 6) (target L f (CYUV i) pix c x y) (target L f (CYUV i) pix' c x y).
Proof.
  intros L f i pix pix' c x y k S SF HC K P.
  assert (TWO : is_num (flit 2 0 : f32) /\ fval (flit 2 0 : f32) = 2) by const_eq. destruct TWO as (N2 & V2).
  assert (CH : forall ur ug ub (sel : f32 * f32 * f32 -> f32) (Q : forall c c' k, (-40 <= k <= 40)%Z -> mono3 k ur ug ub c c' ->
      mle (k + 2) (sel (rgb_yuv L (yc_space i) (yc_transfer i) (yc_primaries i) c)) (sel (rgb_yuv L (yc_space i) (yc_transfer i) (yc_primaries i) c'))),
    (forall p, In p (chroma_block (sampling_of f) x y) -> mono3 k ur ug ub (fst (pix (fst p) (snd p))) (fst (pix' (fst p) (snd p)))) ->
    let rgb (pix : nat -> nat -> pixel) x y := fst (pix x y) in
    let x0 := (2 * (x / 2))%nat in
    let y0 := (2 * (y / 2))%nat in
    let ch (pix : nat -> nat -> pixel) := encode_c i match sampling_of f with
        | S420 => sel (rgb_yuv L (yc_space i) (yc_transfer i) (yc_primaries i)
            (mean4 (rgb pix x0 y0) (rgb pix x0 (y0 + 1)%nat) (rgb pix (x0 + 1)%nat y0) (rgb pix (x0 + 1)%nat (y0 + 1)%nat)))
        | S422 => fdiv (fadd (sel (rgb_yuv L (yc_space i) (yc_transfer i) (yc_primaries i) (rgb pix x0 y)))
                             (sel (rgb_yuv L (yc_space i) (yc_transfer i) (yc_primaries i) (rgb pix (x0 + 1)%nat y)))) (flit 2 0)
        | _ => sel (rgb_yuv L (yc_space i) (yc_transfer i) (yc_primaries i) (rgb pix x y))
        end in
    mle (k + 6) (ch pix) (ch pix')).
  { intros ur ug ub sel Q H rgb x0 y0 ch. replace (k + 6)%Z with (k + 4 + 2)%Z by lia. unfold ch. apply mono_encode_c; [lia|].
    unfold chroma_block in H. fold x0 y0 in H. rewrite !Nat.add_1_r. unfold rgb.
    destruct (sampling_of f); cbn [In] in H.
    - replace (k + 4)%Z with (k + 2 + 2)%Z by lia. apply Q; [lia|]. apply mono_mean4; [lia| | | |].
      + apply (H (x0, y0)). auto.
      + apply (H (x0, Datatypes.S y0)). auto.
      + apply (H (Datatypes.S x0, y0)). auto.
      + apply (H (Datatypes.S x0, Datatypes.S y0)). auto.
    - cbn [fdiv fadd f32_ops]. apply mle_weaken with (k + 2 + 1)%Z; [|lia].
      apply mle_div; [lia| |exact N2|rewrite V2; lra]. apply mle_add; [lia| |]; (apply Q; [lia|]).
      + apply (H (x0, y)). auto.
      + apply (H (Datatypes.S x0, y)). auto.
    - apply mle_weaken with (k + 2)%Z; [|lia]. apply Q; [lia|]. apply (H (x, y)). auto.
    - congruence. }
  cbn [In] in HC. destruct HC as [<- |[<- |[<- |[]]]]; cbn [dir] in P.
  - specialize (P (x, y) (or_introl eq_refl)). cbn [fst snd] in P.
    assert (E : forall pix, target L f (CYUV i) pix CY x y
       = encode_y i (fst3 (rgb_yuv L (yc_space i) (yc_transfer i) (yc_primaries i) (fst (pix x y))))).
    { intros q. unfold target. destruct (sampling_of f); try reflexivity. congruence. }
    rewrite !E. apply mle_weaken with (k + 2 + 1)%Z; [|lia]. apply mono_encode_y; [lia|]. apply mono_luma; [exact S|lia|exact P].
  - pose proof (CH false false true snd3 (fun c c' k K H => mono_u L _ _ _ k c c' S K H) P) as X.
    unfold target. destruct (sampling_of f); try exact X. congruence.
  - pose proof (CH true false false thd3 (fun c c' k K H => mono_v L _ _ _ k c c' S K H) P) as X.
    unfold target. destruct (sampling_of f); try exact X. congruence.
Qed.

(** A sample as a number in 0 .. 1 *)
Definition norm_z (M z : Z) : f32 := f32_div (f32_of_Z z) (f32_of_Z M).

Lemma norm_mono : forall M z z', (1 <= M <= 4095)%Z -> (0 <= z <= z')%Z -> (z' <= M)%Z -> mle 0 (norm_z M z) (norm_z M z').
Proof.
  intros M z z' HM Z0 Z1.
  destruct (f32_of_Z_num M ltac:(lia)) as (NM & VM). destruct (f32_of_Z_num z ltac:(lia)) as (N0 & V0). destruct (f32_of_Z_num z' ltac:(lia)) as (N1 & V1).
  assert (H1 : 1 <= IZR M) by (apply IZR_le; lia).
  assert (B : forall w, (0 <= w <= M)%Z -> 0 <= IZR w / IZR M <= 1) by (intros; apply level_unit; lia).
  assert (S : forall w, is_num (f32_of_Z w) -> fval (f32_of_Z w) = IZR w -> (0 <= w <= M)%Z ->
     is_num (norm_z M w) /\ fval (norm_z M w) = rnd (IZR w / IZR M)).
  { intros w NW VW HW. destruct (f32_div_num (f32_of_Z w) (f32_of_Z M) NW NM) as (A & E).
    - rewrite VM. lra.
    - rewrite VW, VM. pose proof (B w HW). rewrite Rabs_pos_eq by lra. change (bpow radix2 127) with (IZR (2 ^ 127)). lra.
    - rewrite VW, VM in E. split; assumption. }
  destruct (S z N0 V0 ltac:(lia)) as (A0 & E0). destruct (S z' N1 V1 ltac:(lia)) as (A1 & E1).
  split; [exact A0|split; [exact A1|]]. rewrite E0, E1.
  split; [apply rnd_bound; [lia|lia|]|split; [apply rnd_bound; [lia|lia|]|apply rnd_mono]].
  - pose proof (B z ltac:(lia)). rewrite Rabs_pos_eq by lra. cbn. lra.
  - pose proof (B z' ltac:(lia)). rewrite Rabs_pos_eq by lra. cbn. lra.
  - unfold Rdiv. apply Rmult_le_compat_r; [left; apply Rinv_0_lt_compat; lra|]. apply IZR_le; lia.
Qed.
