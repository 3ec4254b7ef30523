(** C57, C58: ICtCp over exact arithmetic. *)

From Coq Require Import List ZArith Bool Reals Lia Lra Psatz.
From Flocq Require Import Core.
From Verif Require Import Types F32 Vector Color ColorR SpecTransfer SpecIctcp PowerProofs PropExact PropTransfer IctcpProofs.
Local Open Scope R_scope.

Definition is_bt2100 (s : color_space) : Prop := s = SpICtCpPQ \/ s = SpICtCpHLG.

(** * The code in three steps *)

Definition cones (p : color_primaries) (r g b : R) : R * R * R :=
  let '(x, y, z) := rgb_to_xyz (F := R) (V := R) (M := bool) (rgb_to_xyz_mat p) r g b in xyz_to_lms x y z.
Definition uncones (p : color_primaries) (l m s : R) : R * R * R :=
  let '(x, y, z) := lms_to_xyz (F := R) (V := R) (M := bool) l m s in xyz_to_rgb (xyz_to_rgb_mat p) x y z.
Definition curve_of (s : color_space) : color_transfer := match s with SpICtCpPQ => TBT2100PQ | _ => TBT2100HLG end.

Ltac run_matrix :=
  cbv [rgb_to_xyz xyz_to_rgb xyz_to_lms lms_to_xyz rgb_to_xyz_mat xyz_to_rgb_mat mk_mat nth
       BT709_RGB_TO_XYZ BT2020_RGB_TO_XYZ ST240_RGB_TO_XYZ BT709_XYZ_TO_RGB BT2020_XYZ_TO_RGB ST240_XYZ_TO_RGB
       vadd vsub vmul vdiv splat vmulf vdivf R_vops lane_vops fadd fsub fmul fdiv fneg flit R_ops lit_half]; PropExact.lits.

Lemma to_yuv_steps : forall s t p r g b, is_bt2100 s ->
  let '(l, m, s') := cones p (decode t r) (decode t g) (decode t b) in
  within3 (1 / 10000000 * (Rabs (encode (curve_of s) l) + Rabs (encode (curve_of s) m) + Rabs (encode (curve_of s) s')))
    (to_yuv s t p r g b) (ictcp_matrix s (encode (curve_of s) l) (encode (curve_of s) m) (encode (curve_of s) s')).
Proof.
  intros s t p r g b [-> | ->];
    unfold to_yuv, rgb_to_yuv, pq_rgb_to_yuv, hlg_rgb_to_yuv, cones, curve_of, ictcp_matrix;
    change (scaled_to_linear (F := R) (V := R) (M := bool) t) with (decode t);
    destruct (rgb_to_xyz (rgb_to_xyz_mat p) (decode t r) (decode t g) (decode t b)) as [[x y] z];
    destruct (xyz_to_lms x y z) as [[l m] n].
  - change (pq_linear_to_scaled (F := R) (V := R) (M := bool)) with (encode TBT2100PQ).
    set (l' := encode TBT2100PQ l); set (m' := encode TBT2100PQ m); set (n' := encode TBT2100PQ n); clearbody l' m' n'.
    run_matrix. unfold ictcp_pq, within3. pose proof (Rabs_pos l'). pose proof (Rabs_pos m'). pose proof (Rabs_pos n').
    repeat split; (match goal with |- Rabs ?e <= _ => replace e with 0 by field end); rewrite Rabs_R0; lra.
  - change (hlg_linear_to_scaled (F := R) (V := R) (M := bool)) with (encode TBT2100HLG).
    set (l' := encode TBT2100HLG l); set (m' := encode TBT2100HLG m); set (n' := encode TBT2100HLG n); clearbody l' m' n'.
    run_matrix. unfold ictcp_hlg, within3. unfold Rabs at 2 3 4 6 7 8 10 11 12. 
    repeat split; apply Rabs_le; destruct (Rcase_abs l'), (Rcase_abs m'), (Rcase_abs n'); lra.
Qed.

Lemma cones_standard : forall r g b top, 0 <= r <= top -> 0 <= g <= top -> 0 <= b <= top ->
  let '(l, m, s) := cones PrBT2020 r g b in
  Rabs (l - bt2100_l r g b) <= top / 15000 /\ Rabs (m - bt2100_m r g b) <= top / 15000 /\ Rabs (s - bt2100_s r g b) <= top / 15000.
Proof.
  intros r g b top HR HG HB. unfold cones. run_matrix. unfold bt2100_l, bt2100_m, bt2100_s.
  repeat split; apply Rabs_le; lra.
Qed.

Lemma cones_range : forall p r g b top, 0 <= r <= top -> 0 <= g <= top -> 0 <= b <= top ->
  let '(l, m, s) := cones p r g b in
  0 <= l <= top * (1 + 4 / 100000) /\ 0 <= m <= top * (1 + 4 / 100000) /\ 0 <= s <= top.
Proof. intros p r g b top HR HG HB. unfold cones. destruct p; run_matrix; repeat split; lra. Qed.

Lemma cones_gray : forall p x, 0 <= x ->
  let '(l, m, s) := cones p x x x in
  s <= x <= l /\ l <= m /\ m <= s * (1 + 9 / 100000).
Proof. intros p x X. unfold cones. destruct p; run_matrix; repeat split; lra. Qed.

Lemma cones_back : forall p r g b l' m' s' top e, 0 <= r <= top -> 0 <= g <= top -> 0 <= b <= top ->
  let '(l, m, s) := cones p r g b in
  Rabs (l' - l) <= e -> Rabs (m' - m) <= e -> Rabs (s' - s) <= e ->
  within3 (top / 1000000 + 14 * e) (uncones p l' m' s') (r, g, b).
Proof.
  intros p r g b l' m' s' top e HR HG HB. unfold cones, uncones, within3. destruct p; run_matrix; intros A B C;
    apply Rabs_le_inv in A; apply Rabs_le_inv in B; apply Rabs_le_inv in C; repeat split; apply Rabs_le; lra.
Qed.

(** * C57 *)

Lemma curve_eq : forall s x, is_bt2100 s -> 0 <= x -> encode (curve_of s) x = ictcp_curve s x.
Proof. intros s x [-> | ->] X; [apply encode_pq, X|apply encode_hlg, X]. Qed.

Lemma curve_range : forall s x, is_bt2100 s -> 0 <= x <= ictcp_peak s * (1 + 4 / 100000) -> 0 <= ictcp_curve s x <= 1 + 1 / 25000.
Proof.
  intros s x [-> | ->] X; cbn [ictcp_peak ictcp_curve] in *.
  - split; [apply power_ge0|]. pose proof pq_white as W. destruct (Rle_lt_dec x 10000) as [L|L].
    + assert (pq_encode x <= pq_encode 10000); [|lra]. unfold pq_encode. cbv zeta.
      apply power_le; [unfold m2; lra|]. fold (pq_fraction (power (x / 10000) m1)) (pq_fraction (power (10000 / 10000) m1)).
      split; [left; apply pq_fraction_pos, power_ge0|]. apply pq_fraction_mono. split; [apply power_ge0|]. apply power_le; [unfold m1; lra|lra].
    + pose proof (pq_relative 10000 x (4 / 100000) ltac:(lra) ltac:(lra) ltac:(lra)). lra.
  - pose proof hlg_white as W. split.
    + unfold hlg_encode. destruct (Rle_dec _ _); [apply sqrt_pos|]. pose proof (hlg_high x ltac:(lra)). lra.
    + destruct (Rle_lt_dec x 1) as [L|L].
      * unfold hlg_encode in *. destruct (Rle_dec 1 _) in W; [lra|]. destruct (Rle_dec x (1 / 12)) as [Q|Q].
        -- assert (sqrt (3 * x) <= 1); [|lra]. rewrite <- sqrt_1. apply sqrt_le_1_alt. lra.
        -- destruct (ln_step (12 * x - hb) (12 * 1 - hb) ltac:(unfold hb; lra)) as [A _]. unfold ha in *. lra.
      * pose proof (hlg_relative 1 x (4 / 100000) ltac:(lra) ltac:(lra) ltac:(lra) ltac:(lra)). lra.
Qed.

(** The code follows the Recommendation, with its cone responses computed
    through XYZ: they are the ones of the Recommendation up to 1/15000 of the
    largest channel. *)
Theorem C57_bt2100 : forall s t r g b top, is_bt2100 s -> top <= ictcp_peak s ->
  0 <= decode t r <= top -> 0 <= decode t g <= top -> 0 <= decode t b <= top ->
  exists l m n,
    within3 (top / 15000) (l, m, n)
      (bt2100_l (decode t r) (decode t g) (decode t b), bt2100_m (decode t r) (decode t g) (decode t b), bt2100_s (decode t r) (decode t g) (decode t b)) /\
    0 <= l /\ 0 <= m /\ 0 <= n /\
    within3 (1 / 1000000) (to_yuv s t PrBT2020 r g b) (ictcp_matrix s (ictcp_curve s l) (ictcp_curve s m) (ictcp_curve s n)).
Proof.
  intros s t r g b top S P HR HG HB. pose proof (to_yuv_steps s t PrBT2020 r g b S) as E.
  pose proof (cones_standard _ _ _ top HR HG HB) as C. pose proof (cones_range PrBT2020 _ _ _ top HR HG HB) as G.
  destruct (cones PrBT2020 (decode t r) (decode t g) (decode t b)) as [[l m] n]. exists l, m, n. split; [exact C|].
  destruct G as (G1 & G2 & G3). repeat (split; [lra|]).
  rewrite !curve_eq in E by (auto; lra).
  pose proof (curve_range s l S ltac:(nra)) as R1. pose proof (curve_range s m S ltac:(nra)) as R2. pose proof (curve_range s n S ltac:(nra)) as R3.
  rewrite !Rabs_pos_eq in E by lra. unfold within3 in *.
  destruct (to_yuv s t PrBT2020 r g b) as [[y u] v]. destruct (ictcp_matrix s (ictcp_curve s l) (ictcp_curve s m) (ictcp_curve s n)) as [[y' u'] v'].
  lra.
Qed.
Print Assumptions C57_bt2100.

(** Gray is neutral, in all primaries. *)
Theorem C57_neutral : forall s t p x, is_bt2100 s -> 0 <= decode t x <= ictcp_peak s ->
  within3 (1 / 3000) (to_yuv s t p x x x) (ictcp_curve s (decode t x), 0, 0).
Proof.
  intros s t p x S X. pose proof (to_yuv_steps s t p x x x S) as E. set (z := decode t x) in *.
  pose proof (cones_gray p z ltac:(lra)) as G. pose proof (cones_range p z z z _ X X X) as R.
  destruct (cones p z z z) as [[l m] n]. destruct R as (R1 & R2 & R3).
  rewrite !curve_eq in E by (auto; lra).
  pose proof (curve_range s l S ltac:(lra)) as Q1. pose proof (curve_range s m S ltac:(lra)) as Q2. pose proof (curve_range s n S ltac:(lra)) as Q3.
  rewrite !Rabs_pos_eq in E by lra.
  assert (F : forall a b, n <= a -> a <= b -> b <= m -> ictcp_curve s a - 1 / 1000000 <= ictcp_curve s b <= ictcp_curve s a + 7 / 100000).
  { intros a b A B C. destruct S as [-> | ->]; cbn [ictcp_curve ictcp_peak] in *.
    - pose proof (pq_relative a b (9 / 100000) ltac:(lra) ltac:(lra) ltac:(lra)) as PR. 
      pose proof (curve_range SpICtCpPQ a ltac:(left; reflexivity) ltac:(cbn; lra)) as CR. cbn [ictcp_curve] in CR. nra.
    - pose proof (hlg_relative a b (9 / 100000) ltac:(lra) ltac:(lra) ltac:(lra) ltac:(lra)). lra. }
  pose proof (F n z ltac:(lra) ltac:(lra) ltac:(lra)) as F1. pose proof (F z l ltac:(lra) ltac:(lra) ltac:(lra)) as F2.
  pose proof (F l m ltac:(lra) ltac:(lra) ltac:(lra)) as F3. pose proof (F n m ltac:(lra) ltac:(lra) ltac:(lra)) as F4.
  pose proof (F z m ltac:(lra) ltac:(lra) ltac:(lra)) as F5. pose proof (F n l ltac:(lra) ltac:(lra) ltac:(lra)) as F6. clear F.
  unfold within3 in *. destruct (to_yuv s t p x x x) as [[i u] v].
  set (cl := ictcp_curve s l) in *; set (cm := ictcp_curve s m) in *; set (cn := ictcp_curve s n) in *; set (cz := ictcp_curve s z) in *; clearbody cl cm cn cz.
  destruct S as [-> | ->]; cbn [ictcp_matrix ictcp_pq ictcp_hlg] in E; unfold ictcp_pq, ictcp_hlg in E; destruct E as (E1 & E2 & E3);
    apply Rabs_le_inv in E1; apply Rabs_le_inv in E2; apply Rabs_le_inv in E3; repeat split; apply Rabs_le; lra.
Qed.
Print Assumptions C57_neutral.

(** 1 is white in HLG, 10000 cd/m2 in PQ *)
Example C57_example : decode TLinear 1 = 1 /\ within3 (1 / 3000) (to_yuv SpICtCpHLG TLinear PrBT709 1 1 1) (hlg_encode 1, 0, 0).
Proof.
  assert (D : decode TLinear 1 = 1) by reflexivity. split; [exact D|].
  pose proof (C57_neutral SpICtCpHLG TLinear PrBT709 1 ltac:(right; reflexivity) ltac:(rewrite D; cbn; lra)) as H. rewrite D in H. exact H.
Qed.

(** * C58 *)

Definition ictcp_decode (s : color_space) : R -> R := match s with SpICtCpPQ => pq_decode | _ => hlg_decode end.

Lemma decode_clamped : forall s x, is_bt2100 s -> decode (curve_of s) x = ictcp_decode s (Rmax x 0).
Proof.
  intros s x S. assert (Z : decode (curve_of s) x = decode (curve_of s) (Rmax x 0)).
  { assert (M : Rmax (Rmax x 0) 0 = Rmax x 0) by (apply Rmax_left, Rmax_r). assert (N : R_lit 0 0 = 0) by (unfold R_lit; cbn; field).
    destruct S as [-> | ->]; unfold curve_of, decode, scaled_to_linear, pq_scaled_to_linear, hlg_scaled_to_linear;
      unfold vmaxf, vmax; cbn [R_vops lane_vops l_max R_lane splat flit R_ops lit0]; unfold lit0; cbn [flit R_ops]; rewrite N, M; reflexivity. }
  rewrite Z. destruct S as [-> | ->]; [apply decode_pq|apply decode_hlg]; apply Rmax_r.
Qed.

(** The matrices from I, Ct, Cp back to encoded cone responses *)
Definition unmix (s : color_space) (y u v : R) : R * R * R :=
  match s with
  | SpICtCpPQ => (y + u * (8609037 / 1000000000) + v * (111029625 / 1000000000),
                  y + u * (-8609037 / 1000000000) + v * (-111029625 / 1000000000),
                  y + u * (5600313 / 10000000) + v * (-32062715 / 100000000))
  | _ => (y + u * (1571858 / 100000000) + v * (20958106 / 100000000),
          y + u * (-1571858 / 100000000) + v * (-20958106 / 100000000),
          y + u * (10212711 / 10000000) + v * (-6052745 / 10000000))
  end.

Lemma to_rgb_steps : forall s t p y u v, is_bt2100 s ->
  to_rgb s t p y u v =
  let '(l, m, n) := unmix s y u v in
  let '(r, g, b) := uncones p (decode (curve_of s) l) (decode (curve_of s) m) (decode (curve_of s) n) in
  (encode t r, encode t g, encode t b).
Proof. intros s t p y u v [-> | ->]; reflexivity. Qed.

(** The matrices to I, Ct, Cp, with the digits of the code *)
Definition mix (s : color_space) (l m n : R) : R * R * R :=
  match s with
  | SpICtCpPQ => ictcp_pq l m n
  | _ => ((l + m) / 2, 88500977 / 100000000 * l - 18225098 / 10000000 * m + 9375 / 10000 * n,
          2319336 / 1000000 * l - 22490234 / 10000000 * m - 703125 / 10000000 * n)
  end.

Lemma to_yuv_mix : forall s t p r g b, is_bt2100 s ->
  to_yuv s t p r g b =
  let '(l, m, n) := cones p (decode t r) (decode t g) (decode t b) in
  mix s (encode (curve_of s) l) (encode (curve_of s) m) (encode (curve_of s) n).
Proof.
  intros s t p r g b [-> | ->];
    unfold to_yuv, rgb_to_yuv, pq_rgb_to_yuv, hlg_rgb_to_yuv, cones, curve_of, mix;
    change (scaled_to_linear (F := R) (V := R) (M := bool) t) with (decode t);
    destruct (rgb_to_xyz (rgb_to_xyz_mat p) (decode t r) (decode t g) (decode t b)) as [[x y] z];
    destruct (xyz_to_lms x y z) as [[l m] n].
  - change (pq_linear_to_scaled (F := R) (V := R) (M := bool)) with (encode TBT2100PQ).
    set (l' := encode TBT2100PQ l); set (m' := encode TBT2100PQ m); set (n' := encode TBT2100PQ n); clearbody l' m' n'.
    run_matrix. unfold ictcp_pq. apply triple_eq; field.
  - change (hlg_linear_to_scaled (F := R) (V := R) (M := bool)) with (encode TBT2100HLG).
    set (l' := encode TBT2100HLG l); set (m' := encode TBT2100HLG m); set (n' := encode TBT2100HLG n); clearbody l' m' n'.
    run_matrix. apply triple_eq; field.
Qed.

Lemma unmix_close : forall s l m n, is_bt2100 s -> 0 <= l <= 1 + 1 / 20000 -> 0 <= m <= 1 + 1 / 20000 -> 0 <= n <= 1 + 1 / 20000 ->
  let '(y, u, v) := mix s l m n in within3 (2 / 10000000) (unmix s y u v) (l, m, n).
Proof.
  intros s l m n [-> | ->] L M N; unfold mix, ictcp_pq, unmix, within3; repeat split; apply Rabs_le; lra.
Qed.

Lemma decode_back : forall s c x, is_bt2100 s -> 0 <= x <= ictcp_peak s * (1 + 4 / 100000) -> Rabs (c - ictcp_curve s x) <= 2 / 10000000 ->
  Rabs (decode (curve_of s) c - x) <= ictcp_peak s / 150000.
Proof.
  intros s c x S X C. rewrite decode_clamped by exact S. pose proof (curve_range s x S X) as R.
  assert (W : Rabs (Rmax c 0 - ictcp_curve s x) <= 2 / 10000000).
  { apply Rabs_le_inv in C. apply Rabs_le. unfold Rmax. destruct (Rle_dec c 0); lra. }
  assert (B : 0 <= Rmax c 0) by apply Rmax_r. set (d := Rmax c 0) in *. clearbody d. clear C.
  assert (I : Rabs (ictcp_decode s (ictcp_curve s x) - x) <= 1 / 1000000).
  { destruct S as [-> | ->]; cbn [ictcp_decode ictcp_curve ictcp_peak] in *.
    - destruct (C35_pq_inverse x ltac:(lra)) as [H _]. rewrite encode_pq, decode_pq in H by (try apply power_ge0; lra). rewrite H.
      unfold Rminus. rewrite Rplus_opp_r, Rabs_R0. lra.
    - destruct (C35_hlg_inverse x ltac:(lra)) as [_ H]. rewrite encode_hlg, decode_hlg in H by lra. exact H. }
  assert (R' : 0 <= ictcp_curve s x <= 1 + 1 / 20000) by lra.
  assert (D : 0 <= d <= 1 + 1 / 20000 -> Rabs (ictcp_decode s d - ictcp_decode s (ictcp_curve s x)) <= ictcp_peak s / 200000).
  { intros D. destruct S as [-> | ->]; cbn [ictcp_decode ictcp_curve ictcp_peak] in *.
    - apply Rle_trans with (1 := pq_decode_near _ _ R' D W). lra.
    - apply Rle_trans with (1 := hlg_decode_near _ _ R' D W). lra. }
  assert (DD : 0 <= d <= 1 + 1 / 20000) by (apply Rabs_le_inv in W; lra). specialize (D DD).
  apply Rabs_le_inv in D. apply Rabs_le_inv in I. apply Rabs_le. destruct S as [-> | ->]; cbn [ictcp_peak] in *; lra.
Qed.

(** To ICtCp and back, any transfer function and primaries: the result encodes
    the linear light of the source, up to 1/10000 of the peak. *)
Theorem C58_round_trip : forall s t p r g b, is_bt2100 s ->
  0 <= decode t r <= ictcp_peak s -> 0 <= decode t g <= ictcp_peak s -> 0 <= decode t b <= ictcp_peak s ->
  let '(y, u, v) := to_yuv s t p r g b in
  exists r' g' b', to_rgb s t p y u v = (encode t r', encode t g', encode t b') /\
    within3 (ictcp_peak s / 10000) (r', g', b') (decode t r, decode t g, decode t b).
Proof.
  intros s t p r g b S HR HG HB. rewrite to_yuv_mix by exact S.
  pose proof (cones_range p _ _ _ _ HR HG HB) as C.
  pose proof (fun l' m' n' e => cones_back p _ _ _ l' m' n' _ e HR HG HB) as K.
  destruct (cones p (decode t r) (decode t g) (decode t b)) as [[l m] n]. destruct C as (C1 & C2 & C3).
  assert (PK : 0 < ictcp_peak s) by (destruct S as [-> | ->]; cbn; lra).
  rewrite !curve_eq by (auto; lra).
  pose proof (curve_range s l S ltac:(lra)) as R1. pose proof (curve_range s m S ltac:(lra)) as R2. pose proof (curve_range s n S ltac:(lra)) as R3.
  pose proof (unmix_close s (ictcp_curve s l) (ictcp_curve s m) (ictcp_curve s n) S ltac:(lra) ltac:(lra) ltac:(lra)) as U.
  destruct (mix s (ictcp_curve s l) (ictcp_curve s m) (ictcp_curve s n)) as [[y u] v].
  rewrite to_rgb_steps by exact S. destruct (unmix s y u v) as [[l' m'] n']. destruct U as (U1 & U2 & U3).
  pose proof (decode_back s l' l S ltac:(lra) U1) as D1. pose proof (decode_back s m' m S ltac:(lra) U2) as D2. pose proof (decode_back s n' n S ltac:(lra) U3) as D3.
  specialize (K _ _ _ _ D1 D2 D3). destruct (uncones _ _ _ _) as [[r' g'] b']. exists r', g', b'. split; [reflexivity|].
  unfold within3 in *. lra.
Qed.
Print Assumptions C58_round_trip.

(** In particular linear RGB comes back. *)
Corollary C58_round_trip_linear : forall s p r g b, is_bt2100 s ->
  0 <= r <= ictcp_peak s -> 0 <= g <= ictcp_peak s -> 0 <= b <= ictcp_peak s ->
  let '(y, u, v) := to_yuv s TLinear p r g b in within3 (ictcp_peak s / 10000) (to_rgb s TLinear p y u v) (r, g, b).
Proof.
  intros s p r g b S HR HG HB. pose proof (C58_round_trip s TLinear p r g b S HR HG HB) as H.
  destruct (to_yuv s TLinear p r g b) as [[y u] v]. destruct H as (r' & g' & b' & -> & H). exact H.
Qed.
Print Assumptions C58_round_trip_linear.

(** Not because everything becomes gray: *)
Example C58_example : forall y u v, to_yuv SpICtCpPQ TLinear PrBT2020 10000 0 0 = (y, u, v) ->
  0 < v /\ within3 1 (to_rgb SpICtCpPQ TLinear PrBT2020 y u v) (10000, 0, 0).
Proof.
  intros y u v E. split.
  - rewrite to_yuv_mix in E by (left; reflexivity). change (decode TLinear 10000) with 10000 in E. change (decode TLinear 0) with 0 in E.
    assert (C : let '(l, m, n) := cones PrBT2020 10000 0 0 in 0 <= n < m /\ m < l) by (unfold cones; run_matrix; lra).
    destruct (cones PrBT2020 10000 0 0) as [[l m] n]. unfold mix, ictcp_pq, curve_of in E.
    pose proof (C36_encode_increasing TBT2100PQ n m ltac:(auto) ltac:(lra)). pose proof (C36_encode_increasing TBT2100PQ m l ltac:(auto) ltac:(lra)).
    apply (f_equal snd) in E. cbn [snd] in E. rewrite <- E.
    set (a := encode TBT2100PQ l) in *; set (b := encode TBT2100PQ m) in *; set (c := encode TBT2100PQ n) in *; clearbody a b c. lra.
  - pose proof (C58_round_trip_linear SpICtCpPQ PrBT2020 10000 0 0 ltac:(left; reflexivity) ltac:(cbn; lra) ltac:(cbn; lra) ltac:(cbn; lra)) as H.
    rewrite E in H. cbn [ictcp_peak] in H. replace (10000 / 10000) with 1 in H by field. exact H.
Qed.
