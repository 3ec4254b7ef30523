(** C68 for ICtCp: neutral chroma in 8-bit limited range is read as gray. *)

From Coq Require Import List ZArith Bool Arith Reals Lia Lra Psatz.
From Coq Require Import Floats.SpecFloat.
From Flocq Require Import Core.
From Verif Require Import Base Types Planes ImageM F32 Vector Simd SpecVector SimdProofs QuantProofs SpecGeom GeomProofs
  SpecColor SpecConvert SpecRun Formats Visit Convert VisitProofs ColorProofs ConvertProofs ExactProofs PropConvert PropFidelity
  SpecReal FloatProofs AccProofs TargetProofs PropColor ColorR SpecTransfer PowerProofs MathProofs SpecMath LaneProofs TransferProofs
  Math NegProofs RecolorProofs PropRecolor GamutProofs PropGamut GrayProofs PropGray PropDrift PropBT2020 PropOut PropToPQ IctcpProofs
  WideProofs PropWide PqProofs PropFromPQ PqEncProofs PropPQ HlgProofs PropNeutral PropIctcpAcc PropIctcpDec PropIctcpPq PropIctcpPqDec.
Import ListNotations.
Local Open Scope R_scope.

(** * Equal cone responses *)

Definition neutral_y (z : Z) : f32 := expand_y false (fdiv (f32_of_Z z) (f32_of_Z 255)).
Definition zero_c : f32 := fsub (expand_c false (fdiv (f32_of_Z 128) (f32_of_Z 255))) (flit 5 1).

(** Chroma of level 128 leaves the three responses equal, to the last bit *)
Definition equal_cones (z : Z) : bool :=
  let y := neutral_y z in
  forallb (fun q => if f32_eq_dec q y then true else false)
    [(y + zero_c * flit 1571858 8 + zero_c * flit 20958106 8)%F;
     (y + zero_c * flit (-1571858) 8 + zero_c * flit (-20958106) 8)%F;
     (y + zero_c * flit 10212711 7 + zero_c * flit (-6052745) 7)%F;
     (y + zero_c * flit 8609037 9 + zero_c * flit 111029625 9)%F;
     (y + zero_c * flit (-8609037) 9 + zero_c * flit (-111029625) 9)%F;
     (y + zero_c * flit 5600313 7 + zero_c * flit (-32062715) 8)%F].
Lemma equal_cones_all : forallb equal_cones levels256 = true.
Proof. vm_compute. reflexivity. Qed.

(** The space's curve *)
Definition cone_curve (s : color_space) : color_transfer := match s with SpICtCpPQ => TBT2100PQ | _ => TBT2100HLG end.

Lemma neutral_cones : forall L s t p z, s = SpICtCpHLG \/ s = SpICtCpPQ -> (0 <= z <= 255)%Z ->
  let d := eotf L (cone_curve s) (neutral_y z) in
  yuv_rgb L s t p (neutral_y z, zero_c, zero_c) = map3 (oetf L t) (from_xyz p (from_lms (d, d, d))).
Proof.
  intros L s t p z S Z d.
  pose proof equal_cones_all as H. rewrite forallb_forall in H. specialize (H z (levels256_all z Z)).
  unfold equal_cones in H. cbv zeta in H.
  assert (E : forall q l, forallb (fun q => if f32_eq_dec q (neutral_y z) then true else false) (q :: l) = true ->
    q = neutral_y z /\ forallb (fun q => if f32_eq_dec q (neutral_y z) then true else false) l = true).
  { intros q l Q. cbn [forallb] in Q. apply andb_prop in Q. destruct Q as (Q & Q'). split; [|exact Q']. destruct (f32_eq_dec q (neutral_y z)); [assumption|discriminate Q]. }
  apply E in H. destruct H as (E1 & H). apply E in H. destruct H as (E2 & H). apply E in H. destruct H as (E3 & H).
  apply E in H. destruct H as (E4 & H). apply E in H. destruct H as (E5 & H). apply E in H. destruct H as (E6 & H). clear E H.
  unfold yuv_rgb, ictcp_rgb. destruct S as [-> | ->].
  - rewrite E1, E2, E3. reflexivity.
  - rewrite E4, E5, E6. reflexivity.
Qed.

(** * Light *)

Lemma from_lms_scale : forall d M, is_num d -> Rabs (fval d) <= M -> 0 <= M <= 10100 ->
  approx3 (from_lms (d, d, d)) (from_lms (fval d, fval d, fval d)) (13 / 10000000 * M + 1 / 10000000000000).
Proof.
  intros d M N B MB. pose proof (exact_approx _ N) as HD. assert (E : 0 <= 0 <= M / 1000 + 1 / 1000000000) by lra.
  cbn [from_lms approx3]. split; [|split]; (eapply approx_le;
  [eapply dot_scale; [coef|coef|coef|apply Rle_refl|apply Rle_refl|apply Rle_refl|abs_lits|eassumption|eassumption|eassumption|eassumption|eassumption|eassumption|lra|exact E]|
   match goal with |- (?s * _ + _ * (_ + _ * ?s) + _ <= _) => let S := fresh in assert (S : s <= 361 / 100) by abs_lits; revert S; generalize s; intros; nra end]).
Qed.

(** Equal responses are gray light, but for the rounding of the matrices'
    coefficients *)
Lemma cones_gray : forall p d, near3 (from_xyz p (from_lms (d, d, d))) (d, d, d) (186 / 1000000 * Rabs d) /\
  within3 (from_lms (d, d, d)) (11 / 10 * Rabs d).
Proof.
  intros p d. assert (AD : Rabs d = d \/ Rabs d = - d) by (unfold Rabs; destruct (Rcase_abs d); auto). pose proof (Rabs_pos d) as PD.
  split.
  - destruct p; cbn [from_lms from_xyz near3]; (split; [|split]); unfold dot; cbn [fadd fmul flit R_ops]; lits; apply Rabs_le; destruct AD as [AD|AD]; rewrite AD in *; lra.
  - cbn [from_lms within3]; (split; [|split]); unfold dot; cbn [fadd fmul flit R_ops]; lits; apply Rabs_le; destruct AD as [AD|AD]; rewrite AD in *; lra.
Qed.

Lemma cones_acc : forall p d, is_num d -> Rabs (fval d) <= 10100 ->
  approx3 (from_xyz p (from_lms (d, d, d))) (fval d, fval d, fval d) (196 / 1000000 * Rabs (fval d) + 1 / 1000000000000).
Proof.
  intros p d N B. pose proof (Rabs_pos (fval d)) as P.
  pose proof (from_lms_scale d (Rabs (fval d)) N ltac:(lra) ltac:(lra)) as X3. destruct (cones_gray p (fval d)) as (G & W).
  pose proof (from_xyz_scale p _ _ _ (11 / 10 * Rabs (fval d)) X3 W ltac:(lra) ltac:(lra)) as F3.
  destruct (from_xyz p (from_lms (d, d, d))) as ((q1, q2), q3). destruct (from_xyz p (from_lms (fval d, fval d, fval d))) as ((p1, p2), p3).
  destruct F3 as (H1 & H2 & H3). destruct G as (G1 & G2 & G3). split; [|split]; (eapply approx_weaken; [eassumption|]); lra.
Qed.

(** * Encoded light *)

Lemma encoded_near : forall t a b, t <> TBT2100PQ -> 0 <= a <= b -> a <= 2 -> b - a <= 4 / 10000 * a + 21 / 1000000000 ->
  - (1 / 1000000) <= encoded t b - encoded t a <= 35 / 10000.
Proof.
  intros t a b T A A2 D.
  assert (LOW : gentle t -> a <= 1 / 20 -> - (1 / 1000000) <= encoded t b - encoded t a <= 35 / 10000).
  { intros G A1. pose proof (encoded_lip t a b G A). lra. }
  assert (PC : forall p k (q n : nat), 0 < p <= 1 -> 0 <= k -> p * INR n = INR q -> (21 / 1000000000) ^ q < k ^ n -> 0 <= power b p - power a p <= 8 / 10000 + k).
  { intros p k q n P K I H. assert (S : power (21 / 1000000000) p <= k) by (left; apply (power_below _ _ _ q n); [lra|exact K|exact I|exact H]).
    pose proof (power_close a b p (4 / 10000) (21 / 1000000000) A A2 P ltac:(lra) ltac:(lra) D). lra. }
  destruct t; try congruence.
  - cbn [encoded]. lra.
  - cbn [encoded]. pose proof (PC (10 / 22) (20 / 10000) 10%nat 22%nat ltac:(lra) ltac:(lra) ltac:(simpl; lra) ltac:(simpl; lra)). lra.
  - cbn [encoded]. pose proof (PC (10 / 28) (20 / 10000) 10%nat 28%nat ltac:(lra) ltac:(lra) ltac:(simpl; lra) ltac:(simpl; lra)). lra.
  - destruct (Rle_dec a (1 / 20)) as [C|C]; [apply LOW; [unfold gentle; auto|exact C]|].
    cbn [encoded]. unfold srgb_encode. destruct (Rle_dec a _) as [HA|HA]; [exfalso; lra|]. destruct (Rle_dec b _) as [HB|HB]; [exfalso; lra|].
    pose proof (PC (5 / 12) (10 / 10000) 5%nat 12%nat ltac:(lra) ltac:(lra) ltac:(simpl; lra) ltac:(simpl; lra)). lra.
  - destruct (Rle_dec a (1 / 20)) as [C|C]; [apply LOW; [unfold gentle; auto|exact C]|].
    cbn [encoded]. unfold sdr_encode. destruct (Rlt_dec a _) as [HA|HA]; [exfalso; lra|]. destruct (Rlt_dec b _) as [HB|HB]; [exfalso; lra|].
    pose proof (PC (9 / 20) (10 / 10000) 9%nat 20%nat ltac:(lra) ltac:(lra) ltac:(simpl; lra) ltac:(simpl; lra)). lra.
  - cbn [encoded]. pose proof hlg_threshold as HT.
    assert (SQ : forall u v, 0 <= u <= v -> v - u <= 4 / 10000 * u + 21 / 1000000000 -> u <= 1 / 12 -> 0 <= sqrt (3 * v) - sqrt (3 * u) <= 33 / 10000).
    { intros u v U V W. assert (M : sqrt (3 * u) <= sqrt (3 * v)) by (apply sqrt_le_1; lra). split; [lra|].
      pose proof (sqrt_pos (3 * u)) as P1. pose proof (sqrt_pos (3 * v)) as P2.
      pose proof (sqrt_sqrt (3 * u) ltac:(lra)) as S1. pose proof (sqrt_sqrt (3 * v) ltac:(lra)) as S2.
      set (p := sqrt (3 * u)) in *. set (q := sqrt (3 * v)) in *.
      destruct (Rle_dec (q - p) (33 / 10000)) as [|C]; [lra|exfalso]. assert (33 / 10000 * (33 / 10000) < (q - p) * (q - p)) by (apply Rmult_le_0_lt_compat; lra).
      assert (p <= 1 / 2) by (apply Rnot_lt_le; intros PP; nra). nra. }
    assert (LN : forall u v, 1 / 12 <= u <= v -> 0 <= (ha * ln (12 * v - hb) + hc) - (ha * ln (12 * u - hb) + hc) <= 31 / 10 * (v - u)).
    { intros u v U. assert (M : ln (12 * u - hb) <= ln (12 * v - hb)) by (apply TransferProofs.ln_le; unfold hb; lra).
      pose proof (ln_lip (12 * v - hb) (12 * u - hb) (1 - hb) ltac:(unfold hb; lra) ltac:(lra) ltac:(lra)) as H.
      replace (12 * v - hb - (12 * u - hb)) with (12 * (v - u)) in H by ring. rewrite !Rabs_pos_eq in H by lra.
      assert (Q : 12 * (v - u) / (1 - hb) <= 168 / 10 * (v - u)).
      { unfold Rdiv. assert (/ (1 - hb) <= 14 / 10) by (replace (14 / 10) with (/ (10 / 14)) by field; apply Rinv_le_contravar; unfold hb; lra). nra. }
      set (l1 := ln (12 * v - hb)) in *. set (l2 := ln (12 * u - hb)) in *. unfold ha. lra. }
    unfold hlg_encode. destruct (Rle_dec a _) as [HA|HA], (Rle_dec b _) as [HB|HB]; try lra.
    + pose proof (SQ a b A D HA). lra.
    + pose proof (SQ a (1 / 12) ltac:(lra) ltac:(lra) HA) as H1. pose proof (LN (1 / 12) b ltac:(lra)) as H2.
      replace (sqrt (3 * (1 / 12))) with (1 / 2) in H1 by (replace (3 * (1 / 12)) with (1 / 2 * (1 / 2)) by field; symmetry; apply sqrt_square; lra).
      replace (12 * (1 / 12)) with 1 in H2 by field. lra.
    + pose proof (LN a b ltac:(lra)). lra.
Qed.

Lemma pq_black : forall b, 0 <= b <= 102 / 1000000000 -> pq_encode b <= 1 / 10000.
Proof.
  intros b B. pose proof (pq_mono b (102 / 1000000000) ltac:(lra)) as M. eapply Rle_trans; [exact M|]. clear M. unfold pq_encode. cbv zeta.
  assert (N : 0 <= power (102 / 1000000000 / 10000) m1 <= 23 / 1000).
  { split; [apply power_ge0|]. apply Rle_trans with (power (102 / 1000000000 / 10000) (3 / 20)).
    - rewrite !power_pos by lra. unfold Rpower. apply exp_le. assert (ln (102 / 1000000000 / 10000) < 0) by (rewrite <- ln_1; apply ln_increasing; lra). unfold m1. nra.
    - left. apply (power_below _ _ _ 3 20); [lra|lra|simpl; lra|simpl; lra]. }
  set (y := power _ m1) in *. clearbody y.
  assert (G : 0 < (c1 + c2 * y) / (1 + c3 * y) <= 888 / 1000).
  { unfold c1, c2, c3. set (num := 8359375 / 10000000 + 18851563 / 1000000 * y). set (den := 1 + 186875 / 10000 * y).
    assert (DP : 0 < den) by (unfold den; lra). assert (E : num / den * den = num) by (field; lra).
    split; [apply Rmult_lt_reg_r with den|apply Rmult_le_reg_r with den]; try exact DP; rewrite E; unfold num, den; lra. }
  set (g := _ / _) in *. clearbody g.
  apply Rle_trans with (power (888 / 1000) m2); [apply power_le; [unfold m2|]; lra|].
  apply Rle_trans with (power (888 / 1000) (INR 78)).
  - rewrite !power_pos by lra. unfold Rpower. apply exp_le. assert (ln (888 / 1000) < 0) by (rewrite <- ln_1; apply ln_increasing; lra).
    replace (INR 78) with 78 by (simpl; lra). unfold m2. nra.
  - rewrite power_whole by lra. replace 78%nat with (2 * 39)%nat by reflexivity. rewrite pow_mult. simpl. lra.
Qed.

Lemma pq_near : forall r a b, 0 <= r <= 1 / 1000 -> 0 <= a <= b -> b <= 18000 -> b - a <= r * a + 3 / 1000000000000 ->
  0 <= pq_encode b - pq_encode a <= 1 / 10000 + 64 / 100 * r.
Proof.
  intros r0 a b R0 A B D. split; [pose proof (pq_mono a b A); lra|].
  destruct (Rle_dec a (1 / 10000000)) as [C|C].
  { pose proof (pq_black b ltac:(nra)). assert (0 <= pq_encode a) by (unfold pq_encode; cbv zeta; apply power_ge0). lra. }
  assert (GB : forall N, 0 <= N <= 116 / 100 -> 0 < (c1 + c2 * N) / (1 + c3 * N) <= 10015 / 10000).
  { intros N NB. unfold c1, c2, c3. set (num := 8359375 / 10000000 + 18851563 / 1000000 * N). set (den := 1 + 186875 / 10000 * N).
    assert (DP : 0 < den) by (unfold den; lra). assert (E : num / den * den = num) by (field; lra).
    split; [apply Rmult_lt_reg_r with den|apply Rmult_le_reg_r with den]; try exact DP; rewrite E; unfold num, den; lra. }
  assert (TOP : forall x, 0 <= x <= 18 / 10 -> 0 <= power x m1 <= 116 / 100).
  { intros x X. split; [apply power_ge0|]. apply Rle_trans with (power (18 / 10) m1); [apply power_le; unfold m1; lra|].
    pose proof (bernoulli (18 / 10) m1 ltac:(lra) ltac:(unfold m1; lra)). unfold m1 in *. lra. }
  set (r := r0 + 3 / 100000). assert (BA : b / 10000 <= a / 10000 * (1 + r)) by (unfold r; lra).
  pose proof (TOP (a / 10000) ltac:(lra)) as TA. pose proof (TOP (b / 10000) ltac:(lra)) as TB.
  assert (NN : power (b / 10000) m1 <= power (a / 10000) m1 * (1 + m1 * r)).
  { apply Rle_trans with (power (a / 10000 * (1 + r)) m1); [apply power_le; [unfold m1|]; lra|].
    assert (E : power (a / 10000 * (1 + r)) m1 = power (a / 10000) m1 * power (1 + r) m1).
    { rewrite !power_pos; [symmetry; apply Rpower_mult_distr; unfold r; lra|unfold r; lra|lra|]. apply Rmult_lt_0_compat; unfold r; lra. }
    rewrite E. apply Rmult_le_compat_l; [lra|]. pose proof (bernoulli (1 + r) m1 ltac:(unfold r; lra) ltac:(unfold m1; lra)) as BE.
    replace (1 + r - 1) with r in BE by ring. exact BE. }
  assert (NM : power (a / 10000) m1 <= power (b / 10000) m1) by (apply power_le; [unfold m1|]; lra).
  unfold pq_encode. cbv zeta. set (N := power (a / 10000) m1) in *. set (N' := power (b / 10000) m1) in *. clearbody N N'.
  pose proof (GB N ltac:(lra)) as G1. pose proof (GB N' ltac:(lra)) as G2.
  assert (RR : 0 <= m1 * r) by (unfold m1, r; lra). set (k := m1 * r) in *.
  assert (G3 : 0 <= (c1 + c2 * N') / (1 + c3 * N') - (c1 + c2 * N) / (1 + c3 * N) <= 44 / 1000 * k).
  { assert (E : (c1 + c2 * N') / (1 + c3 * N') - (c1 + c2 * N) / (1 + c3 * N) = (c2 - c1 * c3) * (N' - N) / ((1 + c3 * N) * (1 + c3 * N'))) by (unfold c3; field; lra).
    rewrite E. clearbody k. clear E G1 G2 GB TOP D BA.
    assert (DP : 0 < (1 + c3 * N) * (1 + c3 * N')) by (unfold c3; apply Rmult_lt_0_compat; lra).
    assert (DM : 4 * c3 * N <= (1 + c3 * N) * (1 + c3 * N')).
    { apply Rle_trans with ((1 + c3 * N) * (1 + c3 * N)); [pose proof (pow2_ge_0 (1 - c3 * N)); lra|]. apply Rmult_le_compat_l; unfold c3; lra. }
    set (w := (1 + c3 * N) * (1 + c3 * N')) in *. clearbody w. unfold Rdiv. split.
    - apply Rmult_le_pos; [apply Rmult_le_pos; unfold c1, c2, c3; lra|left; apply Rinv_0_lt_compat; exact DP].
    - apply Rmult_le_reg_r with w; [exact DP|]. rewrite Rmult_assoc, Rinv_l, Rmult_1_r by lra.
      assert ((c2 - c1 * c3) * (N' - N) <= 323 / 100 * (N * k)) by (apply Rmult_le_compat; unfold c1, c2, c3; lra).
      assert (4 * c3 * N * k <= w * k) by (apply Rmult_le_compat_r; lra). unfold c3 in *. nra. }
  pose proof (power_lip_up m2 ((c1 + c2 * N') / (1 + c3 * N')) ((c1 + c2 * N) / (1 + c3 * N)) (10015 / 10000) 91 ltac:(unfold m2; lra) ltac:(lra) ltac:(lra)) as H.
  pose proof (power_top (10015 / 10000) (m2 - 1) ltac:(lra) ltac:(unfold m2; lra)) as PT.
  specialize (H ltac:(unfold m2 in *; lra)). rewrite (Rabs_pos_eq (_ / _ - _)) in H by lra. apply Rabs_le_inv in H.
  assert (KB : k <= 15931 / 100000 * r0 + 1 / 100000) by (unfold k, r, m1; lra). lra.
Qed.

(** * C68 for ICtCp *)

(** The samples of a neutral pixel are stored from gray light *)
Lemma neutral_light : forall lm b m src sps dst dps i,
  converts lm b m src sps dst dps -> bytes_ok m ->
  sampling_of (im_format src) <> SRGB -> sample_bytes (im_format src) = 1%nat -> sampling_of (im_format dst) = SRGB ->
  im_color src = CYUV i -> yc_space i = SpICtCpHLG \/ yc_space i = SpICtCpPQ -> yc_full_range i = false ->
  same_light (im_color src) (im_color dst) = true ->
  forall c x y l, In c comps -> in_image dst x y -> neutral_pixel m src sps x y l ->
  let cb := column_backend b (im_width dst) x in
  let L := lane_of lm cb in
  let d := eotf L (cone_curve (yc_space i)) (neutral_y l) in
  (0 <= l <= 255)%Z /\
  stored lm b m src dst dps c x y = Some (quantise (quant_of cb) (im_format dst)
    (oetf L (ci_transfer (im_color src)) (component_of c (from_xyz (ci_primaries (im_color src)) (from_lms (d, d, d)))))).
Proof.
  intros lm b m src sps dst dps i CVT BY FS S1 FD CI S FR SL c x y l HC HI (NY & NU & NV) cb L d.
  assert (LB : (0 <= l <= 255)%Z).
  { pose proof (given_range _ _ _ _ _ _ _ BY NY) as R. rewrite S1 in R. cbn in R. lia. }
  split; [exact LB|].
  assert (SK : same_image_kind src dst = false).
  { unfold same_image_kind. apply andb_false_iff; left. destruct (im_format src), (im_format dst); try reflexivity; cbn in FS, FD; congruence. }
  assert (HD : has_comp (im_format dst) c = true) by (unfold has_comp; rewrite FD; cbn [In comps] in HC; intuition (subst; reflexivity)).
  assert (ICT : ictcp_chroma420 (im_format dst) (im_color dst) c = false) by (unfold ictcp_chroma420; rewrite FD; reflexivity).
  rewrite (stored_expected _ _ _ _ _ _ _ CVT c x y HD HI ICT). fold cb L. do 2 f_equal.
  assert (MS : max_level (im_format src) = 255%Z) by (destruct (im_format src); try reflexivity; discriminate S1).
  assert (NE : neutral (im_format src) = 128%Z) by (unfold neutral; rewrite MS; reflexivity). rewrite NE in NU, NV.
  unfold expected_value. rewrite SK. unfold target. rewrite FD. unfold recolored. rewrite SL.
  assert (EP : source_pixel L m (im_format src) (im_color src) sps x y = (map3 (oetf L (ci_transfer (im_color src))) (from_xyz (ci_primaries (im_color src)) (from_lms (d, d, d))), fone)).
  { unfold source_pixel. rewrite CI. cbn [ci_transfer ci_primaries].
    assert (EX : decode_yuv L i (norm m (im_format src) sps CY x y) (norm m (im_format src) sps CU x y) (norm m (im_format src) sps CV x y)
        = map3 (oetf L (yc_transfer i)) (from_xyz (yc_primaries i) (from_lms (d, d, d)))).
    { unfold decode_yuv, norm. unfold given in NY, NU, NV. rewrite NY, NU, NV, MS, FR. apply (neutral_cones L (yc_space i) (yc_transfer i) (yc_primaries i) l S LB). }
    rewrite EX. destruct (sampling_of (im_format src)); congruence. }
  rewrite EP. destruct (from_xyz _ _) as ((q1, q2), q3). cbn [In comps] in HC. destruct HC as [<- |[<- |[<- |[]]]]; reflexivity.
Qed.

Lemma neutral_y_acc : forall z, (0 <= z <= 255)%Z -> approx (neutral_y z) ((IZR z - 16) / 219) (4 * u7).
Proof.
  intros z Z. destruct (level_num z Z) as (N & B & E). unfold neutral_y, expand_y. set (x := fdiv (f32_of_Z z) (f32_of_Z 255)) in *.
  assert (ZB : 0 <= IZR z <= 255) by (split; apply IZR_le; lia).
  assert (HT : approx x (IZR z / 255) u7) by (split; [exact N|exact E]).
  assert (C16 : approx (f32_div (f32_lit 16 0) (f32_lit 255 0)) (16 / 255) (4 / 1000000000)) by const_approx.
  assert (HQ : approx (f32_div (f32_lit 255 0) (f32_lit 219 0)) (255 / 219) (12 / 100000000)) by const_approx.
  cbn [fmul fsub fdiv flit f32_ops].
  pose proof (approx_sub _ _ _ _ _ _ 1 HT C16 ltac:(match goal with |- Rabs ?a + _ <= _ => assert (Rabs a <= 94 / 100) by (apply Rabs_le; lra) end; unfold u7; lra) ltac:(lra)) as S.
  pose proof (approx_mul _ _ _ _ _ _ (94 / 100) (1165 / 1000) (11 / 10) S HQ ltac:(apply Rabs_le; lra) ltac:(rewrite Rabs_pos_eq; lra) ltac:(unfold u7, half_ulp; lra) ltac:(lra)) as P.
  eapply approx_eq; [eapply approx_le; [exact P|unfold u7, half_ulp; lra]|field].
Qed.

Lemma hlg_decode_top : forall v, 0 <= v <= 239 / 219 -> hlg_decode v <= 17 / 10.
Proof.
  intros v V. unfold hlg_decode. destruct (Rle_dec v (1 / 2)) as [C|C]; [nra|].
  assert (Q : (v - hc) / ha <= 3) by (apply Rmult_le_reg_r with ha; [unfold ha; lra|]; replace ((v - hc) / ha * ha) with (v - hc) by (unfold ha; field); unfold ha, hc; lra).
  assert (P : power e' ((v - hc) / ha) <= e' ^ 3).
  { rewrite <- power_whole by (unfold e'; lra). replace (INR 3) with 3 by (simpl; lra). rewrite !power_pos by (unfold e'; lra). apply Rle_Rpower; [unfold e'; lra|exact Q]. }
  assert (e' ^ 3 <= 201 / 10) by (unfold e'; simpl; lra). unfold hb. lra.
Qed.

(** Two of the channels *)
Definition alike (p q : option Z) : Prop := exists a b, p = Some a /\ q = Some b /\ (- 1 <= a - b <= 1)%Z.

Theorem C68_ictcp_hlg : forall sp sl b m src sps dst dps i,
  converts (libm_of sp sl) b m src sps dst dps -> bytes_ok m ->
  sampling_of (im_format src) <> SRGB -> sample_bytes (im_format src) = 1%nat -> sampling_of (im_format dst) = SRGB ->
  im_color src = CYUV i -> yc_space i = SpICtCpHLG -> yc_full_range i = false -> yc_transfer i <> TBT2100PQ ->
  same_light (im_color src) (im_color dst) = true ->
  forall x y l, in_image dst x y -> neutral_pixel m src sps x y l ->
  platform_pow sp sl (column_backend b (im_width dst) x) ->
  forall c c', In c comps -> In c' comps ->
  alike (stored (libm_of sp sl) b m src dst dps c x y) (stored (libm_of sp sl) b m src dst dps c' x y).
Proof.
  intros sp sl b m src sps dst dps i CVT BY FS S1 FD CI S FR TS SL x y l HI NP PL c c' HC HC'.
  destruct (neutral_light _ _ _ _ _ _ _ _ CVT BY FS S1 FD CI (or_introl S) FR SL c x y l HC HI NP) as (LB & ST).
  destruct (neutral_light _ _ _ _ _ _ _ _ CVT BY FS S1 FD CI (or_introl S) FR SL c' x y l HC' HI NP) as (_ & ST'). cbv zeta in ST, ST'.
  set (cb := column_backend b (im_width dst) x) in *. rewrite ST, ST'. clear ST ST'.
  pose proof (accurate_lane sp sl cb PL) as A. assert (PN : pow_negative (l_pow (lane_of (libm_of sp sl) cb))) by (apply lane_negative; intros E; apply PL, E).
  rewrite CI, S in *. cbn [ci_transfer ci_primaries cone_curve] in *.
  assert (LR : 0 <= IZR l <= 255) by (split; apply IZR_le; lia).
  destruct (hlg_dec_far sp sl cb (neutral_y l) ((IZR l - 16) / 219) A ltac:(eapply approx_le; [apply neutral_y_acc, LB|unfold u7; lra]) ltac:(lra)) as ((N & E) & H0).
  pose proof (hlg_decode_top (Rmax 0 ((IZR l - 16) / 219)) ltac:(split; [apply Rmax_l|apply Rmax_lub; lra])) as HT.
  set (L := lane_of (libm_of sp sl) cb) in *. set (d := eotf L TBT2100HLG (neutral_y l)) in *. set (v := hlg_decode _) in *. clearbody v. apply Rabs_le_inv in E.
  assert (DB : Rabs (fval d) <= 171 / 100) by (apply Rabs_le; lra).
  pose proof (cones_acc (yc_primaries i) d N ltac:(lra)) as GA.
  assert (Q : forall c, In c comps -> exists X, Rabs (X - fval d) <= 196 / 1000000 * Rabs (fval d) + 10001 / 1000000000000 /\
    stored_for cb (255 * (56 / 10000000)) (clamp 255 (255 * encoded (yc_transfer i) (Rmax 0 X)))
      (quantise (quant_of cb) (im_format dst) (oetf L (yc_transfer i) (component_of c (from_xyz (yc_primaries i) (from_lms (d, d, d))))))).
  { intros c0 H. assert (Q : approx (component_of c0 (from_xyz (yc_primaries i) (from_lms (d, d, d)))) (fval d) (196 / 1000000 * Rabs (fval d) + 1 / 1000000000000)).
    { destruct (from_xyz (yc_primaries i) (from_lms (d, d, d))) as ((q1, q2), q3). destruct GA as (G1 & G2 & G3). cbn [In comps] in H.
      destruct H as [<- |[<- |[<- |[]]]]; assumption. }
    destruct Q as (NQ & AQ). apply Rabs_le_inv in AQ. pose proof DB as DB'. apply Rabs_le_inv in DB'.
    destruct (encode_store L cb (im_format dst) (yc_transfer i) _ A PN TS FD NQ) as (X & EX & STO & ZB).
    { apply Rabs_le. pose proof (Rabs_pos (fval d)). lra. }
    exists X. split; [|exact STO]. apply Rabs_le_inv in EX. apply Rabs_le. lra. }
  destruct (Q c HC) as (X & EX & SX). destruct (Q c' HC') as (X' & EX' & SX').
  eexists; eexists. split; [reflexivity|]. split; [reflexivity|].
  eapply stored_near; [|apply clamp_near|exact SX|exact SX']; [lra|lra|].
  clear - TS DB EX EX'.
  assert (H : forall x1 x2, Rabs (x1 - fval d) <= 196 / 1000000 * Rabs (fval d) + 10001 / 1000000000000 -> Rabs (x2 - fval d) <= 196 / 1000000 * Rabs (fval d) + 10001 / 1000000000000 ->
    x1 <= x2 -> Rabs (255 * encoded (yc_transfer i) (Rmax 0 x1) - 255 * encoded (yc_transfer i) (Rmax 0 x2)) <= 9 / 10).
  { intros x1 x2 E1 E2 O. apply Rabs_le_inv in E1. apply Rabs_le_inv in E2. set (D := fval d) in *.
    assert (AD : (0 <= D /\ Rabs D = D) \/ (D < 0 /\ Rabs D = - D)) by (unfold Rabs; destruct (Rcase_abs D); [right|left]; split; lra).
    assert (C : - (1 / 1000000) <= encoded (yc_transfer i) (Rmax 0 x2) - encoded (yc_transfer i) (Rmax 0 x1) <= 35 / 10000).
    { apply encoded_near; [exact TS| | |].
      - split; [apply Rmax_l|]. apply Rle_max_compat_l, O.
      - apply Rmax_lub; destruct AD as [(? & AD)|(? & AD)]; rewrite AD in *; lra.
      - unfold Rmax. destruct AD as [(? & AD)|(? & AD)]; rewrite AD in *; destruct (Rle_dec 0 x1), (Rle_dec 0 x2); lra. }
    apply Rabs_le. lra. }
  destruct (Rle_dec X X') as [O|O]; [apply H; assumption|]. rewrite Rabs_minus_sym. apply H; try assumption. lra.
Qed.
Print Assumptions C68_ictcp_hlg.

Theorem C68_ictcp_pq : forall sp sl b m src sps dst dps i,
  converts (libm_of sp sl) b m src sps dst dps -> bytes_ok m ->
  sampling_of (im_format src) <> SRGB -> sample_bytes (im_format src) = 1%nat -> sampling_of (im_format dst) = SRGB ->
  im_color src = CYUV i -> yc_space i = SpICtCpPQ -> yc_full_range i = false -> yc_transfer i = TBT2100PQ ->
  same_light (im_color src) (im_color dst) = true ->
  forall x y l, in_image dst x y -> neutral_pixel m src sps x y l -> (l <= 235)%Z ->
  platform_pow sp sl (column_backend b (im_width dst) x) ->
  forall c c', In c comps -> In c' comps ->
  alike (stored (libm_of sp sl) b m src dst dps c x y) (stored (libm_of sp sl) b m src dst dps c' x y).
Proof.
  intros sp sl b m src sps dst dps i CVT BY FS S1 FD CI S FR TS SL x y l HI NP L235 PL c c' HC HC'.
  destruct (neutral_light _ _ _ _ _ _ _ _ CVT BY FS S1 FD CI (or_intror S) FR SL c x y l HC HI NP) as (LB & ST).
  destruct (neutral_light _ _ _ _ _ _ _ _ CVT BY FS S1 FD CI (or_intror S) FR SL c' x y l HC' HI NP) as (_ & ST'). cbv zeta in ST, ST'.
  set (cb := column_backend b (im_width dst) x) in *. rewrite ST, ST'. clear ST ST'.
  pose proof (accurate_lane sp sl cb PL) as A.
  rewrite CI, S in *. cbn [ci_transfer ci_primaries cone_curve] in *. rewrite TS in *.
  assert (LR : 0 <= IZR l <= 235) by (split; apply IZR_le; lia).
  destruct (pq_dec_color (lane_of (libm_of sp sl) cb) (neutral_y l) ((IZR l - 16) / 219) A ltac:(eapply approx_le; [apply neutral_y_acc, LB|unfold u7; lra]) ltac:(lra)) as ((N & E) & H0).
  set (L := lane_of (libm_of sp sl) cb) in *. set (d := eotf L TBT2100PQ (neutral_y l)) in *. set (v := pq_decode _) in *. clearbody v. apply Rabs_le_inv in E.
  assert (DB : Rabs (fval d) <= 10050) by (apply Rabs_le; lra).
  pose proof (cones_acc (yc_primaries i) d N ltac:(lra)) as GA.
  assert (MF : max_level (im_format dst) = 255%Z) by (destruct (im_format dst); try discriminate FD; reflexivity).
  assert (TF : top (im_format dst) = 255%Z) by (destruct (im_format dst); try discriminate FD; reflexivity).
  assert (Q : forall c, In c comps -> exists X o, Rabs (X - fval d) <= 196 / 1000000 * Rabs (fval d) + 1 / 1000000000000 /\ Rabs (o - pq_encode (Rmax 0 X)) <= 1 / 4000 /\
    stored_for cb (1 / 1000) (clamp 255 (255 * o))
      (quantise (quant_of cb) (im_format dst) (oetf L TBT2100PQ (component_of c (from_xyz (yc_primaries i) (from_lms (d, d, d))))))).
  { intros c0 H. assert (Q : approx (component_of c0 (from_xyz (yc_primaries i) (from_lms (d, d, d)))) (fval d) (196 / 1000000 * Rabs (fval d) + 1 / 1000000000000)).
    { destruct (from_xyz (yc_primaries i) (from_lms (d, d, d))) as ((q1, q2), q3). destruct GA as (G1 & G2 & G3). cbn [In comps] in H.
      destruct H as [<- |[<- |[<- |[]]]]; assumption. }
    destruct Q as (NQ & AQ). set (q := component_of c0 _) in *. clearbody q. pose proof AQ as AQ'. apply Rabs_le_inv in AQ'. pose proof DB as DB'. apply Rabs_le_inv in DB'.
    destruct (pq_enc_far L q A NQ ltac:(lra)) as ((NO & EO) & PB). rewrite Rmax_comm in EO, PB. set (o := oetf L TBT2100PQ q) in *.
    destruct (acc_store cb (im_format dst) o (fval o) 0 (exact_approx _ NO) ltac:(apply Rabs_le_inv in EO; apply Rabs_le; lra) ltac:(lra) ltac:(left; exact FD)) as (SO & _).
    rewrite MF, TF in SO. exists (fval q), (fval o). split; [exact AQ|]. split; [exact EO|].
    unfold u7 in *. destruct cb; cbn [stored_for] in *; unfold truncated, rounded in *; lra. }
  destruct (Q c HC) as (X & o & EX & EO & SX). destruct (Q c' HC') as (X' & o' & EX' & EO' & SX').
  eexists; eexists. split; [reflexivity|]. split; [reflexivity|].
  eapply stored_near; [|apply clamp_near|exact SX|exact SX']; [lra|lra|].
  clear - DB EX EX' EO EO'. apply Rabs_le_inv in EO. apply Rabs_le_inv in EO'.
  assert (H : forall x1 x2, Rabs (x1 - fval d) <= 196 / 1000000 * Rabs (fval d) + 1 / 1000000000000 -> Rabs (x2 - fval d) <= 196 / 1000000 * Rabs (fval d) + 1 / 1000000000000 ->
    x1 <= x2 -> Rabs (pq_encode (Rmax 0 x1) - pq_encode (Rmax 0 x2)) <= 4 / 10000).
  { intros x1 x2 E1 E2 O. apply Rabs_le_inv in E1. apply Rabs_le_inv in E2. set (D := fval d) in *.
    assert (AD : (0 <= D /\ Rabs D = D) \/ (D < 0 /\ Rabs D = - D)) by (unfold Rabs; destruct (Rcase_abs D); [right|left]; split; lra).
    assert (C : 0 <= pq_encode (Rmax 0 x2) - pq_encode (Rmax 0 x1) <= 1 / 10000 + 64 / 100 * (4 / 10000)).
    { apply pq_near; [lra| | |].
      - split; [apply Rmax_l|]. apply Rle_max_compat_l, O.
      - apply Rmax_lub; destruct AD as [(? & AD)|(? & AD)]; rewrite AD in *; lra.
      - unfold Rmax. destruct AD as [(? & AD)|(? & AD)]; rewrite AD in *; destruct (Rle_dec 0 x1), (Rle_dec 0 x2); lra. }
    apply Rabs_le. lra. }
  assert (HH : Rabs (pq_encode (Rmax 0 X) - pq_encode (Rmax 0 X')) <= 4 / 10000) by
    (destruct (Rle_dec X X') as [O|O]; [apply H; assumption|]; rewrite Rabs_minus_sym; apply H; try assumption; lra).
  apply Rabs_le_inv in HH. apply Rabs_le. lra.
Qed.
Print Assumptions C68_ictcp_pq.

(** The dark gray of C77's examples *)
Example C68_ictcp_example : forall b,
  converts (libm_of avx_pow avx_log) b PropIctcpDec.gray_mem gray_ictcp i444_planes srgb_2020 (ex_rgba_planes 0) /\
  converts (libm_of avx_pow avx_log) b PropIctcpDec.gray_mem gray_ictcp_pq i444_planes pq_2020 (ex_rgba_planes 0) /\
  bytes_ok PropIctcpDec.gray_mem /\
  neutral_pixel PropIctcpDec.gray_mem gray_ictcp i444_planes 1 1 100 /\ neutral_pixel PropIctcpDec.gray_mem gray_ictcp_pq i444_planes 1 1 100 /\
  map (fun c => stored (libm_of avx_pow avx_log) b PropIctcpDec.gray_mem gray_ictcp srgb_2020 (ex_rgba_planes 0) c 1 1) [CR; CG; CB] = [Some 62; Some 62; Some 62]%Z.
Proof.
  intros b. destruct (C77_example b) as (C1 & _ & _ & _ & _ & _ & _ & _ & V). destruct (C77_pq_example b) as (C2 & _).
  split; [exact C1|]. split; [exact C2|]. split; [intros b' j; unfold PropIctcpDec.gray_mem; destruct (j <? 4)%nat; lia|].
  split; [repeat split; reflexivity|]. split; [repeat split; reflexivity|]. exact V.
Qed.
