(** C82: gray pixels are stored with neutral chroma. *)

From Coq Require Import List ZArith Bool Arith Reals Lia Lra Psatz.
From Coq Require Import Floats.SpecFloat.
From Flocq Require Import Core.
From Verif Require Import Base Types Planes ImageM F32 Vector Simd SpecVector SimdProofs QuantProofs SpecGeom GeomProofs
  SpecColor SpecConvert SpecRun Formats Visit Convert VisitProofs ColorProofs ConvertProofs ExactProofs PropConvert PropFidelity
  SpecReal FloatProofs AccProofs TargetProofs PropColor ColorR SpecTransfer PowerProofs MathProofs SpecMath LaneProofs TransferProofs
  Math NegProofs RecolorProofs PropRecolor GamutProofs PropGamut GrayProofs PropGray PropDrift PropBT2020 PropOut PropToPQ IctcpProofs
  WideProofs PropWide PqProofs PropFromPQ PqEncProofs PropPQ HlgProofs PropNeutral PropIctcpAcc PropIctcpDec PropIctcpPq PropIctcpPqDec PropIctcpGray.
From Verif Require SpecIctcp PropIctcp.
Import SpecIctcp (ictcp_hlg, ictcp_pq, ictcp_curve, ictcp_matrix).
Import PropIctcp (is_bt2100).
Import ListNotations.
Local Open Scope R_scope.

(** All the pixels that share the chroma of (x, y) are gray, not necessarily
    the same gray *)
Definition gray_block (m : mem) (src : image) (sps : list (slice * nat)) (dst : image) (x y : nat) : Prop :=
  forall p, In p (chroma_block (sampling_of (im_format dst)) x y) -> exists z, gray m src sps (fst p) (snd p) z.

(** * Matrices *)

Lemma mean_ext : forall s q q' x y, (forall p, In p (chroma_block s x y) -> q (fst p) (snd p) = q' (fst p) (snd p)) -> chroma_mean s q x y = chroma_mean s q' x y.
Proof. intros s q q' x y H. unfold chroma_mean. f_equal. apply map_ext_in. exact H. Qed.

Theorem C82_gray_to_yuv : forall lm b m src sps dst dps i k,
  converts lm b m src sps dst dps -> bytes_ok m ->
  sampling_of (im_format src) = SRGB -> sampling_of (im_format dst) <> SRGB ->
  im_color dst = CYUV i -> weights_of (yc_space i) = Some k -> yc_space i <> SpBT2020 ->
  same_light (im_color src) (im_color dst) = true ->
  let M := IZR (max_level (im_format dst)) in
  forall c x y, c = CU \/ c = CV -> in_image dst x y -> gray_block m src sps dst x y ->
  exists z, stored lm b m src dst dps c x y = Some z /\
    stored_for (column_backend b (im_width dst) x) (M / 80000) (c_level (yc_full_range i) M 0) z.
Proof.
  intros lm b m src sps dst dps i k CVT B FS FD CI WK N20 SL M c x y HC HI G.
  assert (HD : has_comp (im_format dst) c = true) by (unfold has_comp; destruct HC as [-> | ->], (sampling_of (im_format dst)); congruence).
  destruct (C48_rgb_to_yuv_accuracy lm b m src sps dst dps i k CVT B FS FD CI WK N20 SL c x y HD HI) as (z & ST & SF & _).
  exists z. split; [exact ST|]. cbv zeta in SF. fold M in SF. unfold ideal_level in SF.
  set (s := fun c x y => level m (im_format src) sps c x y / 255) in SF. fold (s CR) (s CG) (s CB) in SF.
  assert (E1 : chroma_mean (sampling_of (im_format dst)) (s CG) x y = chroma_mean (sampling_of (im_format dst)) (s CR) x y).
  { apply mean_ext. intros p P. destruct (G p P) as (v & G1 & G2 & G3). unfold s. rewrite (level_given _ _ _ _ _ _ _ G1), (level_given _ _ _ _ _ _ _ G2). reflexivity. }
  assert (E2 : chroma_mean (sampling_of (im_format dst)) (s CB) x y = chroma_mean (sampling_of (im_format dst)) (s CR) x y).
  { apply mean_ext. intros p P. destruct (G p P) as (v & G1 & G2 & G3). unfold s. rewrite (level_given _ _ _ _ _ _ _ G1), (level_given _ _ _ _ _ _ _ G3). reflexivity. }
  change (fun x y => level m (im_format src) sps CR x y / 255) with (s CR) in SF. change (fun x y => level m (im_format src) sps CG x y / 255) with (s CG) in SF.
  change (fun x y => level m (im_format src) sps CB x y / 255) with (s CB) in SF. rewrite E1, E2 in SF.
  set (v := chroma_mean _ (s CR) x y) in SF. clearbody v.
  assert (KK : k = bt601 \/ k = bt709) by (destruct (matrix_known _ _ WK N20) as [(_ & ->)|(_ & ->)]; auto).
  assert (Z : cb k v v v = 0 /\ cr k v v v = 0).
  { unfold cb, cr, luma, w_g. destruct KK as [-> | ->]; cbn [w_r w_b bt601 bt709]; split; field. }
  destruct Z as (Z1 & Z2). rewrite Z1, Z2 in SF. destruct HC as [-> | ->]; exact SF.
Qed.
Print Assumptions C82_gray_to_yuv.

(** * ICtCp *)

Lemma to_lms_scale : forall v w e M, approx3 v w e -> within3 w M -> 0 <= M <= 12000 -> 0 <= e <= M / 1000 + 1 / 1000000000 ->
  approx3 (to_lms v) (to_lms w) (14 / 10 * e + 8 / 10000000 * M + 1 / 10000000000000).
Proof.
  intros ((a, b), c) ((x, y), z) e M (HA & HB & HC) (AX & AY & AZ) MB E. cbn [to_lms approx3]; (split; [|split]); row_scale E.
Qed.

Lemma white_cones : forall p d, near3 (to_lms (to_xyz p (d, d, d))) (d, d, d) (5 / 100000 * Rabs d).
Proof.
  intros p d. assert (AD : Rabs d = d \/ Rabs d = - d) by (unfold Rabs; destruct (Rcase_abs d); auto). pose proof (Rabs_pos d) as PD.
  destruct p; cbn [to_lms to_xyz near3]; (split; [|split]); unfold dot; cbn [fadd fmul flit R_ops]; lits; apply Rabs_le; destruct AD as [AD|AD]; rewrite AD in *; lra.
Qed.

Lemma white_acc : forall p d, is_num d -> Rabs (fval d) <= 10010 ->
  approx3 (to_lms (to_xyz p (d, d, d))) (fval d, fval d, fval d) (53 / 1000000 * Rabs (fval d) + 1 / 1000000000000).
Proof.
  intros p d N B. pose proof (Rabs_pos (fval d)) as P.
  destruct (to_xyz_scale p (d, d, d) (fval d, fval d, fval d) (Rabs (fval d)) ltac:(repeat split; try apply N; apply exact_approx, N) ltac:(repeat split; lra) ltac:(lra)) as (X3 & W).
  pose proof (to_lms_scale _ _ _ _ X3 W ltac:(lra) ltac:(lra)) as F3. pose proof (white_cones p (fval d)) as G.
  destruct (to_lms (to_xyz p (d, d, d))) as ((q1, q2), q3). destruct (to_lms (to_xyz p (fval d, fval d, fval d))) as ((p1, p2), p3).
  destruct F3 as (H1 & H2 & H3). destruct G as (G1 & G2 & G3). split; [|split]; (eapply approx_weaken; [eassumption|]); lra.
Qed.

(** HLG codes of light that is nearly equal *)
Lemma hlg_near : forall r a b, 0 <= r <= 1 / 1000 -> 0 <= a <= b -> b - a <= r * a + 3 / 1000000000000 ->
  - (1 / 1000000) <= hlg_encode b - hlg_encode a <= r / 2 + 1 / 100000.
Proof.
  intros r a b R A D. pose proof hlg_threshold as HT.
  assert (SQ : forall u v, 0 <= u <= v -> v - u <= r * u + 3 / 1000000000000 -> u <= 1 / 12 -> 0 <= sqrt (3 * v) - sqrt (3 * u) <= r / 4 + 4 / 1000000).
  { intros u v U V W. assert (M : sqrt (3 * u) <= sqrt (3 * v)) by (apply sqrt_le_1; lra). split; [lra|].
    pose proof (sqrt_pos (3 * u)) as P1. pose proof (sqrt_pos (3 * v)) as P2.
    pose proof (sqrt_sqrt (3 * u) ltac:(lra)) as S1. pose proof (sqrt_sqrt (3 * v) ltac:(lra)) as S2.
    set (p := sqrt (3 * u)) in *. set (q := sqrt (3 * v)) in *.
    assert (PH : p <= 1 / 2) by (apply Rnot_lt_le; intros PP; nra).
    destruct (Rle_dec (q - p) (r / 4 + 4 / 1000000)) as [|C]; [lra|exfalso].
    assert (C1 : 4 / 1000000 * (4 / 1000000) < (q - p) * (q - p)) by (apply Rmult_le_0_lt_compat; lra).
    assert (C2 : 2 * p * (r / 4) <= 2 * p * (q - p)) by (apply Rmult_le_compat_l; lra).
    assert (C3 : r * (p * p) <= r * (p * (1 / 2))) by (apply Rmult_le_compat_l; [lra|]; apply Rmult_le_compat_l; lra).
    assert (C4 : q * q - p * p <= r * (p * p) + 9 / 1000000000000) by (rewrite S1, S2; lra).
    assert (C5 : q * q - p * p = (q - p) * (q - p) + 2 * p * (q - p)) by ring. lra. }
  assert (LN : forall u v, 1 / 12 <= u <= v -> v - u <= r * u + 3 / 1000000000000 -> 0 <= (ha * ln (12 * v - hb) + hc) - (ha * ln (12 * u - hb) + hc) <= 252 / 1000 * r + 1 / 1000000).
  { intros u v U V. assert (M : ln (12 * u - hb) <= ln (12 * v - hb)) by (apply TransferProofs.ln_le; unfold hb; lra).
    pose proof (ln_lip (12 * v - hb) (12 * u - hb) (12 * u - hb) ltac:(unfold hb; lra) ltac:(lra) ltac:(lra)) as H.
    replace (12 * v - hb - (12 * u - hb)) with (12 * (v - u)) in H by ring. rewrite !Rabs_pos_eq in H by lra.
    assert (Q : 12 * (v - u) / (12 * u - hb) <= 14 / 10 * (r + 36 / 1000000000000)).
    { apply Rmult_le_reg_r with (12 * u - hb); [unfold hb; lra|]. replace (12 * (v - u) / (12 * u - hb) * (12 * u - hb)) with (12 * (v - u)) by (field; unfold hb; lra).
      assert (12 * u <= 14 / 10 * (12 * u - hb)) by (unfold hb; lra).
      assert ((r + 36 / 1000000000000) * (12 * u) <= (r + 36 / 1000000000000) * (14 / 10 * (12 * u - hb))) by (apply Rmult_le_compat_l; lra). nra. }
    set (l1 := ln (12 * v - hb)) in *. set (l2 := ln (12 * u - hb)) in *. unfold ha. lra. }
  unfold hlg_encode. destruct (Rle_dec a _) as [HA|HA], (Rle_dec b _) as [HB|HB]; try lra.
  - pose proof (SQ a b A D HA). lra.
  - pose proof (SQ a (1 / 12) ltac:(lra) ltac:(lra) HA) as H1. pose proof (LN (1 / 12) b ltac:(lra) ltac:(nra)) as H2.
    replace (sqrt (3 * (1 / 12))) with (1 / 2) in H1 by (replace (3 * (1 / 12)) with (1 / 2 * (1 / 2)) by field; symmetry; apply sqrt_square; lra).
    replace (12 * (1 / 12)) with 1 in H2 by field. lra.
  - pose proof (LN a b ltac:(lra) D). lra.
Qed.

(** How far from 0 the chroma of gray is, of full scale *)
Definition neutral_error (s : color_space) : R := match s with SpICtCpPQ => 1 / 325 | _ => 1 / 5000 end.

Lemma gray_pixel : forall L s t p g, accurate L -> is_bt2100 s -> is_num (eotf L t g) ->
  Rabs (fval (eotf L t g)) <= match s with SpICtCpPQ => 10010 | _ => 121 / 100 end ->
  let v := rgb_yuv L s t p (g, g, g) in
  approx (snd3 v) 0 (neutral_error s - 100 * u7) /\ approx (thd3 v) 0 (neutral_error s - 100 * u7).
Proof.
  intros L s t p g A S N B v. set (d := eotf L t g) in *.
  assert (RY : v = let '(l, m, n) := map3 (oetf L (PropIctcp.curve_of s)) (to_lms (to_xyz p (d, d, d))) in
    match s with
    | SpICtCpPQ => (l * flit 5 1 + m * flit 5 1,
         dot (flit 6610 0) (flit (-13613) 0) (flit 7003 0) l m n / flit 4096 0,
         dot (flit 17933 0) (flit (-17390) 0) (flit (-543) 0) l m n / flit 4096 0)%F
    | _ => ((l + m) * flit 5 1,
         l * flit 88500977 8 - m * flit 18225098 7 + n * flit 9375 4,
         l * flit 2319336 6 - m * flit 22490234 7 - n * flit 703125 7)%F
    end) by (destruct S as [-> | ->]; reflexivity).
  rewrite RY. clear RY v.
  pose proof (white_acc p d N ltac:(destruct S as [-> | ->]; lra)) as W.
  destruct (to_lms (to_xyz p (d, d, d))) as [[l m] n]. destruct W as ((NL & W1) & (NM & W2) & (NN & W3)).
  set (D := fval d) in *. cbn [map3].
  assert (AD : (0 <= D /\ Rabs D = D) \/ (D < 0 /\ Rabs D = - D)) by (unfold Rabs; destruct (Rcase_abs D); [right|left]; split; lra).
  assert (CL : forall (f : R -> R) k, (forall a b, 0 <= a <= b -> b <= 18000 -> b - a <= 11 / 100000 * a + 3 / 1000000000000 -> - (1 / 1000000) <= f b - f a <= k) -> 1 / 1000000 <= k ->
    forall x1 x2, Rabs (x1 - D) <= 53 / 1000000 * Rabs D + 1 / 1000000000000 -> Rabs (x2 - D) <= 53 / 1000000 * Rabs D + 1 / 1000000000000 -> Rabs D <= 10010 ->
    Rabs (f (Rmax x1 0) - f (Rmax x2 0)) <= k).
  { intros f k F K. assert (O : forall x1 x2, Rabs (x1 - D) <= 53 / 1000000 * Rabs D + 1 / 1000000000000 -> Rabs (x2 - D) <= 53 / 1000000 * Rabs D + 1 / 1000000000000 -> Rabs D <= 10010 ->
      x1 <= x2 -> Rabs (f (Rmax x1 0) - f (Rmax x2 0)) <= k).
    { intros x1 x2 E1 E2 BD O. apply Rabs_le_inv in E1. apply Rabs_le_inv in E2.
      assert (C : - (1 / 1000000) <= f (Rmax x2 0) - f (Rmax x1 0) <= k); [|apply Rabs_le; lra]. clear K. apply F.
      - split; [apply Rmax_r|]. apply Rle_max_compat_r, O.
      - apply Rmax_lub; destruct AD as [(? & AD)|(? & AD)]; rewrite AD in *; lra.
      - unfold Rmax. destruct AD as [(? & AD)|(? & AD)]; rewrite AD in *; destruct (Rle_dec x1 0), (Rle_dec x2 0); lra. }
    intros x1 x2 E1 E2 BD. destruct (Rle_dec x1 x2) as [C|C]; [apply O; assumption|]. rewrite Rabs_minus_sym. apply O; try assumption. lra. }
  destruct S as [-> | ->]; cbn [PropIctcp.curve_of neutral_error].
  - assert (UP : forall q, Rabs (q - D) <= 53 / 1000000 * Rabs D + 1 / 1000000000000 -> q <= 18000) by (intros q H; apply Rabs_le_inv in H; destruct AD as [(? & AD)|(? & AD)]; rewrite AD in *; lra).
    destruct (pq_enc_far L l A NL (UP _ W1)) as (E1 & B1). destruct (pq_enc_far L m A NM (UP _ W2)) as (E2 & B2). destruct (pq_enc_far L n A NN (UP _ W3)) as (E3 & B3).
    pose proof (mix_pq _ _ _ _ _ _ B1 B2 B3 E1 E2 E3) as M. cbv zeta in M. unfold ictcp_pq in M. destruct M as ((_ & M2 & M3) & _).
    assert (F : forall a b, 0 <= a <= b -> b <= 18000 -> b - a <= 11 / 100000 * a + 3 / 1000000000000 -> - (1 / 1000000) <= pq_encode b - pq_encode a <= 1 / 10000 + 64 / 100 * (11 / 100000)).
    { intros a b H1 H2 H3. pose proof (pq_near (11 / 100000) a b ltac:(lra) H1 H2 H3). lra. }
    pose proof (CL pq_encode _ F ltac:(lra) _ _ W1 W2 B) as C1. pose proof (CL pq_encode _ F ltac:(lra) _ _ W3 W2 B) as C2.
    pose proof (CL pq_encode _ F ltac:(lra) _ _ W1 W3 B) as C3.
    apply Rabs_le_inv in C1. apply Rabs_le_inv in C2. apply Rabs_le_inv in C3.
    unfold snd3, thd3. cbn [fst snd]. clear - M2 M3 C1 C2 C3. set (a := pq_encode _) in *. set (b := pq_encode (Rmax (fval m) 0)) in *. set (c := pq_encode (Rmax (fval n) 0)) in *. clearbody a b c.
    cbn [mix_error] in M2, M3.
    split; (eapply approx_weaken; [eassumption|]); unfold u7.
    + match goal with |- context [Rabs ?e] => assert (Rabs e <= 81 / 100000) by (apply Rabs_le; lra) end. lra.
    + match goal with |- context [Rabs ?e] => assert (Rabs e <= 81 / 100000) by (apply Rabs_le; lra) end. lra.
  - assert (B' : Rabs D <= 10010) by lra.
    assert (UP : forall q, Rabs (q - D) <= 53 / 1000000 * Rabs D + 1 / 1000000000000 -> q <= 13 / 10) by (intros q H; apply Rabs_le_inv in H; destruct AD as [(? & AD)|(? & AD)]; rewrite AD in *; lra).
    assert (K : forall a, is_num a -> fval a <= 13 / 10 -> approx (oetf L TBT2100HLG a) (hlg_encode (Rmax (fval a) 0)) (5 / 1000000) /\ 0 <= hlg_encode (Rmax (fval a) 0) <= 116 / 100).
    { intros a NA BA. split; [apply hlg_enc_max; auto; lra|]. apply (curve_bound SpICtCpHLG); [right; reflexivity|]. split; [apply Rmax_r|apply Rmax_lub; lra]. }
    destruct (K l NL (UP _ W1)) as (E1 & B1). destruct (K m NM (UP _ W2)) as (E2 & B2). destruct (K n NN (UP _ W3)) as (E3 & B3).
    pose proof (mix_acc SpICtCpHLG _ _ _ _ _ _ ltac:(right; reflexivity) B1 B2 B3 E1 E2 E3) as M. cbv zeta in M. cbn [ictcp_matrix] in M. unfold ictcp_hlg in M. destruct M as ((_ & M2 & M3) & _).
    assert (F : forall a b, 0 <= a <= b -> b <= 18000 -> b - a <= 11 / 100000 * a + 3 / 1000000000000 -> - (1 / 1000000) <= hlg_encode b - hlg_encode a <= 11 / 100000 / 2 + 1 / 100000).
    { intros a b H1 H2 H3. pose proof (hlg_near (11 / 100000) a b ltac:(lra) H1 H3). lra. }
    pose proof (CL hlg_encode _ F ltac:(lra) _ _ W1 W2 B') as C1. pose proof (CL hlg_encode _ F ltac:(lra) _ _ W3 W2 B') as C2.
    pose proof (CL hlg_encode _ F ltac:(lra) _ _ W1 W3 B') as C3.
    apply Rabs_le_inv in C1. apply Rabs_le_inv in C2. apply Rabs_le_inv in C3.
    unfold snd3, thd3. cbn [fst snd]. clear - M2 M3 C1 C2 C3. set (a := hlg_encode _) in *. set (b := hlg_encode (Rmax (fval m) 0)) in *. set (c := hlg_encode (Rmax (fval n) 0)) in *. clearbody a b c.
    cbn [mix_error] in M2, M3.
    split; (eapply approx_weaken; [eassumption|]); unfold u7.
    + match goal with |- context [Rabs ?e] => assert (Rabs e <= 16 / 100000) by (apply Rabs_le; lra) end. lra.
    + match goal with |- context [Rabs ?e] => assert (Rabs e <= 16 / 100000) by (apply Rabs_le; lra) end. lra.
Qed.

Lemma gray_light_bound : forall L s t z, accurate L -> (0 <= z <= 255)%Z -> s = SpICtCpPQ \/ (s = SpICtCpHLG /\ t <> TBT2100PQ) ->
  let d := eotf L t (fdiv (f32_of_Z z) (f32_of_Z 255)) in
  is_num d /\ Rabs (fval d) <= match s with SpICtCpPQ => 10010 | _ => 121 / 100 end.
Proof.
  intros L s t z A Z ST d. assert (TD : t = TBT2100PQ \/ t <> TBT2100PQ) by (destruct t; auto; right; discriminate).
  destruct (level_num z Z) as (NX & BX & EX).
  destruct TD as [TD|TD].
  - destruct ST as [-> |(-> & H)]; [|congruence]. unfold d. rewrite TD. set (x := fdiv (f32_of_Z z) (f32_of_Z 255)) in *.
    destruct (pq_dec_rel L x A NX ltac:(lra)) as ((N & E) & P). split; [exact N|].
    assert (P1 : pq_decode (fval x) <= 10000).
    { pose proof (pq_decode_mono (fval x) 1 ltac:(lra) ltac:(lra)) as H. destruct (pq_dec_color L (f32_lit 1 0) 1 A) as (_ & H'); [|lra|lra].
      assert (C1 : approx (f32_lit 1 0) 1 0) by const_approx. eapply approx_le; [exact C1|lra]. }
    apply Rabs_le_inv in E. apply Rabs_le. lra.
  - destruct (decode_level L t z A TD Z) as (N & E). fold d in N, E. split; [exact N|].
    pose proof (decoded_unit t (IZR z / 255) TD) as U. assert (ZB : 0 <= IZR z <= 255) by (split; apply IZR_le; lia). specialize (U ltac:(lra)).
    apply Rabs_le_inv in E. apply Rabs_le. destruct ST as [-> |(-> & _)]; lra.
Qed.

Theorem C82_gray_to_ictcp_partial : forall sp sl b m src sps dst dps i,
  converts (libm_of sp sl) b m src sps dst dps -> bytes_ok m ->
  sampling_of (im_format src) = SRGB -> sampling_of (im_format dst) <> SRGB -> sampling_of (im_format dst) <> S420 ->
  im_color dst = CYUV i ->
  yc_space i = SpICtCpPQ \/ (yc_space i = SpICtCpHLG /\ yc_transfer i <> TBT2100PQ) ->
  same_light (im_color src) (im_color dst) = true ->
  let M := IZR (max_level (im_format dst)) in
  forall c x y, c = CU \/ c = CV -> in_image dst x y -> gray_block m src sps dst x y ->
  let cb := column_backend b (im_width dst) x in
  platform_pow sp sl cb ->
  exists z, stored (libm_of sp sl) b m src dst dps c x y = Some z /\
    stored_for cb (M * neutral_error (yc_space i)) (c_level (yc_full_range i) M 0) z.
Proof.
  intros sp sl b m src sps dst dps i CVT B FS FD N420 CI S SL M c x y HC HI G cb PL.
  pose proof (accurate_lane sp sl cb PL) as A. set (L := lane_of (libm_of sp sl) cb) in *.
  assert (SK : same_image_kind src dst = false).
  { unfold same_image_kind. apply andb_false_iff; left. destruct (im_format src), (im_format dst); try reflexivity; cbn in FS, FD; congruence. }
  assert (TP : ci_transfer (im_color dst) = ci_transfer (im_color src) /\ ci_primaries (im_color dst) = ci_primaries (im_color src)).
  { unfold same_light in SL. destruct (ci_transfer (im_color src)), (ci_transfer (im_color dst)); try discriminate SL;
      destruct (ci_primaries (im_color src)), (ci_primaries (im_color dst)); try discriminate SL; auto. }
  destruct TP as (TE & PE). rewrite CI in TE, PE. cbn [ci_transfer ci_primaries] in TE, PE.
  assert (HD : has_comp (im_format dst) c = true) by (unfold has_comp; destruct HC as [-> | ->], (sampling_of (im_format dst)); congruence).
  assert (ICT : ictcp_chroma420 (im_format dst) (im_color dst) c = false).
  { unfold ictcp_chroma420. destruct (sampling_of (im_format dst)) eqn:ES; try (destruct (im_color dst), c; reflexivity). congruence. }
  rewrite (stored_expected _ _ _ _ _ _ _ CVT c x y HD HI ICT). fold cb L. eexists; split; [reflexivity|].
  unfold expected_value. rewrite SK, CI.
  assert (MS : max_level (im_format src) = 255%Z) by (destruct (im_format src); try discriminate FS; reflexivity).
  set (q := fun x y => fst (source_pixel L m (im_format src) (im_color src) sps x y)).
  assert (PIX : forall x y, fst (recolored L (im_color src) (CYUV i) (source_pixel L m (im_format src) (im_color src) sps x y)) = q x y).
  { intros. unfold recolored. rewrite <- CI, SL. reflexivity. }
  assert (S2 : is_bt2100 (yc_space i)) by (unfold is_bt2100; tauto).
  set (e := neutral_error (yc_space i) - 100 * u7).
  assert (EB : 0 <= e <= 1 / 300) by (unfold e, u7; destruct S2 as [-> | ->]; cbn [neutral_error]; lra).
  assert (PX : forall p, In p (chroma_block (sampling_of (im_format dst)) x y) ->
    let v := rgb_yuv L (yc_space i) (yc_transfer i) (yc_primaries i) (q (fst p) (snd p)) in approx (snd3 v) 0 e /\ approx (thd3 v) 0 e).
  { intros p P. destruct (G p P) as (z & GZ). pose proof (gray_level m src sps _ _ z B FS GZ) as ZB. destruct GZ as (G1 & G2 & G3).
    assert (EQ : q (fst p) (snd p) = (fdiv (f32_of_Z z) (f32_of_Z 255), fdiv (f32_of_Z z) (f32_of_Z 255), fdiv (f32_of_Z z) (f32_of_Z 255))).
    { unfold q, source_pixel. rewrite FS. unfold norm. unfold given in G1, G2, G3. rewrite G1, G2, G3, MS. reflexivity. }
    destruct (gray_light_bound L (yc_space i) (yc_transfer i) z A ZB S) as (N & BD).
    rewrite EQ. exact (gray_pixel L (yc_space i) (yc_transfer i) (yc_primaries i) _ A S2 N BD). }
  assert (MN : forall sel : f32 * f32 * f32 -> f32,
    (forall p, In p (chroma_block (sampling_of (im_format dst)) x y) -> approx (sel (rgb_yuv L (yc_space i) (yc_transfer i) (yc_primaries i) (q (fst p) (snd p)))) 0 e) ->
    let u := match sampling_of (im_format dst) with
        | S420 => sel (rgb_yuv L (yc_space i) (yc_transfer i) (yc_primaries i) (mean4 (q (2 * (x / 2)) (2 * (y / 2))) (q (2 * (x / 2)) (2 * (y / 2) + 1)) (q (2 * (x / 2) + 1) (2 * (y / 2))) (q (2 * (x / 2) + 1) (2 * (y / 2) + 1))))
        | S422 => fdiv (fadd (sel (rgb_yuv L (yc_space i) (yc_transfer i) (yc_primaries i) (q (2 * (x / 2)) y))) (sel (rgb_yuv L (yc_space i) (yc_transfer i) (yc_primaries i) (q (2 * (x / 2) + 1) y)))) (flit 2 0)
        | _ => sel (rgb_yuv L (yc_space i) (yc_transfer i) (yc_primaries i) (q x y))
        end%nat in
    approx u 0 (e + 30 * u7)).
  { intros sel H u. subst u. unfold chroma_block in H. destruct (sampling_of (im_format dst)); [congruence| | |congruence].
    - pose proof (H (2 * (x / 2), y)%nat ltac:(left; reflexivity)) as HA. pose proof (H (Datatypes.S (2 * (x / 2)), y)%nat ltac:(right; left; reflexivity)) as HB.
      cbn [fst snd] in HA, HB. rewrite <- (Nat.add_1_r (2 * (x / 2))) in HB. destruct HA as (NA & EA). destruct HB as (NB & EB').
      set (f1 := sel (rgb_yuv L (yc_space i) (yc_transfer i) (yc_primaries i) (q (2 * (x / 2))%nat y))) in *. set (f2 := sel (rgb_yuv L (yc_space i) (yc_transfer i) (yc_primaries i) (q (2 * (x / 2) + 1)%nat y))) in *. clearbody f1 f2.
      apply Rabs_le_inv in EA. apply Rabs_le_inv in EB'.
      eapply approx_weaken; [apply (acc_mean2 f1 f2 _ _ 0 (exact_approx _ NA) (exact_approx _ NB)); try (apply Rabs_le; lra); lra|].
      assert (Rabs ((fval f1 + fval f2) / 2 - 0) <= e) by (apply Rabs_le; lra). lra.
    - eapply approx_le; [apply (H (x, y)); left; reflexivity|]. unfold u7; lra. }
  pose proof (max_level_R (im_format dst)) as M1. fold M in M1.
  assert (TP : M <= IZR (top (im_format dst))) by (unfold M; apply IZR_le; destruct (im_format dst); cbn; lia).
  assert (CLV : 0 <= c_level (yc_full_range i) M 0 <= IZR (top (im_format dst)) /\ M / 2 <= c_level (yc_full_range i) M 0 <= M * (128 / 255)).
  { unfold c_level. destruct (yc_full_range i); lra. }
  assert (FIN : forall u, approx u 0 (e + 30 * u7) -> stored_for cb (M * neutral_error (yc_space i)) (c_level (yc_full_range i) M 0) (quantise (quant_of cb) (im_format dst) (encode_c i u))).
  { intros u U. destruct (store_level cb (im_format dst) i u 0 _ U ltac:(rewrite Rabs_R0; lra) ltac:(unfold u7; lra)) as (_ & T). fold M in T.
    assert (ME : M * (e + 30 * u7 + 33 * u7) <= M * neutral_error (yc_space i)) by (apply Rmult_le_compat_l; unfold e, u7; lra).
    assert (ML : M * (e + 30 * u7 + 33 * u7) <= M / 100) by (apply Rle_trans with (M * (1 / 100)); [apply Rmult_le_compat_l; unfold u7; lra|lra]).
    rewrite (clamp_id _ _ (proj1 CLV)) in T. eapply stored_for_weaken; [apply T|exact ME]. intros _. lra. }
  unfold target. rewrite !PIX.
  destruct HC as [-> | ->].
  - pose proof (FIN _ (MN snd3 (fun p P => proj1 (PX p P)))) as F. destruct (sampling_of (im_format dst)); try exact F; congruence.
  - pose proof (FIN _ (MN thd3 (fun p P => proj2 (PX p P)))) as F. destruct (sampling_of (im_format dst)); try exact F; congruence.
Qed.
Print Assumptions C82_gray_to_ictcp_partial.

(** In 8 bits with limited range, neutral chroma is 128 *)
Corollary C82_gray_to_yuv_8bit : forall lm b m src sps dst dps i k,
  converts lm b m src sps dst dps -> bytes_ok m ->
  sampling_of (im_format src) = SRGB -> sampling_of (im_format dst) <> SRGB -> max_level (im_format dst) = 255%Z ->
  im_color dst = CYUV i -> yc_full_range i = false -> weights_of (yc_space i) = Some k -> yc_space i <> SpBT2020 ->
  same_light (im_color src) (im_color dst) = true ->
  forall c x y, c = CU \/ c = CV -> in_image dst x y -> gray_block m src sps dst x y ->
  exists z, stored lm b m src dst dps c x y = Some z /\ (127 <= z <= 128)%Z.
Proof.
  intros lm b m src sps dst dps i k CVT B FS FD M8 CI FR WS N20 SL c x y HC HI G.
  destruct (C82_gray_to_yuv lm b m src sps dst dps i k CVT B FS FD CI WS N20 SL c x y HC HI G) as (z & E & T).
  exists z; split; [exact E|]. rewrite M8, FR in T. unfold c_level in T.
  enough (126 < IZR z < 129) as (H1 & H2) by (apply lt_IZR in H1; apply lt_IZR in H2; lia).
  unfold stored_for, truncated, rounded in T. destruct (column_backend b (im_width dst) x); try (apply Rabs_le_inv in T); lra.
Qed.
Print Assumptions C82_gray_to_yuv_8bit.

Corollary C82_gray_to_ictcp_8bit_partial : forall sp sl b m src sps dst dps i,
  converts (libm_of sp sl) b m src sps dst dps -> bytes_ok m ->
  sampling_of (im_format src) = SRGB -> sampling_of (im_format dst) <> SRGB -> sampling_of (im_format dst) <> S420 -> max_level (im_format dst) = 255%Z ->
  im_color dst = CYUV i -> yc_full_range i = false ->
  yc_space i = SpICtCpPQ \/ (yc_space i = SpICtCpHLG /\ yc_transfer i <> TBT2100PQ) ->
  same_light (im_color src) (im_color dst) = true ->
  forall c x y, c = CU \/ c = CV -> in_image dst x y -> gray_block m src sps dst x y ->
  platform_pow sp sl (column_backend b (im_width dst) x) ->
  exists z, stored (libm_of sp sl) b m src dst dps c x y = Some z /\ (127 <= z <= 129)%Z.
Proof.
  intros sp sl b m src sps dst dps i CVT B FS FD N420 M8 CI FR S SL c x y HC HI G PL.
  destruct (C82_gray_to_ictcp_partial sp sl b m src sps dst dps i CVT B FS FD N420 CI S SL c x y HC HI G PL) as (z & E & T).
  exists z; split; [exact E|]. rewrite M8, FR in T. unfold c_level in T.
  assert (NE : 0 <= neutral_error (yc_space i) <= 1 / 325) by (destruct S as [-> |(-> & _)]; cbn [neutral_error]; lra).
  enough (126 < IZR z < 130) as (H1 & H2) by (apply lt_IZR in H1; apply lt_IZR in H2; lia).
  unfold stored_for, truncated, rounded in T. destruct (column_backend b (im_width dst) x); try (apply Rabs_le_inv in T); lra.
Qed.
Print Assumptions C82_gray_to_ictcp_8bit_partial.

Definition ictcp_tv : image := ex_image I444 2 2 (CYUV (YuvCI TBT2100PQ PrBT2020 SpICtCpPQ false)) i444_planes.
Example C82_example : forall b,
  converts (libm_of avx_pow avx_log) b PropGray.white_mem pq_2020 (ex_rgba_planes 0) ictcp_tv i444_planes /\ bytes_ok PropGray.white_mem /\
  same_light (im_color pq_2020) (im_color ictcp_tv) = true /\ (forall cb, platform_pow avx_pow avx_log cb) /\
  gray_block PropGray.white_mem pq_2020 (ex_rgba_planes 0) ictcp_tv 0 1 /\ gray PropGray.white_mem pq_2020 (ex_rgba_planes 0) 0 1 255 /\
  map (fun c => stored (libm_of avx_pow avx_log) b PropGray.white_mem pq_2020 ictcp_tv i444_planes c 0 1) [CY; CU; CV] = [Some 235; Some 127; Some 127]%Z.
Proof.
  intros b.
  assert (CV : forall b, converts (libm_of avx_pow avx_log) b PropGray.white_mem pq_2020 (ex_rgba_planes 0) ictcp_tv i444_planes).
  { intros b'. apply runs; [| |apply i444_disjoint|discriminate|vm_compute; reflexivity];
      (split; [reflexivity|split; [repeat constructor; cbn; unfold usize; cbn; lia|reflexivity]]). }
  split; [apply CV|]. split; [exact white_bytes|]. split; [reflexivity|].
  split; [intros cb _; split; [exact avx_pow_ok|split; [exact (log_contract avx_log avx_log_ok)|exact avx_pow_negative]]|].
  split; [intros p [<-|[]]; exists 255%Z; repeat split; reflexivity|]. split; [repeat split; reflexivity|].
  cbn [map]; rewrite !(fun c => narrow_expected _ b PropGray.white_mem pq_2020 (ex_rgba_planes 0) ictcp_tv i444_planes c 0 1 (CV b)) by
    (first [reflexivity | split; cbn; lia]).
  vm_compute. reflexivity.
Qed.
