(** C79 and C61 in levels: PQ codes of nearly the same light are nearly the same,
    so that what is stored is near the PQ code of the light of the source itself,
    and what two CPUs store is nearly the same. *)

From Coq Require Import List ZArith Bool Arith Reals Lia Lra Psatz.
From Flocq Require Import Core.
From Verif Require Import Base Types Planes ImageM F32 Vector Simd SpecVector SimdProofs QuantProofs SpecGeom GeomProofs
  SpecColor SpecConvert SpecRun Formats Visit Convert VisitProofs ColorProofs ConvertProofs ExactProofs PropConvert PropFidelity
  SpecReal FloatProofs AccProofs TargetProofs PropColor ColorR SpecTransfer PowerProofs MathProofs SpecMath LaneProofs TransferProofs
  Math NegProofs RecolorProofs PropRecolor GamutProofs PropGamut PropBackends PropBackends2 SpecIctcp IctcpProofs WideProofs PropWide PropGray PqProofs PqEncProofs
  PropBT2020 PropOut PropIctcpGray PropGrayPq PropToPQ PropFromPQ PropPQ PropIctcpRecolor.
From Verif Require PropTransfer.
Import ListNotations.
Local Open Scope R_scope.

(** * PQ is subadditive *)

(** A little more light *)
Lemma pq_scale_small : forall a s, 0 < a -> 1 <= s <= 3 / 2 -> pq_encode (a * s) <= s * pq_encode a.
Proof.
  intros a s A S. set (k := m1 * (s - 1)). assert (K : 0 <= k) by (unfold k, m1; apply Rmult_le_pos; lra).
  assert (NN : power (a * s / 10000) m1 <= power (a / 10000) m1 * (1 + k)).
  { replace (a * s / 10000) with (a / 10000 * s) by field.
    assert (E : power (a / 10000 * s) m1 = power (a / 10000) m1 * power s m1).
    { rewrite !power_pos by nra. symmetry. apply Rpower_mult_distr; lra. }
    rewrite E. apply Rmult_le_compat_l; [apply power_ge0|]. unfold k. apply (bernoulli s m1); [lra|unfold m1; lra]. }
  assert (N0 : 0 <= power (a / 10000) m1) by apply power_ge0.
  unfold pq_encode. cbv zeta. set (N := power (a / 10000) m1) in *. set (N' := power (a * s / 10000) m1) in *.
  assert (NM : N <= N') by (apply power_le; [unfold m1; lra|nra]). clearbody N N'.
  assert (G : 0 < (c1 + c2 * N) / (1 + c3 * N)) by (apply (PropTransfer.pq_ratio N N0)).
  set (g := (c1 + c2 * N) / (1 + c3 * N)) in *.
  assert (G2 : (c1 + c2 * N') / (1 + c3 * N') <= g * (1 + 47 / 1000 * k)).
  { assert (E : (c1 + c2 * N') / (1 + c3 * N') = g + (c2 - c1 * c3) * (N' - N) / ((1 + c3 * N) * (1 + c3 * N'))) by (unfold g, c3; field; lra).
    rewrite E. assert (D0 : 0 < (1 + c3 * N) * (1 + c3 * N')) by (unfold c3; apply Rmult_lt_0_compat; lra).
    assert (H : (c2 - c1 * c3) * (N' - N) / ((1 + c3 * N) * (1 + c3 * N')) <= g * (47 / 1000 * k)).
    { apply Rmult_le_reg_r with ((1 + c3 * N) * (1 + c3 * N')); [exact D0|].
      unfold Rdiv at 1. rewrite Rmult_assoc, Rinv_l, Rmult_1_r by lra.
      replace (g * (47 / 1000 * k) * ((1 + c3 * N) * (1 + c3 * N'))) with ((c1 + c2 * N) * (1 + c3 * N') * (47 / 1000 * k)) by (unfold g, c3; field; lra).
      apply Rle_trans with ((c2 - c1 * c3) * (N * k)); [apply Rmult_le_compat_l; [unfold c1, c2, c3|]; lra|].
      replace ((c2 - c1 * c3) * (N * k)) with ((c2 - c1 * c3) * N * k) by ring.
      replace ((c1 + c2 * N) * (1 + c3 * N') * (47 / 1000 * k)) with ((c1 + c2 * N) * (1 + c3 * N') * (47 / 1000) * k) by ring.
      apply Rmult_le_compat_r; [exact K|]. apply Rle_trans with ((c1 + c2 * N) * (1 + c3 * N) * (47 / 1000)).
      - pose proof (pow2_ge_0 (N - 487 / 10000)). unfold c1, c2, c3. nra.
      - apply Rmult_le_compat_r; [lra|]. apply Rmult_le_compat_l; unfold c1, c2, c3; lra. }
    lra. }
  assert (GP : 0 < (c1 + c2 * N') / (1 + c3 * N')) by (apply (PropTransfer.pq_ratio N'); lra).
  apply Rle_trans with (power (g * (1 + 47 / 1000 * k)) m2); [apply power_le; [unfold m2|]; lra|].
  assert (E : power (g * (1 + 47 / 1000 * k)) m2 = power g m2 * power (1 + 47 / 1000 * k) m2).
  { rewrite !power_pos by nra. symmetry. apply Rpower_mult_distr; lra. }
  rewrite E, Rmult_comm. apply Rmult_le_compat_r; [apply power_ge0|].
  rewrite power_pos by lra. unfold Rpower.
  assert (LN : ln (1 + 47 / 1000 * k) <= 47 / 1000 * k) by (apply ln_le_1 || (pose proof (exp_ineq1_le (47 / 1000 * k)); apply exp_le_inv || (apply Rnot_lt_le; intros C; apply exp_increasing in C; rewrite exp_ln in C; lra))).
  assert (X : m2 * ln (1 + 47 / 1000 * k) <= 6 / 10 * (s - 1)) by (unfold k, m1, m2 in *; lra).
  pose proof (exp_below _ (6 / 10 * (s - 1)) X ltac:(lra)) as EB. eapply Rle_trans; [exact EB|].
  apply Rmult_le_reg_r with (1 - 6 / 10 * (s - 1)); [lra|]. rewrite Rinv_l by lra. nra.
Qed.

Lemma pq_scale : forall a s, 0 < a -> 1 <= s -> pq_encode (a * s) <= s * pq_encode a.
Proof.
  assert (H : forall n a s, 0 < a -> 1 <= s <= (3 / 2) ^ n -> pq_encode (a * s) <= s * pq_encode a).
  { induction n as [|n IH]; intros a s A S.
    - simpl in S. replace s with 1 by lra. rewrite Rmult_1_r. lra.
    - simpl in S. destruct (Rle_dec s (3 / 2)) as [C|C]; [apply pq_scale_small; lra|].
      replace (a * s) with (a * (3 / 2) * (s / (3 / 2))) by field.
      eapply Rle_trans; [apply IH; lra|]. pose proof (pq_scale_small a (3 / 2) A ltac:(lra)) as P.
      apply Rle_trans with (s / (3 / 2) * (3 / 2 * pq_encode a)); [apply Rmult_le_compat_l; lra|lra]. }
  intros a s A S. destruct (Pow_x_infinity (3 / 2) ltac:(rewrite Rabs_pos_eq; lra) s) as (n & N).
  apply (H n); [exact A|]. specialize (N n (le_n n)). rewrite Rabs_pos_eq in N by (left; apply pow_lt; lra). lra.
Qed.

Lemma pq_sub : forall a d, 0 <= a -> 0 <= d -> pq_encode (a + d) <= pq_encode a + pq_encode d.
Proof.
  intros a d A D. assert (P : forall v, 0 <= pq_encode v) by (intros v; unfold pq_encode; cbv zeta; apply power_ge0).
  destruct (Req_dec a 0) as [->|A0]; [rewrite Rplus_0_l; pose proof (P 0); lra|].
  destruct (Req_dec d 0) as [->|D0]; [rewrite Rplus_0_r; pose proof (P 0); lra|].
  assert (H : forall a d, 0 < a -> 0 < d -> a / (a + d) * pq_encode (a + d) <= pq_encode a).
  { clear. intros a d A D. pose proof (pq_scale a ((a + d) / a) A) as S.
    assert (O : 1 <= (a + d) / a) by (apply Rmult_le_reg_r with a; [exact A|]; unfold Rdiv; rewrite Rmult_assoc, Rinv_l by lra; lra).
    specialize (S O). replace (a * ((a + d) / a)) with (a + d) in S by (field; lra).
    apply Rle_trans with (a / (a + d) * ((a + d) / a * pq_encode a)).
    - apply Rmult_le_compat_l; [|exact S]. left. apply Rdiv_lt_0_compat; lra.
    - right. field. lra. }
  pose proof (H a d ltac:(lra) ltac:(lra)) as H1. pose proof (H d a ltac:(lra) ltac:(lra)) as H2. rewrite (Rplus_comm d a) in H2.
  assert (E : pq_encode (a + d) = a / (a + d) * pq_encode (a + d) + d / (a + d) * pq_encode (a + d)) by (field; lra). lra.
Qed.

(** Light that is [d] apart has codes that are at most the code of [d] apart *)
Lemma pq_code_near : forall a b d, Rabs (a - b) <= d -> Rabs (pq_code a - pq_code b) <= pq_encode d.
Proof.
  assert (H : forall a b d, a <= b <= a + d -> pq_code b - pq_code a <= pq_encode d).
  { intros a b d AB. unfold pq_code. pose proof (Rmax_r a 0). pose proof (Rmax_r b 0).
    assert (M : Rmax b 0 <= Rmax a 0 + d) by (unfold Rmax; destruct (Rle_dec a 0), (Rle_dec b 0); lra).
    pose proof (pq_mono (Rmax b 0) (Rmax a 0 + d) ltac:(lra)) as L. pose proof (pq_sub (Rmax a 0) d ltac:(lra) ltac:(lra)). lra. }
  assert (MO : forall a b, a <= b -> pq_code a <= pq_code b).
  { intros a b AB. apply pq_mono. split; [apply Rmax_r|apply Rle_max_compat_r, AB]. }
  intros a b d D. apply Rabs_le_inv in D. apply Rabs_le. destruct (Rle_dec a b) as [C|C].
  - pose proof (H a b d ltac:(lra)). pose proof (MO a b C). assert (0 <= pq_encode d) by (unfold pq_encode; cbv zeta; apply power_ge0). lra.
  - pose proof (H b a d ltac:(lra)). pose proof (MO b a ltac:(lra)). assert (0 <= pq_encode d) by (unfold pq_encode; cbv zeta; apply power_ge0). lra.
Qed.

(** * Codes of small light *)

(** A code is large enough if it decodes to enough light *)
Lemma pq_upto : forall x v, 0 <= x <= pq_decode v -> 1 / 10000 <= v <= 1 -> pq_encode x <= v.
Proof.
  intros x v X V. destruct (PropTransfer.C35_pq_inverse v ltac:(lra)) as (_ & I).
  rewrite (PropTransfer.encode_pq 0), (PropTransfer.decode_pq v), (PropTransfer.encode_pq (pq_decode v)) in I by lra.
  rewrite <- I; [apply pq_mono; exact X|]. pose proof (pq_black 0 ltac:(lra)). lra.
Qed.

Lemma code_upto : forall a v D d x, approx a (v - 1 / 1000000) (1 / 10000000) -> approx (eotf avx_lane TBT2100PQ a) D d -> 0 <= x ->
  (x * (1 + 7 / 10000) + 1 / 10000000 <= D - d) -> 1 / 9000 <= v <= 1 -> pq_encode x <= v.
Proof.
  intros a v D d x (NA & EA) (_ & ED) X H V. apply Rabs_le_inv in EA. apply Rabs_le_inv in ED.
  destruct (pq_dec_rel avx_lane a avx_lane_ok NA ltac:(lra)) as ((_ & E) & P). apply Rabs_le_inv in E.
  apply Rle_trans with (fval a); [|lra]. apply pq_upto; lra.
Qed.

Lemma small_codes :
  pq_encode (1 / 40000) <= 75 / 100000 /\ pq_encode (1 / 20000) <= 112 / 100000 /\ pq_encode (1 / 5000) <= 26 / 10000 /\
  pq_encode (1 / 3000) <= 35 / 10000 /\ pq_encode (9 / 10000) <= 6 / 1000.
Proof.
  split; [apply (code_upto (f32_lit 749 6) _ (257 / 10000000) (1 / 10000000)); [const_approx|const_approx|lra|lra|lra]|].
  split; [apply (code_upto (f32_lit 1119 6) _ (508 / 10000000) (3 / 10000000)); [const_approx|const_approx|lra|lra|lra]|].
  split; [apply (code_upto (f32_lit 2599 6) _ (213 / 1000000) (1 / 1000000)); [const_approx|const_approx|lra|lra|lra]|].
  split; [apply (code_upto (f32_lit 3499 6) _ (356 / 1000000) (1 / 1000000)); [const_approx|const_approx|lra|lra|lra]|].
  apply (code_upto (f32_lit 5999 6) _ (916 / 1000000) (1 / 1000000)); [const_approx|const_approx|lra|lra|lra].
Qed.

(** * C79 *)

Lemma stored_for_shift : forall b e d t t' z, Rabs (t - t') <= d -> stored_for b e t z -> stored_for b (e + d) t' z.
Proof.
  intros b e d t t' z D H. apply Rabs_le_inv in D. destruct b; cbn [stored_for] in *; unfold truncated, rounded in *; try lra;
    apply Rabs_le_inv in H; apply Rabs_le; lra.
Qed.

(** RGB with any other curve to RGB with the PQ curve, every color and every
    primaries: what is stored is the PQ code of the light of the source color in
    the primaries of the destination, up to 7/25 of a level and the rounding of
    the integer. *)
Theorem C79_rgb_to_rgb_levels : forall sp sl b m src sps dst dps,
  converts (libm_of sp sl) b m src sps dst dps -> bytes_ok m ->
  sampling_of (im_format src) = SRGB -> sampling_of (im_format dst) = SRGB ->
  let ts := ci_transfer (im_color src) in
  ts <> TBT2100PQ -> ci_transfer (im_color dst) = TBT2100PQ ->
  forall c x y, In c comps -> in_image dst x y ->
  let cb := column_backend b (im_width dst) x in
  platform_pow sp sl cb ->
  let s c := level m (im_format src) sps c x y / 255 in
  let exact := channel c (light_of ts (ci_primaries (im_color src)) (ci_primaries (im_color dst)) (s CR) (s CG) (s CB)) in
  exists z, stored (libm_of sp sl) b m src dst dps c x y = Some z /\ stored_for cb (7 / 25) (255 * pq_code exact) z.
Proof.
  intros sp sl b m src sps dst dps CVT B FS FD ts TS TD c x y HC HI cb PL s exact.
  destruct (C79_rgb_to_rgb_partial sp sl b m src sps dst dps CVT B FS FD TS TD c x y HC HI PL) as (z & l & ST & NL & SF).
  exists z. split; [exact ST|]. destruct small_codes as (SC & _). pose proof (pq_code_near _ _ _ NL) as N.
  eapply stored_for_weaken; [apply (stored_for_shift _ _ (255 * (75 / 100000)) _ (255 * pq_code exact) _) with (2 := SF)|lra].
  apply Rabs_le_inv in N. apply Rabs_le. subst exact s ts. lra.
Qed.
Print Assumptions C79_rgb_to_rgb_levels.

(** Accuracy of the codes of YUV sources *)
Definition code_error (t : color_transfer) : R := match t with TBT2100HLG => 35 / 10000 | _ => 26 / 10000 end.

Lemma code_error_ok : forall t, pq_encode (light_error t) <= code_error t.
Proof. intros t. unfold light_error, code_error. destruct t; apply small_codes. Qed.

(** YUV, colors of 0 .. 1, to RGB with the PQ curve: 0.73 of a level, for HLG one
    level, and the rounding.  Missing: PQ sources. *)
Theorem C79_yuv_to_rgb_levels_partial : forall sp sl b m src sps dst dps i k,
  converts (libm_of sp sl) b m src sps dst dps -> levels_ok m src sps ->
  sampling_of (im_format src) <> SRGB -> sampling_of (im_format dst) = SRGB ->
  im_color src = CYUV i -> weights_of (yc_space i) = Some k ->
  let ts := ci_transfer (im_color src) in
  ts <> TBT2100PQ -> ci_transfer (im_color dst) = TBT2100PQ ->
  forall c x y, In c comps -> in_image dst x y ->
  let cb := column_backend b (im_width dst) x in
  platform_pow sp sl cb ->
  read_real k m src sps i x y ->
  let s c := read_at k m src sps i c x y in
  let exact := channel c (light_of ts (ci_primaries (im_color src)) (ci_primaries (im_color dst)) (s CR) (s CG) (s CB)) in
  exists z, stored (libm_of sp sl) b m src dst dps c x y = Some z /\
    stored_for cb (match ts with TBT2100HLG => 1 | _ => 73 / 100 end) (255 * pq_code exact) z.
Proof.
  intros sp sl b m src sps dst dps i k CVT LV FS FD CI WK ts TS TD c x y HC HI cb PL RC s exact.
  destruct (C79_yuv_to_rgb_partial sp sl b m src sps dst dps i k CVT LV FS FD CI WK TS TD c x y HC HI PL RC) as (z & l & ST & NL & SF).
  exists z. split; [exact ST|]. pose proof (code_error_ok ts) as SC. pose proof (pq_code_near _ _ _ NL) as N. fold ts in N, SF.
  eapply stored_for_weaken; [apply (stored_for_shift _ _ (255 * code_error ts) _ (255 * pq_code exact) _) with (2 := SF)|clear; unfold code_error; destruct ts; lra].
  apply Rabs_le_inv in N. apply Rabs_le. subst exact s. lra.
Qed.
Print Assumptions C79_yuv_to_rgb_levels_partial.

(** The same for samples that stand for colors outside of 0 .. 1: 1.6 levels.
    For what [readable] excludes see C80. *)
Theorem C79_wide_yuv_to_rgb_levels_partial : forall sp sl b m src sps dst dps is ks,
  converts (libm_of sp sl) b m src sps dst dps -> levels_ok m src sps ->
  sampling_of (im_format src) <> SRGB -> sampling_of (im_format dst) = SRGB ->
  im_color src = CYUV is -> weights_of (yc_space is) = Some ks ->
  let ts := ci_transfer (im_color src) in
  ts <> TBT2100PQ -> ci_transfer (im_color dst) = TBT2100PQ ->
  forall c x y, In c comps -> in_image dst x y ->
  let cb := column_backend b (im_width dst) x in
  platform_pow sp sl cb ->
  let s c := read_at ks m src sps is c x y in
  (forall c, In c comps -> readable cb ts (s c)) ->
  let exact := channel c (light_all ts (ci_primaries (im_color src)) (ci_primaries (im_color dst)) (s CR) (s CG) (s CB)) in
  exists z, stored (libm_of sp sl) b m src dst dps c x y = Some z /\ stored_for cb (8 / 5) (clamp 255 (255 * pq_code exact)) z.
Proof.
  intros sp sl b m src sps dst dps is ks CVT LV FS FD CI WS ts TS TD c x y HC HI cb PL s SB exact.
  destruct (C79_wide_yuv_to_rgb_partial sp sl b m src sps dst dps is ks CVT LV FS FD CI WS TS TD c x y HC HI PL SB) as (z & l & ST & NL & SF).
  exists z. split; [exact ST|]. assert (SC : pq_encode (9 / 10000) <= 6 / 1000) by apply small_codes. pose proof (pq_code_near _ _ _ NL) as N.
  eapply stored_for_weaken; [apply (stored_for_shift _ _ (255 * (6 / 1000)) _ (clamp 255 (255 * pq_code exact)) _) with (2 := SF)|lra].
  apply clamp_near; [lra|]. apply Rabs_le_inv in N. apply Rabs_le. subst exact s ts. lra.
Qed.
Print Assumptions C79_wide_yuv_to_rgb_levels_partial.

(** The level of YUV changes by at most as much as the colors do *)
Lemma ideal_near_any : forall sp k full f r g b r' g' b' E c x y, weights_of sp = Some k -> 0 <= E ->
  (forall p, In p ((x, y) :: chroma_block (sampling_of f) x y) ->
     Rabs (r (fst p) (snd p) - r' (fst p) (snd p)) <= E /\ Rabs (g (fst p) (snd p) - g' (fst p) (snd p)) <= E /\ Rabs (b (fst p) (snd p) - b' (fst p) (snd p)) <= E) ->
  Rabs (ideal_level k full f r (fun x y => written_green sp (g x y)) b c x y - ideal_level k full f r' (fun x y => written_green sp (g' x y)) b' c x y)
    <= IZR (max_level f) * E.
Proof.
  intros sp k full f r g b r' g' b' E c x y W E0 H.
  destruct sp; cbn in W; try discriminate W; injection W as <-; cbn [written_green]; try (apply ideal_near; auto; fail).
  assert (M : 1 <= IZR (max_level f)) by (apply IZR_le; destruct f; cbn; lia).
  pose proof (chroma_mean_near (sampling_of f) r r' E x y (fun p HP => proj1 (H p (or_intror HP)))) as MR.
  pose proof (chroma_mean_near (sampling_of f) (fun x y => 322 / 678 * g x y) (fun x y => 322 / 678 * g' x y) (322 / 678 * E) x y) as MG.
  pose proof (chroma_mean_near (sampling_of f) b b' E x y (fun p HP => proj2 (proj2 (H p (or_intror HP))))) as MB.
  assert (MG' : forall p, In p (chroma_block (sampling_of f) x y) -> Rabs (322 / 678 * g (fst p) (snd p) - 322 / 678 * g' (fst p) (snd p)) <= 322 / 678 * E).
  { intros p HP. pose proof (proj1 (proj2 (H p (or_intror HP)))) as D. apply Rabs_le_inv in D. apply Rabs_le. lra. }
  specialize (MG MG'). clear MG'.
  destruct (H (x, y) (or_introl eq_refl)) as (HR & HG & HB). cbn [fst snd] in *.
  assert (YL : forall u v, Rabs (u - v) <= E -> Rabs (y_level full (IZR (max_level f)) u - y_level full (IZR (max_level f)) v) <= IZR (max_level f) * E /\
    Rabs (c_level full (IZR (max_level f)) u - c_level full (IZR (max_level f)) v) <= IZR (max_level f) * E).
  { intros u v D. apply Rabs_le_inv in D. unfold y_level, c_level. destruct full; split; apply Rabs_le; nra. }
  assert (LIN : forall r1 g1 b1 r2 g2 b2, Rabs (r1 - r2) <= E -> Rabs (g1 - g2) <= 322 / 678 * E -> Rabs (b1 - b2) <= E ->
    Rabs (luma bt2020 r1 g1 b1 - luma bt2020 r2 g2 b2) <= E /\ Rabs (cb bt2020 r1 g1 b1 - cb bt2020 r2 g2 b2) <= E /\ Rabs (cr bt2020 r1 g1 b1 - cr bt2020 r2 g2 b2) <= E).
  { intros r1 g1 b1 r2 g2 b2 D1 D2 D3. apply Rabs_le_inv in D1. apply Rabs_le_inv in D2. apply Rabs_le_inv in D3.
    unfold_k; (split; [|split]); apply Rabs_le; lra. }
  assert (HG' : Rabs (322 / 678 * g x y - 322 / 678 * g' x y) <= 322 / 678 * E) by (apply Rabs_le_inv in HG; apply Rabs_le; lra).
  destruct (LIN _ _ _ _ _ _ HR HG' HB) as (LY & _). destruct (LIN _ _ _ _ _ _ MR MG MB) as (_ & LU & LV).
  unfold ideal_level. destruct c; apply YL; assumption.
Qed.

(** RGB to YUV with the PQ curve, every color: what is stored is the level of the
    PQ codes of the light of the source, up to 1/970 of the full scale (a quarter
    of a level in 8 bit) and the rounding of the integer.  AVX-512 needs a level
    that fits. *)
Theorem C79_rgb_to_yuv_levels : forall sp sl b m src sps dst dps i k,
  converts (libm_of sp sl) b m src sps dst dps -> bytes_ok m ->
  sampling_of (im_format src) = SRGB -> sampling_of (im_format dst) <> SRGB ->
  im_color dst = CYUV i -> weights_of (yc_space i) = Some k ->
  let ts := ci_transfer (im_color src) in
  ts <> TBT2100PQ -> yc_transfer i = TBT2100PQ ->
  forall c x y, has_comp (im_format dst) c = true -> in_image dst x y ->
  let cb := column_backend b (im_width dst) x in
  platform_pow sp sl cb ->
  let s c x y := level m (im_format src) sps c x y / 255 in
  let light x y := light_of ts (ci_primaries (im_color src)) (ci_primaries (im_color dst)) (s CR x y) (s CG x y) (s CB x y) in
  let code c x y := pq_code (channel c (light x y)) in
  let t := ideal_level k (yc_full_range i) (im_format dst) (code CR) (fun x y => written_green (yc_space i) (code CG x y)) (code CB) c x y in
  let hi := IZR (if (sample_bytes (im_format dst) =? 2)%nat then 65535 else 255) in
  let E := IZR (max_level (im_format dst)) / 970 in
  (cb = AVX512 -> - (1 / 4) + E <= t <= hi + 1 / 4 - E) ->
  exists z, stored (libm_of sp sl) b m src dst dps c x y = Some z /\ (0 <= z)%Z /\ stored_for cb E (clamp hi t) z.
Proof.
  intros sp sl b m src sps dst dps i k CVT B FS FD CI WK ts TS TD c x y HC HI cb PL s light code t hi E AV.
  destruct (C79_rgb_to_yuv_partial sp sl b m src sps dst dps i k CVT B FS FD CI WK TS TD c x y HC HI PL) as (l & color & N & R). cbv zeta in R.
  destruct small_codes as (SC & _). pose proof (max_level_R (im_format dst)) as MR.
  match type of R with context [clamp _ ?t'] => set (t1 := t') in * end.
  assert (NT : Rabs (t1 - t) <= IZR (max_level (im_format dst)) * (1 / 1000)).
  { apply (ideal_near_any (yc_space i) k (yc_full_range i) (im_format dst)); [exact WK|lra|]. intros p HP. pose proof (N p HP) as NP. cbv zeta in NP.
    assert (H : forall c', In c' comps -> Rabs (channel c' (color (fst p) (snd p)) - code c' (fst p) (snd p)) <= 1 / 1000).
    { intros c' HC'. destruct (NP c' HC') as (N1 & N2). pose proof (pq_code_near _ _ _ N1) as N3. apply Rabs_le_inv in N2. apply Rabs_le_inv in N3.
      apply Rabs_le. unfold code, light, s, ts. lra. }
    split; [|split]; apply H; cbn; auto. }
  fold hi in R. pose proof NT as NT'. apply Rabs_le_inv in NT'.
  destruct R as (z & ST & Z0 & SF); [intros A5; specialize (AV A5); unfold E in AV; lra|].
  exists z. split; [exact ST|]. split; [exact Z0|].
  assert (HH : 0 <= hi) by (unfold hi; destruct (_ =? _)%nat; lra).
  eapply stored_for_weaken; [apply (stored_for_shift _ _ _ _ (clamp hi t) _ (clamp_near _ _ _ _ HH NT)) with (1 := SF)|unfold E; lra].
Qed.
Print Assumptions C79_rgb_to_yuv_levels.

(** * C61 *)

Lemma stored_apart_by : forall b1 b2 e t1 t2 g x y n, 0 <= e -> Rabs (t1 - t2) <= g -> 3 / 2 + 2 * e + g < IZR n + 1 ->
  stored_for b1 e t1 x -> stored_for b2 e t2 y -> (- n <= x - y <= n)%Z.
Proof.
  assert (H : forall b1 b2 e t1 t2 g x y n, 0 <= e -> Rabs (t1 - t2) <= g -> 3 / 2 + 2 * e + g < IZR n + 1 ->
    stored_for b1 e t1 x -> stored_for b2 e t2 y -> (x - y < n + 1)%Z).
  { intros b1 b2 e t1 t2 g x y n E T N S1 S2. apply lt_IZR. rewrite minus_IZR, plus_IZR. apply Rabs_le_inv in T.
    destruct b1, b2; cbn [stored_for] in S1, S2; unfold truncated, rounded in S1, S2; try apply Rabs_le_inv in S1; try apply Rabs_le_inv in S2; lra. }
  intros b1 b2 e t1 t2 g x y n E T N S1 S2. pose proof (H b1 b2 e t1 t2 g x y n E T N S1 S2).
  rewrite Rabs_minus_sym in T. pose proof (H b2 b1 e t2 t1 g y x n E T N S2 S1). lia.
Qed.

(** RGB to RGB with the PQ curve, every color: one level *)
Theorem C61_to_pq : forall sp1 sl1 b1 sp2 sl2 b2 m src sps dst dps,
  converts (libm_of sp1 sl1) b1 m src sps dst dps -> converts (libm_of sp2 sl2) b2 m src sps dst dps -> bytes_ok m ->
  sampling_of (im_format src) = SRGB -> sampling_of (im_format dst) = SRGB ->
  ci_transfer (im_color src) <> TBT2100PQ -> ci_transfer (im_color dst) = TBT2100PQ ->
  forall c x y, In c comps -> in_image dst x y ->
  platform_pow sp1 sl1 (column_backend b1 (im_width dst) x) -> platform_pow sp2 sl2 (column_backend b2 (im_width dst) x) ->
  one_apart (stored (libm_of sp1 sl1) b1 m src dst dps c x y) (stored (libm_of sp2 sl2) b2 m src dst dps c x y).
Proof.
  intros sp1 sl1 b1 sp2 sl2 b2 m src sps dst dps C1 C2 B FS FD TS TD c x y HC HI P1 P2.
  destruct (C79_rgb_to_rgb_partial sp1 sl1 b1 m src sps dst dps C1 B FS FD TS TD c x y HC HI P1) as (z1 & l1 & S1 & N1 & A1).
  destruct (C79_rgb_to_rgb_partial sp2 sl2 b2 m src sps dst dps C2 B FS FD TS TD c x y HC HI P2) as (z2 & l2 & S2 & N2 & A2).
  exists z1, z2. split; [exact S1|split; [exact S2|]].
  assert (L : Rabs (l1 - l2) <= 1 / 20000) by (apply Rabs_le_inv in N1; apply Rabs_le_inv in N2; apply Rabs_le; lra).
  apply pq_code_near in L. assert (SC : pq_encode (1 / 20000) <= 112 / 100000) by apply small_codes.
  refine (stored_apart_by _ _ (1 / 15) _ _ (29 / 100) _ _ 1 _ _ _ A1 A2); [lra| |lra]. apply Rabs_le_inv in L. apply Rabs_le. lra.
Qed.
Print Assumptions C61_to_pq.

(** YUV, colors of 0 .. 1, to RGB with the PQ curve: two levels; three for HLG *)
Theorem C61_yuv_to_pq : forall sp1 sl1 b1 sp2 sl2 b2 m src sps dst dps i k,
  converts (libm_of sp1 sl1) b1 m src sps dst dps -> converts (libm_of sp2 sl2) b2 m src sps dst dps -> levels_ok m src sps ->
  sampling_of (im_format src) <> SRGB -> sampling_of (im_format dst) = SRGB ->
  im_color src = CYUV i -> weights_of (yc_space i) = Some k ->
  let ts := ci_transfer (im_color src) in
  ts <> TBT2100PQ -> ci_transfer (im_color dst) = TBT2100PQ ->
  forall c x y, In c comps -> in_image dst x y ->
  platform_pow sp1 sl1 (column_backend b1 (im_width dst) x) -> platform_pow sp2 sl2 (column_backend b2 (im_width dst) x) ->
  read_real k m src sps i x y ->
  apart (match ts with TBT2100HLG => 3 | _ => 2 end)%Z
    (stored (libm_of sp1 sl1) b1 m src dst dps c x y) (stored (libm_of sp2 sl2) b2 m src dst dps c x y).
Proof.
  intros sp1 sl1 b1 sp2 sl2 b2 m src sps dst dps i k C1 C2 LV FS FD CI WK ts TS TD c x y HC HI P1 P2 RC.
  destruct (C79_yuv_to_rgb_levels_partial sp1 sl1 b1 m src sps dst dps i k C1 LV FS FD CI WK TS TD c x y HC HI P1 RC) as (z1 & S1 & A1).
  destruct (C79_yuv_to_rgb_levels_partial sp2 sl2 b2 m src sps dst dps i k C2 LV FS FD CI WK TS TD c x y HC HI P2 RC) as (z2 & S2 & A2).
  exists z1, z2. split; [exact S1|split; [exact S2|]]. fold ts in A1, A2.
  refine (stored_apart_by _ _ _ _ _ 0 _ _ _ _ _ _ A1 A2); [|apply Rabs_le; lra|]; destruct ts; lra.
Qed.
Print Assumptions C61_yuv_to_pq.

(** RGB to YUV with the PQ curve, every color: two levels in 8 bit, three in
    10 bit, nine in 12 bit *)
Theorem C61_to_pq_yuv : forall sp1 sl1 b1 sp2 sl2 b2 m src sps dst dps i k,
  converts (libm_of sp1 sl1) b1 m src sps dst dps -> converts (libm_of sp2 sl2) b2 m src sps dst dps -> bytes_ok m ->
  sampling_of (im_format src) = SRGB -> sampling_of (im_format dst) <> SRGB ->
  im_color dst = CYUV i -> weights_of (yc_space i) = Some k ->
  let ts := ci_transfer (im_color src) in
  ts <> TBT2100PQ -> yc_transfer i = TBT2100PQ ->
  forall c x y, has_comp (im_format dst) c = true -> in_image dst x y ->
  let cb1 := column_backend b1 (im_width dst) x in
  let cb2 := column_backend b2 (im_width dst) x in
  platform_pow sp1 sl1 cb1 -> platform_pow sp2 sl2 cb2 ->
  let s c x y := level m (im_format src) sps c x y / 255 in
  let light x y := light_of ts (ci_primaries (im_color src)) (ci_primaries (im_color dst)) (s CR x y) (s CG x y) (s CB x y) in
  let code c x y := pq_code (channel c (light x y)) in
  let t := ideal_level k (yc_full_range i) (im_format dst) (code CR) (fun x y => written_green (yc_space i) (code CG x y)) (code CB) c x y in
  let hi := IZR (if (sample_bytes (im_format dst) =? 2)%nat then 65535 else 255) in
  let E := IZR (max_level (im_format dst)) / 970 in
  (cb1 = AVX512 \/ cb2 = AVX512 -> - (1 / 4) + E <= t <= hi + 1 / 4 - E) ->
  let n := if (max_level (im_format dst) =? 255)%Z then 2%Z else if (max_level (im_format dst) =? 1023)%Z then 3%Z else 9%Z in
  apart n (stored (libm_of sp1 sl1) b1 m src dst dps c x y) (stored (libm_of sp2 sl2) b2 m src dst dps c x y).
Proof.
  intros sp1 sl1 b1 sp2 sl2 b2 m src sps dst dps i k C1 C2 B FS FD CI WK ts TS TD c x y HC HI cb1 cb2 P1 P2 s light code t hi E AV n.
  destruct (C79_rgb_to_yuv_levels sp1 sl1 b1 m src sps dst dps i k C1 B FS FD CI WK TS TD c x y HC HI P1 (fun e => AV (or_introl e))) as (z1 & S1 & _ & A1).
  destruct (C79_rgb_to_yuv_levels sp2 sl2 b2 m src sps dst dps i k C2 B FS FD CI WK TS TD c x y HC HI P2 (fun e => AV (or_intror e))) as (z2 & S2 & _ & A2).
  exists z1, z2. split; [exact S1|split; [exact S2|]].
  refine (stored_apart_by _ _ _ _ _ 0 _ _ _ _ _ _ A1 A2); [|apply Rabs_le; lra|]; unfold n; destruct (im_format dst); cbn; lra.
Qed.
Print Assumptions C61_to_pq_yuv.

(** C79_example meets the hypotheses of C79_rgb_to_rgb_levels, C79_rgb_to_yuv_levels
    and, with its YUV source, those of C79_yuv_to_rgb_levels_partial.  Here those of
    C61, with AVX2 and NEON side by side. *)
Example C61_pq_example :
  converts (libm_of avx_pow avx_log) AVX2 ex_mem srgb22 (ex_rgba_planes 0) pq_rgb (ex_rgba_planes 1) /\
  converts (libm_of avx_pow avx_log) NEON ex_mem srgb22 (ex_rgba_planes 0) pq_rgb (ex_rgba_planes 1) /\
  converts (libm_of avx_pow avx_log) AVX2 ex_mem srgb22 (ex_rgba_planes 0) pq_yuv (ex_yuv_planes 1) /\
  converts (libm_of avx_pow avx_log) NEON ex_mem srgb22 (ex_rgba_planes 0) pq_yuv (ex_yuv_planes 1) /\
  converts (libm_of avx_pow avx_log) NEON soft_mem wide_src (ex_yuv_planes 0) pq_rgb (ex_rgba_planes 1) /\
  ci_transfer (im_color srgb22) <> TBT2100PQ /\ ci_transfer (im_color pq_rgb) = TBT2100PQ.
Proof.
  split; [apply C79_example|]. split; [apply C79_example|]. split; [apply C79_example|]. split; [apply C79_example|]. split; [apply C79_example|].
  split; [discriminate|reflexivity].
Qed.
