(** C76 and C61 in levels: what is stored for an ICtCp sample is near the level of
    the ICtCp color of the pixel itself, and what two CPUs store is nearly the
    same. *)

From Coq Require Import List ZArith Bool Arith Reals Lia Lra Psatz.
From Flocq Require Import Core.
From Verif Require Import Base Types Planes ImageM F32 Vector Simd SpecVector SimdProofs QuantProofs SpecGeom GeomProofs
  SpecColor SpecConvert SpecRun Formats Visit Convert VisitProofs ColorProofs ConvertProofs ExactProofs PropConvert PropFidelity
  SpecReal FloatProofs AccProofs TargetProofs PropColor ColorR SpecTransfer PowerProofs MathProofs SpecMath LaneProofs TransferProofs
  Math NegProofs RecolorProofs PropRecolor GamutProofs PropGamut PropBackends PropBackends2 SpecIctcp PropIctcp IctcpProofs WideProofs PropWide PropGray PqProofs PqEncProofs
  PropDrift PropBT2020 PropOut PropIctcpAcc PropIctcpGray PropGrayPq PropToPQ PropFromPQ PropPQ PropIctcpRecolor PropCodes.
Import ListNotations.
Local Open Scope R_scope.

(** * The HLG curve *)

Lemma hlg_log : forall x, 1 / 12 <= x -> 1 / 2 - 1 / 1000000 <= ha * ln (12 * x - hb) + hc <= 1 / 2 + 1 / 1000000 + ha * (12 * x - 1) / (1 - hb).
Proof.
  intros x X. destruct (hlg_high (1 / 12) ltac:(lra)) as (H1 & H2). replace (12 * (1 / 12) - hb) with (1 - hb) in * by field.
  assert (B : 0 < 1 - hb) by (unfold hb; lra). assert (A : 0 < ha) by (unfold ha; lra). replace (12 * (1 / 12) - 1) with 0 in H2 by field.
  assert (U : ln (12 * x - hb) <= ln (1 - hb) + (12 * x - 1) / (1 - hb)).
  { assert (E : 12 * x - hb = (1 - hb) * (1 + (12 * x - 1) / (1 - hb))) by (field; lra).
    assert (P : 0 <= (12 * x - 1) / (1 - hb)) by (apply Rmult_le_pos; [lra|left; apply Rinv_0_lt_compat; exact B]).
    rewrite E, ln_mult by lra. set (u := (12 * x - 1) / (1 - hb)) in *.
    assert (ln (1 + u) <= u); [|lra]. apply Rnot_lt_le. intros C. apply exp_increasing in C. rewrite exp_ln in C by lra. pose proof (exp_ineq1_le u). lra. }
  assert (M : ln (1 - hb) <= ln (12 * x - hb)).
  { destruct (Req_dec x (1 / 12)) as [->|NE]; [right; f_equal; field|]. left. apply ln_increasing; lra. }
  split; [nra|]. unfold Rdiv in *. rewrite Rmult_0_r, Rmult_0_l in H2.
  assert (ha * ln (12 * x - hb) <= ha * (ln (1 - hb) + (12 * x - 1) * / (1 - hb))) by (apply Rmult_le_compat_l; lra). lra.
Qed.

Lemma hlg_close : forall a b, 0 <= a -> a <= b <= a + 1 / 80000 -> - (1 / 10000) <= hlg_encode b - hlg_encode a <= 62 / 10000.
Proof.
  intros a b A AB. assert (SQ : sqrt (3 * (1 / 80000)) <= 6125 / 1000000).
  { apply Rsqr_incr_0_var; [rewrite Rsqr_sqrt by lra; unfold Rsqr; lra|lra]. }
  assert (HALF : sqrt (3 * (1 / 12)) = 1 / 2) by (replace (3 * (1 / 12)) with ((1 / 2) * (1 / 2)) by field; apply sqrt_square; lra).
  assert (SUB : forall u v, 0 <= u -> 0 <= v -> sqrt (u + v) <= sqrt u + sqrt v).
  { intros u v U V. apply Rsqr_incr_0_var; [|pose proof (sqrt_pos u); pose proof (sqrt_pos v); lra]. rewrite Rsqr_sqrt by lra.
    unfold Rsqr. pose proof (sqrt_sqrt u U). pose proof (sqrt_sqrt v V). pose proof (sqrt_pos u). pose proof (sqrt_pos v). nra. }
  assert (LOW : forall u v, 0 <= u <= v -> v <= u + 1 / 80000 -> sqrt (3 * u) <= sqrt (3 * v) <= sqrt (3 * u) + 6125 / 1000000).
  { intros u v U V. split; [apply sqrt_le_1; lra|]. replace (3 * v) with (3 * u + 3 * (v - u)) by ring.
    eapply Rle_trans; [apply SUB; lra|]. assert (sqrt (3 * (v - u)) <= sqrt (3 * (1 / 80000))) by (apply sqrt_le_1; lra). lra. }
  unfold hlg_encode. destruct (Rle_dec a (1 / 12)) as [CA|CA], (Rle_dec b (1 / 12)) as [CB|CB]; try lra.
  - pose proof (LOW a b ltac:(lra) ltac:(lra)). lra.
  - destruct (hlg_log b ltac:(lra)) as (H1 & H2). destruct (LOW a (1 / 12) ltac:(lra) ltac:(lra)) as (L1 & L2).
    assert (ha * (12 * b - 1) / (1 - hb) <= 25 / 100 * (12 * (b - 1 / 12))).
    { replace (12 * b - 1) with (12 * (b - 1 / 12)) by field. set (w := 12 * (b - 1 / 12)). assert (0 <= w) by (unfold w; lra). unfold ha, hb.
      apply Rmult_le_reg_r with (1 - 28466892 / 100000000); [lra|]. unfold Rdiv at 1. rewrite Rmult_assoc, Rinv_l by lra. nra. }
    (* the square root from a to the knee and the logarithm after it *)
    destruct (Rle_dec (b - 1 / 12) (1 / 10000000)) as [S|S].
    + split; lra.
    + assert (AS : sqrt (3 * a) >= 1 / 2 - 4 * (1 / 12 - a)).
      { apply Rle_ge. apply Rsqr_incr_0_var; [|apply sqrt_pos]. rewrite Rsqr_sqrt by lra. unfold Rsqr. nra. }
      split; lra.
  - destruct (hlg_log a ltac:(lra)) as (H1 & _).
    assert (W : 1 - hb < 12 * a - hb) by lra. assert (B : 0 < 1 - hb) by (unfold hb; lra).
    assert (M : ln (12 * a - hb) <= ln (12 * b - hb)).
    { destruct (Req_dec a b) as [->|NE]; [lra|]. left. apply ln_increasing; lra. }
    assert (U : ln (12 * b - hb) - ln (12 * a - hb) <= 1 / 1000).
    { assert (E : 12 * b - hb = (12 * a - hb) * (1 + 12 * (b - a) / (12 * a - hb))) by (field; lra).
      assert (P : 0 <= 12 * (b - a) / (12 * a - hb) <= 1 / 1000).
      { split; [apply Rmult_le_pos; [lra|left; apply Rinv_0_lt_compat; lra]|]. apply Rmult_le_reg_r with (12 * a - hb); [lra|].
        unfold Rdiv at 1. rewrite Rmult_assoc, Rinv_l by lra. unfold hb in *. lra. }
      rewrite E, ln_mult by lra. set (u := 12 * (b - a) / (12 * a - hb)) in *.
      assert (ln (1 + u) <= u); [|lra]. apply Rnot_lt_le. intros C. apply exp_increasing in C. rewrite exp_ln in C by lra. pose proof (exp_ineq1_le u). lra. }
    unfold ha. lra.
Qed.

(** The code of a cone response; there is none below 0 *)
Definition cone_code (s : color_space) (v : R) : R := ictcp_curve s (Rmax v 0).

(** Codes of cone responses that are 1/80000 apart *)
Definition code_gap (s : color_space) : R := match s with SpICtCpPQ => 5 / 10000 | _ => 62 / 10000 end.

Lemma code_near : forall s l v, is_bt2100 s -> 0 <= l -> Rabs (l - v) <= 1 / 80000 -> Rabs (ictcp_curve s l - cone_code s v) <= code_gap s.
Proof.
  intros s l v S L D. unfold cone_code. destruct S as [-> | ->]; cbn [ictcp_curve code_gap].
  - assert (C : pq_encode (1 / 80000) <= 5 / 10000).
    { apply (code_upto (f32_lit 499 6) _ (1283 / 100000000) (5 / 100000000)); [const_approx|const_approx|lra|lra|lra]. }
    apply pq_code_near in D. unfold pq_code in D. rewrite (Rmax_left l 0) in D by exact L. lra.
  - assert (D' : Rabs (l - Rmax v 0) <= 1 / 80000).
    { apply Rabs_le_inv in D. apply Rabs_le. unfold Rmax. destruct (Rle_dec v 0); lra. }
    pose proof (Rmax_r v 0) as V. set (w := Rmax v 0) in *. clearbody w. apply Rabs_le_inv in D'. apply Rabs_le.
    destruct (Rle_dec l w) as [O|O].
    + pose proof (hlg_close l w L ltac:(lra)). lra.
    + pose proof (hlg_close w l V ltac:(lra)). lra.
Qed.

(** How much the components of ICtCp change with the codes: rows of its matrix *)
Definition row (s : color_space) (c : comp) : R :=
  match s, c with
  | SpICtCpPQ, CU => 27226 / 4096
  | SpICtCpPQ, CV => 35866 / 4096
  | _, CU => 14930 / 4096
  | _, CV => 19000 / 4096
  | _, _ => 1
  end.

Lemma ictcp_level_near : forall s full f l m n l' m' n' g c x y, is_bt2100 s -> 0 <= g ->
  (forall p, In p ((x, y) :: chroma_block (sampling_of f) x y) -> let x := fst p in let y := snd p in
     Rabs (ictcp_curve s (l x y) - ictcp_curve s (l' x y)) <= g /\ Rabs (ictcp_curve s (m x y) - ictcp_curve s (m' x y)) <= g /\
     Rabs (ictcp_curve s (n x y) - ictcp_curve s (n' x y)) <= g) ->
  Rabs (ictcp_level s full f l m n c x y - ictcp_level s full f l' m' n' c x y) <= IZR (max_level f) * (row s c * g).
Proof.
  intros s full f l m n l' m' n' g c x y S G H.
  assert (M : 1 <= IZR (max_level f)) by (apply IZR_le; destruct f; cbn; lia).
  assert (R0 : 1 <= row s c) by (unfold row; destruct S as [-> | ->], c; lra).
  set (M' := IZR (max_level f)) in *.
  assert (YL : forall u v e, 0 <= e -> Rabs (u - v) <= e -> Rabs (y_level full M' u - y_level full M' v) <= M' * e /\ Rabs (c_level full M' u - c_level full M' v) <= M' * e).
  { intros u v e E D. apply Rabs_le_inv in D. unfold y_level, c_level. destruct full; split; apply Rabs_le; nra. }
  assert (MX : forall p, In p ((x, y) :: chroma_block (sampling_of f) x y) -> let x := fst p in let y := snd p in let W := ictcp_matrix s (ictcp_curve s (l x y)) (ictcp_curve s (m x y)) (ictcp_curve s (n x y)) in
    let W' := ictcp_matrix s (ictcp_curve s (l' x y)) (ictcp_curve s (m' x y)) (ictcp_curve s (n' x y)) in
    Rabs (fst3 W - fst3 W') <= row s CY * g /\ Rabs (snd3 W - snd3 W') <= row s CU * g /\ Rabs (thd3 W - thd3 W') <= row s CV * g).
  { intros p HP x' y' W W'. subst W W'. destruct (H p HP) as (H1 & H2 & H3). fold x' y' in H1, H2, H3. apply Rabs_le_inv in H1. apply Rabs_le_inv in H2. apply Rabs_le_inv in H3.
    destruct S as [-> | ->]; cbn [ictcp_matrix ictcp_curve row] in *; unfold ictcp_pq, SpecIctcp.ictcp_hlg, fst3, snd3, thd3; cbn [fst snd];
      (split; [|split]); apply Rabs_le; lra. }
  assert (E0 : 0 <= row s c * g) by (apply Rmult_le_pos; lra).
  assert (Y : c <> CU -> c <> CV -> row s c = row s CY) by (destruct S as [-> | ->], c; cbn; congruence).
  unfold ictcp_level. fold M'.
  destruct (MX (x, y) ltac:(left; reflexivity)) as (MY & _). cbn [fst snd] in MY.
  destruct c; try (apply (YL _ _ _ E0); rewrite ?(Y ltac:(discriminate) ltac:(discriminate)); exact MY);
    apply (YL _ _ _ E0), chroma_mean_near; intros p HP; destruct (MX p (or_intror HP)) as (_ & MU & MV); assumption.
Qed.

(** * C76 *)

(** Accuracy of an ICtCp sample, as part of the full scale *)
Definition sample_error (s : color_space) (c : comp) : R := ictcp_error s + row s c * code_gap s.

(** Converting RGB to ICtCp: what is stored is the level of the ICtCp color of the
    light of the pixels, as BT.2100 defines it.  In 8 bit: luma within 0.8 levels
    (PQ) or 1.6 (HLG) and the rounding.
    Missing: the chroma of 4:2:0 (see C19); PQ sources; other transfer functions
    or primaries than those of the source. *)
Theorem C76_levels_partial : forall sp sl b m src sps dst dps i,
  converts (libm_of sp sl) b m src sps dst dps -> bytes_ok m ->
  sampling_of (im_format src) = SRGB -> sampling_of (im_format dst) <> SRGB ->
  im_color dst = CYUV i -> is_bt2100 (yc_space i) ->
  same_light (im_color src) (im_color dst) = true ->
  let t := ci_transfer (im_color src) in
  t <> TBT2100PQ ->
  let s c x y := level m (im_format src) sps c x y / 255 in
  forall c x y, has_comp (im_format dst) c = true -> in_image dst x y ->
  (sampling_of (im_format dst) = S420 -> c = CY) ->
  let cb := column_backend b (im_width dst) x in
  platform_pow sp sl cb ->
  let response x y := cones (ci_primaries (im_color src)) (decoded t (s CR x y)) (decoded t (s CG x y)) (decoded t (s CB x y)) in
  let E := IZR (max_level (im_format dst)) * sample_error (yc_space i) c in
  let v := ictcp_level (yc_space i) (yc_full_range i) (im_format dst)
    (fun x y => Rmax (fst3 (response x y)) 0) (fun x y => Rmax (snd3 (response x y)) 0) (fun x y => Rmax (thd3 (response x y)) 0) c x y in
  let hi := IZR (top (im_format dst)) in
  exists z, stored (libm_of sp sl) b m src dst dps c x y = Some z /\ (0 <= z)%Z /\
    ((cb = AVX512 -> - (1 / 4) + E <= v <= hi + 1 / 4 - E) -> stored_for cb E (clamp hi v) z).
Proof.
  intros sp sl b m src sps dst dps i CVT B FS FD CI S SL t TS s c x y HC HI N420 cb PL response E v hi.
  destruct (C76_rgb_to_ictcp_partial sp sl b m src sps dst dps i CVT B FS FD CI S SL TS c x y HC HI N420 PL) as (l & m' & n & H & R).
  cbv zeta in R. destruct R as (z & ST & Z0 & R). exists z. split; [exact ST|]. split; [exact Z0|]. intros AV. fold cb hi in R.
  match type of R with context [clamp _ ?t'] => set (v1 := t') in * end.
  assert (NV : Rabs (v1 - v) <= IZR (max_level (im_format dst)) * (row (yc_space i) c * code_gap (yc_space i))).
  { apply ictcp_level_near; [exact S|destruct S as [-> | ->]; cbn; lra|]. intros (x', y') _. cbn [fst snd]. destruct (H x' y') as (W & L0 & M0 & N0). cbv zeta in W.
    fold t in W. fold (s CR x' y') (s CG x' y') (s CB x' y') in W. fold (response x' y') in W. destruct (response x' y') as ((r1, r2), r3) eqn:ER.
    destruct W as (W1 & W2 & W3). unfold fst3, snd3, thd3; cbn [fst snd].
    split; [|split]; apply (code_near _ _ _ S); assumption. }
  assert (HH : 0 <= hi) by (unfold hi; apply IZR_le; unfold top; destruct (sample_bytes (im_format dst)) as [|[|[|]]]; cbn; lia).
  pose proof NV as NV'. apply Rabs_le_inv in NV'. unfold E, sample_error in AV.
  assert (R' := R ltac:(intros A5; specialize (AV A5); lra)).
  eapply stored_for_weaken; [apply (stored_for_shift _ _ _ _ (clamp hi v) _ (clamp_near _ _ _ _ HH NV)) with (1 := R')|unfold E, sample_error; lra].
Qed.
Print Assumptions C76_levels_partial.

(** * C61 *)

(** RGB to ICtCp: what two CPUs store differs by at most what twice the error and
    the rounding allow; see [apart_8bit]. *)
Theorem C61_to_ictcp : forall sp1 sl1 b1 sp2 sl2 b2 m src sps dst dps i,
  converts (libm_of sp1 sl1) b1 m src sps dst dps -> converts (libm_of sp2 sl2) b2 m src sps dst dps -> bytes_ok m ->
  sampling_of (im_format src) = SRGB -> sampling_of (im_format dst) <> SRGB ->
  im_color dst = CYUV i -> is_bt2100 (yc_space i) ->
  same_light (im_color src) (im_color dst) = true ->
  let t := ci_transfer (im_color src) in
  t <> TBT2100PQ ->
  let s c x y := level m (im_format src) sps c x y / 255 in
  forall c x y, has_comp (im_format dst) c = true -> in_image dst x y ->
  (sampling_of (im_format dst) = S420 -> c = CY) ->
  let cb1 := column_backend b1 (im_width dst) x in
  let cb2 := column_backend b2 (im_width dst) x in
  platform_pow sp1 sl1 cb1 -> platform_pow sp2 sl2 cb2 ->
  let response x y := cones (ci_primaries (im_color src)) (decoded t (s CR x y)) (decoded t (s CG x y)) (decoded t (s CB x y)) in
  let E := IZR (max_level (im_format dst)) * sample_error (yc_space i) c in
  let v := ictcp_level (yc_space i) (yc_full_range i) (im_format dst)
    (fun x y => Rmax (fst3 (response x y)) 0) (fun x y => Rmax (snd3 (response x y)) 0) (fun x y => Rmax (thd3 (response x y)) 0) c x y in
  let hi := IZR (top (im_format dst)) in
  (cb1 = AVX512 \/ cb2 = AVX512 -> - (1 / 4) + E <= v <= hi + 1 / 4 - E) ->
  forall n, 1 / 2 + 2 * E < IZR n ->
  apart n (stored (libm_of sp1 sl1) b1 m src dst dps c x y) (stored (libm_of sp2 sl2) b2 m src dst dps c x y).
Proof.
  intros sp1 sl1 b1 sp2 sl2 b2 m src sps dst dps i C1 C2 B FS FD CI S SL t TS s c x y HC HI N420 cb1 cb2 P1 P2 response E v hi AV n N.
  destruct (C76_levels_partial sp1 sl1 b1 m src sps dst dps i C1 B FS FD CI S SL TS c x y HC HI N420 P1) as (z1 & S1 & _ & A1).
  destruct (C76_levels_partial sp2 sl2 b2 m src sps dst dps i C2 B FS FD CI S SL TS c x y HC HI N420 P2) as (z2 & S2 & _ & A2).
  exists z1, z2. split; [exact S1|split; [exact S2|]].
  specialize (A1 (fun e => AV (or_introl e))). specialize (A2 (fun e => AV (or_intror e))).
  assert (E0 : 0 <= E).
  { unfold E, sample_error. pose proof (max_level_R (im_format dst)). apply Rmult_le_pos; [lra|]. destruct S as [-> | ->]; destruct c; cbn; lra. }
  refine (stored_apart_by _ _ E _ _ 0 _ _ n E0 _ _ A1 A2); [apply Rabs_le; lra|lra].
Qed.
Print Assumptions C61_to_ictcp.

(** In 8 bit, levels between two CPUs *)
Definition ictcp_apart (s : color_space) (c : comp) : Z :=
  match s, c with
  | SpICtCpPQ, CU => 4
  | SpICtCpPQ, CV => 5
  | _, CU => 13
  | _, CV => 16
  | SpICtCpPQ, _ => 3
  | _, _ => 4
  end.

Lemma apart_8bit : forall s c f, is_bt2100 s -> max_level f = 255%Z ->
  1 / 2 + 2 * (IZR (max_level f) * sample_error s c) < IZR (ictcp_apart s c).
Proof. intros s c f S ->. unfold sample_error, ictcp_apart. destruct S as [-> | ->]; destruct c; cbn; lra. Qed.

(** C76_example meets the hypotheses of both theorems *)
Example C76_levels_example :
  converts (libm_of avx_pow avx_log) AVX2 ex_mem srgb_2020 (ex_rgba_planes 0) ictcp22 i444_planes /\
  converts (libm_of avx_pow avx_log) NEON ex_mem srgb_2020 (ex_rgba_planes 0) ictcp22 i444_planes /\
  is_bt2100 (match im_color ictcp22 with CYUV i => yc_space i | _ => SpBT709 end) /\
  same_light (im_color srgb_2020) (im_color ictcp22) = true /\ ci_transfer (im_color srgb_2020) <> TBT2100PQ.
Proof.
  split; [apply C76_example|]. split; [apply C76_example|]. split; [first [left; reflexivity|right; reflexivity]|]. split; [reflexivity|discriminate].
Qed.
