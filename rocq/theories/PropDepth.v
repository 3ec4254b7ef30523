(** C67: samples and bit depth, when the transfer function or the primaries
    change. *)

From Coq Require Import List ZArith Bool Arith Reals Lia Lra Psatz.
From Coq Require Import Floats.SpecFloat.
From Flocq Require Import Core.
From Verif Require Import Base Types Planes ImageM F32 Vector Simd SpecVector SimdProofs QuantProofs SpecGeom GeomProofs
  SpecColor SpecConvert SpecRun Formats Visit Convert VisitProofs ColorProofs ConvertProofs ExactProofs PropConvert PropFidelity
  SpecReal FloatProofs AccProofs TargetProofs PropColor ColorR SpecTransfer PowerProofs MathProofs SpecMath LaneProofs TransferProofs
  Math NegProofs RecolorProofs PropRecolor GamutProofs PropGamut GrayProofs PropGray PropDrift PropBT2020 PropNeutral WideProofs PropOut.
Import ListNotations.
Local Open Scope R_scope.

(** * Bounds of the curves *)

Lemma power_over : forall x y, 1 <= x -> 0 < y <= 1 -> 1 <= power x y <= x.
Proof.
  intros x y X Y. rewrite power_pos by lra. unfold Rpower. assert (L0 : 0 <= ln x) by (rewrite <- ln_1; destruct X as [X|<-]; [left; apply ln_increasing; lra|lra]). split.
  - rewrite <- exp_0. apply exp_le. nra.
  - rewrite <- (exp_ln x) at 2 by lra. apply exp_le. nra.
Qed.

Lemma hlg_point : forall n k lo w, approx (f32_lit n k) w (1 / 1000000) -> 0 <= w - 1 / 1000000 -> w <= 39 / 10 -> lo <= fval (oetf avx_lane TBT2100HLG (f32_lit n k)) ->
  lo - 5 / 1000000 <= hlg_encode (fval (f32_lit n k)) <= fval (oetf avx_lane TBT2100HLG (f32_lit n k)) + 5 / 1000000.
Proof.
  intros n k lo w (N & E) W0 W1 H. apply Rabs_le_inv in E. destruct (hlg_enc_ok avx_lane _ avx_lane_ok N ltac:(lra)) as (_ & H'). apply Rabs_le_inv in H'. lra.
Qed.

(** Light up to a little above 1 is encoded up to a little above 1 *)
Lemma encoded_over : forall t x, t <> TBT2100PQ -> 0 <= x <= 1 + 1 / 40000 -> - (1 / 1000000) <= encoded t x <= 1 + 4 / 100000.
Proof.
  intros t x T X.
  assert (LO : - (1 / 1000000) <= encoded t x).
  { pose proof (encoded_mono t 0 x T ltac:(lra)) as H. rewrite (encoded_0 t T) in H. lra. }
  split; [exact LO|].
  assert (UP : encoded t (1 + 26 / 1000000) <= 1 + 39 / 1000000).
  { clear LO. destruct t; try congruence; cbn [encoded].
    - lra.
    - pose proof (power_over (1 + 26 / 1000000) (10 / 22) ltac:(lra) ltac:(lra)). lra.
    - pose proof (power_over (1 + 26 / 1000000) (10 / 28) ltac:(lra) ltac:(lra)). lra.
    - unfold srgb_encode. destruct (Rle_dec _ _); [lra|]. pose proof (power_over (1 + 26 / 1000000) (5 / 12) ltac:(lra) ltac:(lra)). lra.
    - unfold sdr_encode. destruct (Rlt_dec _ _); [lra|]. pose proof (power_over (1 + 26 / 1000000) (9 / 20) ltac:(lra) ltac:(lra)). lra.
    - assert (C : approx (f32_lit 1000028 6) (1000028 / 1000000) (1 / 1000000)) by const_approx.
      assert (O : approx (oetf avx_lane TBT2100HLG (f32_lit 1000028 6)) 1 (2 / 100000)) by const_approx. destruct O as (_ & O). apply Rabs_le_inv in O.
      pose proof (hlg_point 1000028 6 0 _ C ltac:(lra) ltac:(lra) ltac:(lra)) as H. destruct C as (_ & C). apply Rabs_le_inv in C.
      pose proof (encoded_mono TBT2100HLG (1 + 26 / 1000000) (fval (f32_lit 1000028 6)) ltac:(discriminate) ltac:(lra)) as M. cbn [encoded] in M. lra. }
  pose proof (encoded_mono t x (1 + 26 / 1000000) T ltac:(lra)). lra.
Qed.

(** The same for light a little below 0 *)
Lemma encoded_under : forall t x, t = TLinear \/ t = TSRGB \/ t = TSDR \/ t = TBT2100HLG -> - (1 / 40000) <= x < 0 -> - (1 / 2000) <= encoded t x <= 0.
Proof.
  intros t x [-> |[-> |[-> | ->]]] X; cbn [encoded].
  - lra.
  - unfold srgb_encode. destruct (Rle_dec _ _); lra.
  - unfold sdr_encode. destruct (Rlt_dec _ _); lra.
  - unfold hlg_encode. destruct (Rle_dec _ _); [|lra]. rewrite sqrt_neg by lra. lra.
Qed.

(** Light of the red of BT.2020 in BT.709 *)
Lemma encoded_red : forall t x, t = TLinear \/ t = TSRGB \/ t = TSDR \/ t = TBT2100HLG -> 165 / 100 <= x -> 108 / 100 <= encoded t x.
Proof.
  intros t x T X.
  assert (TP : t <> TBT2100PQ) by (destruct T as [-> |[-> |[-> | ->]]]; discriminate).
  pose proof (encoded_mono t (165 / 100) x TP ltac:(lra)) as M.
  enough (1085 / 1000 <= encoded t (165 / 100)) by lra. clear M X x TP.
  destruct T as [-> |[-> |[-> | ->]]]; cbn [encoded].
  - lra.
  - unfold srgb_encode. destruct (Rle_dec _ _); [lra|]. assert (12 / 10 < power (165 / 100) (5 / 12)) by (apply (power_above _ _ _ 5 12); simpl; lra). lra.
  - unfold sdr_encode. destruct (Rlt_dec _ _); [lra|]. assert (12 / 10 < power (165 / 100) (9 / 20)) by (apply (power_above _ _ _ 9 20); simpl; lra). lra.
  - assert (C : approx (f32_lit 1649 3) (1649 / 1000) (1 / 1000000)) by const_approx.
    assert (O : approx (oetf avx_lane TBT2100HLG (f32_lit 1649 3)) (10913 / 10000) (1 / 1000)) by const_approx. destruct O as (_ & O). apply Rabs_le_inv in O.
    pose proof (hlg_point 1649 3 (109 / 100) _ C ltac:(lra) ltac:(lra) ltac:(lra)) as H. destruct C as (_ & C). apply Rabs_le_inv in C.
    pose proof (encoded_mono TBT2100HLG (fval (f32_lit 1649 3)) (165 / 100) ltac:(discriminate) ltac:(lra)) as M. cbn [encoded] in M. lra.
Qed.

Lemma encoded_negative : forall t x, t = TLinear \/ t = TSRGB \/ t = TSDR \/ t = TBT2100HLG -> x <= 0 -> encoded t x <= 0.
Proof.
  intros t x [-> |[-> |[-> | ->]]] X; cbn [encoded].
  - lra.
  - unfold srgb_encode. destruct (Rle_dec _ _); lra.
  - unfold sdr_encode. destruct (Rlt_dec _ _); lra.
  - unfold hlg_encode. destruct (Rle_dec _ _); [|lra]. rewrite sqrt_neg_0 by lra. lra.
Qed.

Lemma decoded_of_0 : forall t, t <> TBT2100PQ -> decoded t 0 = 0.
Proof.
  intros t T. destruct t; try congruence; cbn [decoded]; try apply power_0.
  - reflexivity.
  - unfold srgb_decode. destruct (Rle_dec 0 _); lra.
  - unfold sdr_decode. destruct (Rlt_dec 0 _); lra.
  - unfold hlg_decode. destruct (Rle_dec 0 _); lra.
Qed.

Lemma chroma_mean_between : forall lo hi s q x y, (forall p, In p (chroma_block s x y) -> lo <= q (fst p) (snd p) <= hi) -> lo <= chroma_mean s q x y <= hi.
Proof.
  intros lo hi s q x y Q. unfold chroma_mean, mean. destruct s; unfold chroma_block in *; cbn [map fold_right length fst snd] in *.
  all: repeat match goal with H : forall p, In p (?a :: _) -> _ |- _ => pose proof (H a ltac:(left; reflexivity)); cbn [fst snd] in *; assert (forall p, In p _ -> lo <= q (fst p) (snd p) <= hi) by (intros p' P'; apply (H p'); right; exact P'); clear H end.
  all: cbn [fst snd INR] in *; lra.
Qed.

(** RGB samples are in 0 .. 1, and so is their light, about *)
Lemma source_unit : forall lm b m src sps dst dps, converts lm b m src sps dst dps -> bytes_ok m -> sampling_of (im_format src) = SRGB ->
  forall c x y, In c comps -> in_image dst x y -> 0 <= level m (im_format src) sps c x y / 255 <= 1.
Proof.
  intros lm b m src sps dst dps CVT B FS c x y HC HI.
  pose proof (converts_convertible _ _ _ _ _ _ _ CVT) as CT. assert (VS : valid_image src sps) by apply CVT.
  assert (HS : in_image src x y) by (unfold in_image in *; rewrite (cv_width _ _ _ _ CT), (cv_height _ _ _ _ CT); exact HI).
  assert (LV : levels_ok m src sps) by (apply bytes_levels; [exact B|destruct (im_format src); try discriminate FS; reflexivity]).
  assert (M : max_level (im_format src) = 255%Z) by (destruct (im_format src); try discriminate FS; reflexivity).
  assert (HH : has_comp (im_format src) c = true) by (unfold has_comp; rewrite FS; cbn [In comps] in HC; intuition (subst; reflexivity)).
  destruct (norm_acc m src sps c x y VS LV HS HH) as (_ & A'). rewrite M in A'. lra.
Qed.

Lemma light_wide : forall ts ps pd r g b c, ts <> TBT2100PQ -> 0 <= r <= 1 -> 0 <= g <= 1 -> 0 <= b <= 1 ->
  - 1 <= channel c (light_of ts ps pd r g b) <= 12 / 5.
Proof.
  intros ts ps pd r g b c T R G B. unfold light_of.
  pose proof (decoded_unit ts r T R) as R1. pose proof (decoded_unit ts g T G) as G1. pose proof (decoded_unit ts b T B) as B1.
  pose proof (linear_wide ps pd 0 (12 / 10) (decoded ts r, decoded ts g, decoded ts b) ltac:(lra) ltac:(lra) (conj R1 (conj G1 B1))) as W.
  destruct (from_xyz pd (to_xyz ps (decoded ts r, decoded ts g, decoded ts b))) as ((q1, q2), q3). destruct W as (W1 & W2 & W3).
  unfold channel, fst3, snd3, thd3. cbn [fst snd]. destruct c; lra.
Qed.

(** * Colors outside of the gamut *)

(** The red of BT.2020 in full range BT.709 with 10 or 12 bits: the red chroma
    needs one more bit *)
Theorem C67_gamut_refuted : forall sp sl b m src sps dst dps i k,
  converts (libm_of sp sl) b m src sps dst dps -> bytes_ok m ->
  sampling_of (im_format src) = SRGB -> sampling_of (im_format dst) <> SRGB -> sample_bytes (im_format dst) = 2%nat ->
  im_color dst = CYUV i -> yc_full_range i = true -> weights_of (yc_space i) = Some k -> yc_space i <> SpBT2020 ->
  ci_primaries (im_color src) = PrBT2020 -> yc_primaries i = PrBT709 ->
  ci_transfer (im_color src) <> TBT2100PQ ->
  yc_transfer i = TLinear \/ yc_transfer i = TSRGB \/ yc_transfer i = TSDR \/ yc_transfer i = TBT2100HLG ->
  forall x y, in_image dst x y ->
  (forall p, In p ((x, y) :: chroma_block (sampling_of (im_format dst)) x y) ->
     given m src sps CR (fst p) (snd p) = Some 255%Z /\ given m src sps CG (fst p) (snd p) = Some 0%Z /\ given m src sps CB (fst p) (snd p) = Some 0%Z) ->
  let cb := column_backend b (im_width dst) x in
  platform_pow sp sl cb -> (cb = NEON -> yc_transfer i = TLinear \/ yc_transfer i = TBT2100HLG) ->
  exists z, stored (libm_of sp sl) b m src dst dps CV x y = Some z /\ (max_level (im_format dst) < z)%Z.
Proof.
  intros sp sl b m src sps dst dps i k CVT B FS FD S2 CI FR W N20 PS PD TS TD x y HI RED cb PL NE.
  assert (SL : same_light (im_color src) (im_color dst) = false).
  { unfold same_light. rewrite CI. cbn [ci_transfer ci_primaries]. rewrite PS, PD. apply andb_false_r || (destruct (ci_transfer (im_color src)), (yc_transfer i); reflexivity). }
  assert (HC : has_comp (im_format dst) CV = true) by (unfold has_comp; destruct (sampling_of (im_format dst)); congruence).
  set (td := yc_transfer i) in *.
  pose proof (C78_rgb_to_yuv_partial sp sl b m src sps dst dps i k CVT B FS FD CI W SL TS) as T. rewrite CI in T. cbn [ci_transfer ci_primaries] in T. fold td in T.
  rewrite PS, PD in T. assert (TP : td <> TBT2100PQ) by (destruct TD as [-> |[-> |[-> | ->]]]; discriminate).
  specialize (T TP CV x y HC HI PL). cbv zeta in T. fold cb in T.
  pose proof (decoded_1 _ TS) as D1. pose proof (decoded_of_0 _ TS) as D0. set (ts := ci_transfer (im_color src)) in *.
  assert (LG : forall p, In p ((x, y) :: chroma_block (sampling_of (im_format dst)) x y) ->
    let l := light_of ts PrBT2020 PrBT709 (level m (im_format src) sps CR (fst p) (snd p) / 255) (level m (im_format src) sps CG (fst p) (snd p) / 255)
      (level m (im_format src) sps CB (fst p) (snd p) / 255) in
    166 / 100 <= channel CR l <= 167 / 100 /\ - (13 / 100) <= channel CG l <= - (12 / 100) /\ - (2 / 100) <= channel CB l <= - (1 / 100)).
  { intros p P. destruct (RED p P) as (G1 & G2 & G3). rewrite (level_given _ _ _ _ _ _ _ G1), (level_given _ _ _ _ _ _ _ G2), (level_given _ _ _ _ _ _ _ G3).
    replace (255 / 255) with 1 by field. replace (0 / 255) with 0 by field. unfold light_of. rewrite D0. set (w := decoded ts 1) in *.
    cbn [to_xyz from_xyz channel]. unfold channel, fst3, snd3, thd3. cbn [fst snd]. unfold dot. cbn [fadd fmul flit R_ops]. lits. lra. }
  destruct T as (near & NR & T).
  { intros p c P HCC. destruct (LG p P) as (L1 & L2 & L3).
    assert (DK : darkest cb td <= - (13 / 100)).
    { destruct TD as [E|[E|[E|E]]]; rewrite E in *; cbn [darkest]; try lra; destruct cb; try lra; destruct (NE eq_refl); discriminate. }
    cbn [In comps] in HCC. destruct HCC as [<- |[<- |[<- |[]]]]; lra. }
  assert (COL : forall p, In p ((x, y) :: chroma_block (sampling_of (im_format dst)) x y) ->
    108 / 100 <= encoded td (channel CR (near (fst p) (snd p))) <= 3 /\ -2 <= encoded td (channel CG (near (fst p) (snd p))) <= 0 /\ -2 <= encoded td (channel CB (near (fst p) (snd p))) <= 0).
  { intros p P. destruct (LG p P) as (L1 & L2 & L3).
    pose proof (NR p CR P ltac:(cbn; auto)) as N1. pose proof (NR p CG P ltac:(cbn; auto)) as N2. pose proof (NR p CB P ltac:(cbn; auto)) as N3.
    apply Rabs_le_inv in N1. apply Rabs_le_inv in N2. apply Rabs_le_inv in N3. cbv zeta in L1, L2, L3.
    set (l := light_of _ _ _ _ _ _) in *. set (n := near (fst p) (snd p)) in *. clearbody l n.
    assert (LOW : forall v, -1 / 7 <= v <= 0 -> -2 <= encoded td v).
    { intros v V. destruct TD as [E|[E|[E|E]]]; rewrite E; cbn [encoded]; [lra|unfold srgb_encode; destruct (Rle_dec _ _); lra|unfold sdr_encode; destruct (Rlt_dec _ _); lra|].
      unfold hlg_encode. destruct (Rle_dec _ _); [|lra]. rewrite sqrt_neg_0 by lra. lra. }
    split; [split; [apply encoded_red; [exact TD|lra]|]|].
    - pose proof (encoded_3 td (channel CR n) TP ltac:(lra)) as E3. apply Rabs_le_inv in E3. lra.
    - split; (split; [apply LOW; lra|apply encoded_negative; [exact TD|lra]]). }
  clear LG NR.
  set (cr' := chroma_mean (sampling_of (im_format dst)) (fun x y => encoded td (channel CR (near x y))) x y).
  set (cg' := chroma_mean (sampling_of (im_format dst)) (fun x y => written_green (yc_space i) (encoded td (channel CG (near x y)))) x y).
  set (cb' := chroma_mean (sampling_of (im_format dst)) (fun x y => encoded td (channel CB (near x y))) x y).
  assert (WG : forall v, written_green (yc_space i) v = v) by (intros v; unfold written_green; destruct (yc_space i); try reflexivity; congruence).
  assert (R1 : 108 / 100 <= cr' <= 3) by (apply chroma_mean_between; intros p P; apply (COL p); right; exact P).
  assert (R2 : -2 <= cg' <= 0) by (apply chroma_mean_between; intros p P; rewrite WG; apply (COL p); right; exact P).
  assert (R3 : -2 <= cb' <= 0) by (apply chroma_mean_between; intros p P; apply (COL p); right; exact P).
  unfold ideal_level in T. fold cr' cg' cb' in T. rewrite FR, S2 in T. cbn [Nat.eqb] in T.
  assert (KK : k = bt601 \/ k = bt709) by (destruct (matrix_known _ _ W N20) as [(_ & ->)|(_ & ->)]; auto).
  assert (VB : 54 / 100 <= cr k cr' cg' cb' <= 6).
  { destruct KK as [-> | ->]; unfold cr, luma, w_g, bt601, bt709; cbn [w_r w_b]; lra. }
  set (v := cr k cr' cg' cb') in *. clearbody v.
  assert (MD : IZR (max_level (im_format dst)) = 1023 \/ IZR (max_level (im_format dst)) = 4095) by (destruct (im_format dst); cbn in S2 |- *; auto; discriminate S2).
  unfold c_level in T. destruct T as (z & ST & _ & SF); [intros _; destruct MD as [-> | ->]; lra|].
  exists z. split; [exact ST|]. rewrite clamp_id in SF by (destruct MD as [-> | ->]; lra). apply lt_IZR.
  destruct cb; cbn [stored_for] in SF; unfold truncated, rounded in SF; try apply Rabs_le_inv in SF; destruct MD as [E|E]; rewrite E in *; lra.
Qed.
Print Assumptions C67_gamut_refuted.

(** * White *)

(** The SDR curve decodes white to light 1.0006 (C36_sdr_white): as linear light
    with 12 bits it is above the largest level *)
Theorem C67_white_refuted : forall sp sl b m src sps dst dps i k,
  converts (libm_of sp sl) b m src sps dst dps -> bytes_ok m ->
  sampling_of (im_format src) = SRGB -> sampling_of (im_format dst) <> SRGB -> max_level (im_format dst) = 4095%Z ->
  im_color dst = CYUV i -> yc_full_range i = true -> weights_of (yc_space i) = Some k -> yc_space i <> SpBT2020 ->
  ci_transfer (im_color src) = TSDR -> yc_transfer i = TLinear ->
  forall x y, in_image dst x y -> gray m src sps x y 255 ->
  platform_pow sp sl (column_backend b (im_width dst) x) ->
  exists z, stored (libm_of sp sl) b m src dst dps CY x y = Some z /\ (4095 < z)%Z.
Proof.
  intros sp sl b m src sps dst dps i k CVT B FS FD M12 CI FR W N20 TS TD x y HI (G1 & G2 & G3) PL.
  assert (SL : same_light (im_color src) (im_color dst) = false) by (unfold same_light; rewrite CI; cbn [ci_transfer]; rewrite TS, TD; reflexivity).
  assert (HC : has_comp (im_format dst) CY = true) by (unfold has_comp; destruct (sampling_of (im_format dst)); congruence).
  pose proof (C78_rgb_to_yuv_partial sp sl b m src sps dst dps i k CVT B FS FD CI W SL) as T. rewrite CI in T. cbn [ci_transfer ci_primaries] in T. rewrite TS, TD in T.
  specialize (T ltac:(discriminate) ltac:(discriminate) CY x y HC HI PL). cbv zeta in T. set (cb := column_backend b (im_width dst) x) in *.
  pose proof (converts_convertible _ _ _ _ _ _ _ CVT) as CT.
  destruct T as (near & NR & T).
  { intros p c P HCC. cbn [darkest].
    assert (PI : in_image dst (fst p) (snd p)) by (eapply block_in_image; [apply CT|apply CT|exact HI|exact P]).
    pose proof (light_wide TSDR (ci_primaries (im_color src)) (yc_primaries i) _ _ _ c ltac:(discriminate)
      (source_unit _ _ _ _ _ _ _ CVT B FS CR _ _ ltac:(cbn; auto) PI) (source_unit _ _ _ _ _ _ _ CVT B FS CG _ _ ltac:(cbn; auto) PI)
      (source_unit _ _ _ _ _ _ _ CVT B FS CB _ _ ltac:(cbn; auto) PI)) as LW. lra. }
  assert (L1 : near3 (light_of TSDR (ci_primaries (im_color src)) (yc_primaries i) 1 1 1) (decoded TSDR 1, decoded TSDR 1, decoded TSDR 1) (4 / 1000000 * Rabs (decoded TSDR 1))) by apply gray_light.
  assert (W1 : 10005 / 10000 <= decoded TSDR 1 <= 10008 / 10000).
  { split; [|apply (decoded_1 TSDR); discriminate]. cbn [decoded]. unfold sdr_decode. destruct (Rlt_dec _ _); [lra|]. left. apply (power_above _ _ _ 20 9); simpl; lra. }
  rewrite (Rabs_pos_eq (decoded TSDR 1)) in L1 by lra. set (w := decoded TSDR 1) in *. clearbody w.
  pose proof (NR (x, y) CR ltac:(left; reflexivity) ltac:(cbn; auto)) as N1. pose proof (NR (x, y) CG ltac:(left; reflexivity) ltac:(cbn; auto)) as N2.
  pose proof (NR (x, y) CB ltac:(left; reflexivity) ltac:(cbn; auto)) as N3. cbn [fst snd] in N1, N2, N3.
  rewrite (level_given _ _ _ _ _ _ _ G1), (level_given _ _ _ _ _ _ _ G2), (level_given _ _ _ _ _ _ _ G3) in N1, N2, N3.
  replace (255 / 255) with 1 in N1, N2, N3 by field.
  destruct (light_of TSDR (ci_primaries (im_color src)) (yc_primaries i) 1 1 1) as ((l1, l2), l3). destruct L1 as (L1 & L2 & L3).
  unfold channel, fst3, snd3, thd3 in N1, N2, N3. cbn [fst snd] in N1, N2, N3.
  apply Rabs_le_inv in L1. apply Rabs_le_inv in L2. apply Rabs_le_inv in L3. apply Rabs_le_inv in N1. apply Rabs_le_inv in N2. apply Rabs_le_inv in N3.
  assert (WG : forall v, written_green (yc_space i) v = v) by (intros v; unfold written_green; destruct (yc_space i); try reflexivity; congruence).
  unfold ideal_level in T. rewrite FR, M12, WG in T. unfold y_level in T. cbn [encoded] in T. unfold channel, fst3, snd3, thd3 in T.
  assert (KK : k = bt601 \/ k = bt709) by (destruct (matrix_known _ _ W N20) as [(_ & ->)|(_ & ->)]; auto).
  destruct (near x y) as ((n1, n2), n3). cbn [fst snd] in *.
  assert (LB : 10004 / 10000 <= luma k n1 n2 n3 <= 1001 / 1000).
  { destruct KK as [-> | ->]; unfold luma, w_g, bt601, bt709; cbn [w_r w_b]; lra. }
  set (v := luma k n1 n2 n3) in *. clearbody v.
  assert (HI' : (if (sample_bytes (im_format dst) =? 2)%nat then 65535 else 255)%Z = 65535%Z) by (destruct (im_format dst); cbn in M12 |- *; try discriminate M12; reflexivity).
  rewrite HI' in T. destruct T as (z & ST & _ & SF); [lra|]. exists z. split; [exact ST|]. rewrite clamp_id in SF by lra. apply lt_IZR.
  destruct cb; cbn [stored_for] in SF; unfold truncated, rounded in SF; try apply Rabs_le_inv in SF; lra.
Qed.
Print Assumptions C67_white_refuted.

(** * Within the gamut *)

(** Light for which the encoding is not below 0 (or not by much, in limited range) *)
Definition dim_limit (full : bool) (t : color_transfer) : R :=
  match full, t with false, (TLinear | TSRGB | TSDR | TBT2100HLG) => 0 | _, _ => 1 / 2500 end.

(** Where the light of the pixels is at most white, in the primaries of the
    destination, every sample fits the bit depth.
    Missing: PQ; light below 1/2500 in full range. *)
Theorem C67_recolored_partial : forall sp sl b m src sps dst dps i k,
  converts (libm_of sp sl) b m src sps dst dps -> bytes_ok m ->
  sampling_of (im_format src) = SRGB -> sampling_of (im_format dst) <> SRGB ->
  im_color dst = CYUV i -> weights_of (yc_space i) = Some k -> yc_space i <> SpBT2020 ->
  same_light (im_color src) (im_color dst) = false ->
  let ts := ci_transfer (im_color src) in
  let td := ci_transfer (im_color dst) in
  ts <> TBT2100PQ -> td <> TBT2100PQ ->
  forall c x y, has_comp (im_format dst) c = true -> in_image dst x y ->
  let s c x y := level m (im_format src) sps c x y / 255 in
  let light x y := light_of ts (ci_primaries (im_color src)) (ci_primaries (im_color dst)) (s CR x y) (s CG x y) (s CB x y) in
  (forall p c, In p ((x, y) :: chroma_block (sampling_of (im_format dst)) x y) -> In c comps ->
     dim_limit (yc_full_range i) td <= channel c (light (fst p) (snd p)) <= 1) ->
  platform_pow sp sl (column_backend b (im_width dst) x) ->
  exists z, stored (libm_of sp sl) b m src dst dps c x y = Some z /\ (0 <= z <= max_level (im_format dst))%Z.
Proof.
  intros sp sl b m src sps dst dps i k CVT B FS FD CI W N20 SL ts td TS TP c x y HC HI s light GM PL.
  set (cb := column_backend b (im_width dst) x) in *.
  pose proof (C78_rgb_to_yuv_partial sp sl b m src sps dst dps i k CVT B FS FD CI W SL TS TP c x y HC HI PL) as T. cbv zeta in T. fold cb td ts in T.
  assert (D0 : dim_limit (yc_full_range i) td = 1 / 2500 \/
    (dim_limit (yc_full_range i) td = 0 /\ yc_full_range i = false /\ (td = TLinear \/ td = TSRGB \/ td = TSDR \/ td = TBT2100HLG))).
  { unfold dim_limit. destruct (yc_full_range i), td; auto 10; congruence. }
  destruct T as (near & NR & T).
  { intros p c' P HC'. specialize (GM p c' P HC'). fold (s CR (fst p) (snd p)). fold (s CG (fst p) (snd p)). fold (s CB (fst p) (snd p)). fold (light (fst p) (snd p)).
    assert (DK : darkest cb td <= dim_limit (yc_full_range i) td).
    { destruct D0 as [-> |(-> & _ & TD)]; [destruct td, cb; cbn [darkest]; lra|]. destruct TD as [E|[E|[E|E]]]; rewrite E; destruct cb; cbn [darkest]; lra. }
    lra. }
  set (lo := match yc_full_range i with true => - (1 / 1000000) | false => - (1 / 2000) end).
  assert (COL : forall p c', In p ((x, y) :: chroma_block (sampling_of (im_format dst)) x y) -> In c' comps ->
    lo <= encoded td (channel c' (near (fst p) (snd p))) <= 1 + 4 / 100000).
  { intros p c' P HC'. specialize (GM p c' P HC'). pose proof (NR p c' P HC') as N. apply Rabs_le_inv in N.
    fold (s CR (fst p) (snd p)) in N. fold (s CG (fst p) (snd p)) in N. fold (s CB (fst p) (snd p)) in N. fold (light (fst p) (snd p)) in N.
    set (v := channel c' (near (fst p) (snd p))) in *. set (l := channel c' (light (fst p) (snd p))) in *. clearbody v l.
    assert (LO : lo <= - (1 / 1000000)) by (unfold lo; destruct (yc_full_range i); lra).
    destruct (Rle_lt_dec 0 v) as [V|V].
    - pose proof (encoded_over td v TP ltac:(destruct D0 as [D0|(D0 & _)]; rewrite D0 in GM; lra)). lra.
    - destruct D0 as [D0|(D0 & FR & TD)]; rewrite D0 in GM; [lra|]. pose proof (encoded_under td v TD ltac:(lra)). unfold lo. rewrite FR. lra. }
  clear NR GM.
  assert (WG : forall v, written_green (yc_space i) v = v) by (intros v; unfold written_green; destruct (yc_space i); try reflexivity; congruence).
  assert (KK : k = bt601 \/ k = bt709) by (destruct (matrix_known _ _ W N20) as [(_ & ->)|(_ & ->)]; auto).
  set (t := ideal_level _ _ _ _ _ _ _ _ _) in T.
  pose proof (max_level_R (im_format dst)) as MR. set (M := IZR (max_level (im_format dst))) in *.
  assert (MB : M = 255 \/ M = 1023 \/ M = 4095) by (unfold M; destruct (im_format dst); cbn; auto).
  assert (TB : - (1 / 40000) * M <= t <= (1 + 41 / 1000000) * M).
  { assert (Q : forall r g bl, lo <= r <= 1 + 4 / 100000 -> lo <= g <= 1 + 4 / 100000 -> lo <= bl <= 1 + 4 / 100000 ->
      (- (1 / 40000) * M <= y_level (yc_full_range i) M (luma k r g bl) <= (1 + 41 / 1000000) * M) /\
      (- (1 / 40000) * M <= c_level (yc_full_range i) M (SpecReal.cb k r g bl) <= (1 + 41 / 1000000) * M) /\
      (- (1 / 40000) * M <= c_level (yc_full_range i) M (cr k r g bl) <= (1 + 41 / 1000000) * M)).
    { intros r g bl R1 R2 R3. unfold lo in *. unfold y_level, c_level. clear T COL t.
      destruct KK as [-> | ->], (yc_full_range i); unfold luma, SpecReal.cb, cr, luma, w_g, bt601, bt709; cbn [w_r w_b]; destruct MB as [E|[E|E]]; rewrite E; lra. }
    assert (MN : forall q : nat -> nat -> R, (forall p, In p (chroma_block (sampling_of (im_format dst)) x y) -> lo <= q (fst p) (snd p) <= 1 + 4 / 100000) ->
      lo <= chroma_mean (sampling_of (im_format dst)) q x y <= 1 + 4 / 100000) by (intros q H; apply chroma_mean_between; exact H).
    assert (I1 : In CR comps) by (cbn; auto). assert (I2 : In CG comps) by (cbn; auto). assert (I3 : In CB comps) by (cbn; auto).
    assert (X0 : In (x, y) ((x, y) :: chroma_block (sampling_of (im_format dst)) x y)) by (left; reflexivity).
    unfold t, ideal_level. fold M.
    destruct (Q _ _ _ (MN (fun x y => encoded td (channel CR (near x y))) (fun p P => COL p CR (or_intror P) I1))
      (MN (fun x y => written_green (yc_space i) (encoded td (channel CG (near x y)))) (fun p P => eq_ind_r (fun v => lo <= v <= _) (COL p CG (or_intror P) I2) (WG _)))
      (MN (fun x y => encoded td (channel CB (near x y))) (fun p P => COL p CB (or_intror P) I3))) as (_ & Q2 & Q3).
    destruct (Q _ _ _ (COL (x, y) CR X0 I1) (COL (x, y) CG X0 I2) (COL (x, y) CB X0 I3)) as (Q1 & _ & _). cbn [fst snd] in Q1.
    destruct c; try exact Q2; try exact Q3; rewrite WG; exact Q1. }
  clearbody t. clear COL.
  set (hi := IZR (if (sample_bytes (im_format dst) =? 2)%nat then 65535 else 255)) in *.
  assert (HH : M = 255 /\ hi = 255 \/ M <= 4095 /\ hi = 65535) by (unfold M, hi; destruct (im_format dst); cbn; (left; split; lra) || (right; split; lra)).
  destruct T as (z & ST & Z0 & SF); [intros _; destruct MB as [E|[E|E]], HH as [(HM & HH)|(HM & HH)]; rewrite HH; lra|].
  exists z. split; [exact ST|]. split; [exact Z0|].
  assert (CB : clamp hi t <= (1 + 41 / 1000000) * M).
  { destruct (clamp_cases hi t ltac:(destruct HH as [(_ & ->)|(_ & ->)]; lra)) as [(? & C)|[(? & C)|(? & C)]]; rewrite C; lra. }
  assert (ZM : IZR z < M + 1).
  { destruct cb; cbn [stored_for] in SF; unfold truncated, rounded in SF; try apply Rabs_le_inv in SF; destruct MB as [E|[E|E]]; rewrite E in *; lra. }
  unfold M in ZM. rewrite <- plus_IZR in ZM. apply lt_IZR in ZM. lia.
Qed.
Print Assumptions C67_recolored_partial.

(** * Examples *)

Definition red_mem : mem := fun _ i => if (i mod 4 =? 0)%nat then 255%Z else 0%Z.
Definition flat_mem (z : Z) : mem := fun _ _ => z.
Definition rgb_from (t : color_transfer) (p : color_primaries) : image := ex_image RGBA 2 2 (CRGB t p) (ex_rgba_planes 0).
Definition deep_to (f : pixel_format) (t : color_transfer) (p : color_primaries) (full : bool) : image :=
  ex_image f 2 2 (CYUV (YuvCI t p SpBT709 full)) wide_planes10.

Ltac deep_converts := apply runs; [| |apply wide_disjoint|discriminate|vm_compute; reflexivity];
  (split; [reflexivity|split; [repeat constructor; cbn; unfold usize; cbn; lia|reflexivity]]).

Ltac deep_narrow b := cbn [map]; rewrite !(fun lm m src dst dps c x y => narrow_expected lm b m src (ex_rgba_planes 0) dst dps c x y) by
  (match goal with |- converts _ _ _ _ _ _ _ => deep_converts | |- in_image _ _ _ => split; cbn; lia | |- _ => reflexivity end); vm_compute; reflexivity.

Example C67_example_gamut : forall b, let lm := libm_of avx_pow avx_log in
  let src := rgb_from TLinear PrBT2020 in let dst := deep_to I010 TLinear PrBT709 true in
  converts lm b red_mem src (ex_rgba_planes 0) dst wide_planes10 /\ bytes_ok red_mem /\
  (forall x y, (x < 2)%nat -> (y < 2)%nat -> given red_mem src (ex_rgba_planes 0) CR x y = Some 255%Z /\
     given red_mem src (ex_rgba_planes 0) CG x y = Some 0%Z /\ given red_mem src (ex_rgba_planes 0) CB x y = Some 0%Z) /\
  max_level (im_format dst) = 1023%Z /\
  map (fun c => stored lm b red_mem src dst wide_planes10 c 1 1) [CV] = [Some 1419]%Z.
Proof.
  intros b lm src dst. unfold lm, src, dst. split; [deep_converts|]. split; [intros a i; unfold red_mem; destruct (_ =? _)%nat; lia|].
  split; [intros x y X Y; destruct x as [|[|x]], y as [|[|y]]; try lia; repeat split; vm_compute; reflexivity|]. split; [reflexivity|].
  deep_narrow b.
Qed.

Example C67_example_white : forall b, let lm := libm_of avx_pow avx_log in
  let src := rgb_from TSDR PrBT709 in let dst := deep_to I012 TLinear PrBT709 true in
  converts lm b (flat_mem 255) src (ex_rgba_planes 0) dst wide_planes10 /\ bytes_ok (flat_mem 255) /\
  gray (flat_mem 255) src (ex_rgba_planes 0) 1 1 255 /\ max_level (im_format dst) = 4095%Z /\
  map (fun c => stored lm b (flat_mem 255) src dst wide_planes10 c 1 1) [CY] = [Some 4097]%Z.
Proof.
  intros b lm src dst. unfold lm, src, dst. split; [deep_converts|]. split; [intros a i; unfold flat_mem; lia|].
  split; [repeat split; vm_compute; reflexivity|]. split; [reflexivity|]. deep_narrow b.
Qed.

Example C67_example_recolored : forall b, let lm := libm_of avx_pow avx_log in
  let src := rgb_from TLinear PrBT709 in let dst := deep_to I012 TSRGB PrBT2020 true in
  converts lm b (flat_mem 200) src (ex_rgba_planes 0) dst wide_planes10 /\ bytes_ok (flat_mem 200) /\
  same_light (im_color src) (im_color dst) = false /\ (forall cb, platform_pow avx_pow avx_log cb) /\
  (forall x y c, (x < 2)%nat -> (y < 2)%nat -> In c comps ->
     let s c := level (flat_mem 200) (im_format src) (ex_rgba_planes 0) c x y / 255 in
     dim_limit true TSRGB <= channel c (light_of TLinear PrBT709 PrBT2020 (s CR) (s CG) (s CB)) <= 1) /\
  map (fun c => stored lm b (flat_mem 200) src dst wide_planes10 c 1 1) [CY; CU] = [Some 3679; Some 2047]%Z.
Proof.
  intros b lm src dst. split; [unfold lm, src, dst; deep_converts|]. split; [intros a i; unfold flat_mem; lia|]. split; [reflexivity|].
  split; [intros cb _; split; [exact avx_pow_ok|split; [exact (log_contract avx_log avx_log_ok)|exact avx_pow_negative]]|]. split.
  { intros x y c X Y HC s.
    assert (SE : forall c, In c comps -> s c = 200 / 255).
    { intros c' HC'. unfold s. cbn [In comps] in HC'.
      assert (XX : (x = 0 \/ x = 1)%nat) by lia. assert (YY : (y = 0 \/ y = 1)%nat) by lia.
      destruct HC' as [<- |[<- |[<- |[]]]]; destruct XX as [-> | ->], YY as [-> | ->]; reflexivity. }
    rewrite !SE by (cbn; auto). pose proof (gray_light PrBT709 PrBT2020 (200 / 255)) as GL. unfold light_of. cbn [decoded dim_limit].
    rewrite Rabs_pos_eq in GL by lra. destruct (from_xyz _ _) as ((q1, q2), q3). destruct GL as (L1 & L2 & L3).
    apply Rabs_le_inv in L1, L2, L3. cbn [In comps] in HC. destruct HC as [<- |[<- |[<- |[]]]]; unfold channel, fst3, snd3, thd3; cbn [fst snd] in *; lra. }
  unfold lm, src, dst. deep_narrow b.
Qed.
