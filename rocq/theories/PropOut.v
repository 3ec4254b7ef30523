(** C78: recoloring to YUV, for every curve but PQ, in and out of the gamut. *)

From Coq Require Import List ZArith Bool Arith Reals Lia Lra Psatz.
From Coq Require Import Floats.SpecFloat.
From Flocq Require Import Core.
From Verif Require Import Base Types Planes ImageM F32 Vector Simd SpecVector SimdProofs QuantProofs SpecGeom GeomProofs
  SpecColor SpecConvert SpecRun Formats Visit Convert VisitProofs ColorProofs ConvertProofs ExactProofs PropConvert PropFidelity
  SpecReal FloatProofs AccProofs TargetProofs PropColor ColorR SpecTransfer PowerProofs MathProofs SpecMath LaneProofs TransferProofs
  Math NegProofs RecolorProofs PropRecolor GamutProofs PropGamut GrayProofs PropGray PropDrift PropBT2020.
Import ListNotations.
Local Open Scope R_scope.

(** * Encoding negative light *)

Lemma lane_below : forall sp sl b x y, is_num x -> is_num y -> fval x < 0 < fval y -> (b = NEON -> - fval y < fval x) ->
  let L := lane_of (libm_of sp sl) b in l_lt L x y = true /\ l_le L x y = true.
Proof.
  intros sp sl b x y NX NY B H L.
  assert (S : f32_lt x y = true /\ f32_le x y = true).
  { rewrite f32_lt_num, f32_le_num by assumption. split; [apply lt_bool|apply le_bool]; lra. }
  destruct b; [exact S|exact S|exact S|]. apply (lane_small sp sl NEON x y NX NY). specialize (H eq_refl). lra.
Qed.

(** Light that the code encodes without surprise: the curves are continued
    below 0 as straight lines (linear, sRGB, SDR) or with 0 (HLG).  NEON compares
    absolute values and takes the wrong branch of the curve for darker light.
    Gamma 2.2 and 2.8 have no negative light (C64_out_of_gamut_zero). *)
Definition darkest (b : backend) (t : color_transfer) : R :=
  match t with
  | TLinear | TBT2100HLG => -2
  | TSRGB => match b with NEON => - (1 / 500) | _ => - (1 / 5) end
  | TSDR => match b with NEON => - (1 / 60) | _ => - (3 / 5) end
  | _ => 1 / 2500
  end.

Lemma encoded_3 : forall t x, t <> TBT2100PQ -> 0 <= x <= 51 / 20 -> Rabs (encoded t x) <= 3.
Proof.
  intros t x T X.
  assert (P : forall y, 35 / 100 <= y <= 1 / 2 -> 0 <= power x y <= 2).
  { intros y Y. split; [apply power_ge0|]. apply Rle_trans with (power 4 y); [apply power_le; lra|]. rewrite power_pos by lra.
    apply Rle_trans with (Rpower 4 (1 / 2)); [unfold Rpower; apply exp_le; assert (0 <= ln 4) by (left; rewrite <- ln_1; apply ln_increasing; lra); nra|].
    replace (1 / 2) with (/ 2) by lra. rewrite Rpower_sqrt by lra. right. replace 4 with (2 * 2) by ring. apply sqrt_square. lra. }
  destruct t; cbn [encoded]; try congruence; apply Rabs_le.
  - lra.
  - pose proof (P (10 / 22) ltac:(lra)). lra.
  - pose proof (P (10 / 28) ltac:(lra)). lra.
  - unfold srgb_encode. destruct (Rle_dec x _); [lra|]. pose proof (P (5 / 12) ltac:(lra)). lra.
  - unfold sdr_encode. destruct (Rlt_dec x _); [lra|]. pose proof (P (9 / 20) ltac:(lra)). lra.
  - unfold hlg_encode. destruct (Rle_dec x _).
    + pose proof (sqrt_pos (3 * x)). assert (sqrt (3 * x) <= 1) by (rewrite <- sqrt_1; apply sqrt_le_1_alt; lra). lra.
    + assert (L1 : ln (12 * x - hb) <= ln (2 * (2 * (2 * (2 * 2))))) by (apply ln_le; unfold hb; lra).
      rewrite !ln_mult in L1 by lra. pose proof ln_2.
      assert (L4 : -1 <= ln (12 * x - hb)).
      { replace (-1) with (ln (exp (-1))) by apply ln_exp. apply ln_le; [apply exp_pos|].
        assert (exp (-1) <= 1 / 2); [|unfold hb; lra]. replace (-1) with (- (1)) by ring. rewrite exp_Ropp. pose proof (exp_ineq1_le 1).
        replace (1 / 2) with (/ 2) by lra. apply Rinv_le_contravar; lra. }
      unfold ha, hc in *. lra.
Qed.

Lemma encode_any : forall sp sl b t x, let L := lane_of (libm_of sp sl) b in accurate L -> t <> TBT2100PQ -> is_num x ->
  darkest b t - 1 / 2500 <= fval x <= 5 / 2 ->
  exists X, Rabs (X - fval x) <= 1 / 100000000 /\ approx (oetf L t x) (encoded t X) (5 / 1000000) /\ Rabs (encoded t X) <= 3.
Proof.
  intros sp sl b t x L A T N B.
  destruct (Rle_dec 0 (fval x)) as [P|P].
  { destruct (encode_num L t x A T N ltac:(lra)) as (X & XB & XE & Q). exists X. split; [exact XE|]. split; [exact Q|].
    apply Rabs_le_inv in XE. apply encoded_3; [exact T|lra]. }
  exists (fval x). split; [rewrite Rminus_diag_eq, Rabs_R0 by reflexivity; lra|].
  assert (MU : forall c C, approx c C (1 / 1000000) -> 4 <= C <= 13 -> Rabs (fval x * C) <= 29 / 10 -> fval x <> 0 -> Rabs (fval x) <= 7 / 10 ->
    approx (f32_mul x c) (C * fval x) (5 / 1000000) /\ approx (f32_mul c x) (C * fval x) (5 / 1000000)).
  { intros c C HC CB BC _ BX. pose proof (exact_approx x N) as X0.
    assert (BM : (Rabs (fval x) + 0) * (1 / 1000000) + Rabs C * 0 <= 1 / 1000000) by lra.
    split.
    - eapply approx_le; [eapply approx_eq; [apply (approx_mul _ _ _ _ _ _ (7 / 10) 13 10 X0 HC); try lra; try (rewrite Rabs_pos_eq by lra; lra)|ring]|].
      unfold half_ulp; lra.
    - eapply approx_le; [eapply approx_eq; [apply (approx_mul _ _ _ _ _ _ 13 (7 / 10) 10 HC X0); try lra; try (rewrite Rabs_pos_eq by lra; lra)|ring]|].
      unfold half_ulp; lra. }
  destruct t; try congruence; cbn [darkest] in B; try lra.
  - cbn [oetf encoded]. split; [eapply approx_le; [apply exact_approx, N|lra]|apply Rabs_le; lra].
  - assert (BX : - (23 / 100) <= fval x < 0) by (destruct b; lra).
    assert (CT : approx (f32_lit 31308 7) (31308 / 10000000) (1 / 1000000000)) by const_approx. destruct CT as (NT & ET). apply Rabs_le_inv in ET.
    assert (CK : approx (f32_lit 1292 2) (1292 / 100) (1 / 1000000)) by const_approx.
    run_f32. destruct (lane_below sp sl b x (f32_lit 31308 7) N NT ltac:(lra)) as (_ & LE); [intros ->; lra|]. fold L in LE. rewrite LE.
    cbn [encoded]. unfold srgb_encode. destruct (Rle_dec (fval x) _) as [_|C]; [|lra].
    assert (BB : Rabs (fval x * (1292 / 100)) <= 29 / 10) by (apply Rabs_le; destruct b; lra).
    split; [apply (MU _ _ CK); try lra; try exact BB; apply Rabs_le; lra|]. rewrite Rmult_comm. lra.
  - assert (BX : - (63 / 100) <= fval x < 0) by (destruct b; lra).
    assert (CT : approx (f32_lit 1805397 8) (1805397 / 100000000) (1 / 1000000000)) by const_approx. destruct CT as (NT & ET). apply Rabs_le_inv in ET.
    assert (CK : approx (f32_lit 45 1) (9 / 2) (1 / 1000000)) by const_approx.
    run_f32. destruct (lane_below sp sl b x (f32_lit 1805397 8) N NT ltac:(lra)) as (LT & _); [intros ->; lra|]. fold L in LT. rewrite LT.
    cbn [encoded]. unfold sdr_encode. destruct (Rlt_dec (fval x) _) as [_|C]; [|lra].
    assert (BB : Rabs (fval x * (9 / 2)) <= 29 / 10) by (apply Rabs_le; destruct b; lra).
    split; [apply (MU _ _ CK); try lra; try exact BB; apply Rabs_le; lra|]. rewrite Rmult_comm. lra.
  - assert (E0 : hlg_encode (fval x) = 0).
    { unfold hlg_encode. destruct (Rle_dec (fval x) _) as [_|C]; [|lra]. apply sqrt_neg_0. lra. }
    pose proof (hlg_enc_max L x A N ltac:(lra)) as Q. rewrite Rmax_right in Q by lra.
    pose proof (encoded_0 TBT2100HLG ltac:(discriminate)) as Z0. cbn [encoded] in Z0 |- *. rewrite Z0 in Q. rewrite E0. split; [exact Q|]. rewrite Rabs_R0. lra.
Qed.

(** * Storing *)

Lemma choose : forall (T : Type) (P : nat * nat -> T -> Prop) (d : T) l, (forall p, In p l -> exists t, P p t) ->
  exists f : nat -> nat -> T, forall p, In p l -> P p (f (fst p) (snd p)).
Proof.
  intros T P d l. induction l as [|q l IH]; intros H; [exists (fun _ _ => d); intros p []|].
  destruct IH as (f & F); [intros p HP; apply H; right; exact HP|]. destruct (H q (or_introl eq_refl)) as (t & HT).
  exists (fun x y => if (Nat.eqb x (fst q) && Nat.eqb y (snd q))%bool then t else f x y). intros p HP.
  destruct (Nat.eqb (fst p) (fst q) && Nat.eqb (snd p) (snd q))%bool eqn:E.
  - apply andb_true_iff in E as (E1 & E2). apply Nat.eqb_eq in E1, E2. destruct p, q. cbn [fst snd] in *. subst. exact HT.
  - destruct HP as [->|HP]; [rewrite !Nat.eqb_refl in E; discriminate E|]. apply F, HP.
Qed.

Lemma light_stored : forall sp sl b m src sps dst dps i k light e,
  converts (libm_of sp sl) b m src sps dst dps -> same_light (im_color src) (im_color dst) = false ->
  sampling_of (im_format dst) <> SRGB -> im_color dst = CYUV i -> weights_of (yc_space i) = Some k ->
  let ts := ci_transfer (im_color src) in
  let td := ci_transfer (im_color dst) in
  td <> TBT2100PQ ->
  forall c x y, has_comp (im_format dst) c = true -> in_image dst x y ->
  let cb := column_backend b (im_width dst) x in
  let L := lane_of (libm_of sp sl) cb in
  accurate L ->
  let block := (x, y) :: chroma_block (sampling_of (im_format dst)) x y in
  (forall p, In p block ->
     approx3 (from_xyz (ci_primaries (im_color dst)) (to_xyz (ci_primaries (im_color src))
       (map3 (eotf L ts) (fst (source_pixel L m (im_format src) (im_color src) sps (fst p) (snd p)))))) (light (fst p) (snd p)) e /\
     forall c, In c comps -> darkest cb td - 1 / 2500 + e <= channel c (light (fst p) (snd p)) <= 5 / 2 - e) ->
  exists near : nat -> nat -> R * R * R,
    (forall p c, In p block -> In c comps ->
       Rabs (channel c (near (fst p) (snd p)) - channel c (light (fst p) (snd p))) <= e + 2 / 100000000) /\
    let color c x y := encoded td (channel c (near x y)) in
    let t := ideal_level k (yc_full_range i) (im_format dst) (color CR) (fun x y => written_green (yc_space i) (color CG x y)) (color CB) c x y in
    let hi := IZR (if (sample_bytes (im_format dst) =? 2)%nat then 65535 else 255) in
    (cb = AVX512 -> - (1 / 4) <= t <= hi + 1 / 4) ->
    exists z, stored (libm_of sp sl) b m src dst dps c x y = Some z /\ (0 <= z)%Z /\
      stored_for cb (IZR (max_level (im_format dst)) / 50000) (clamp hi t) z.
Proof.
  intros sp sl b m src sps dst dps i k light e CVT SL SF CI WK ts td TD c x y HC HI cb L A block H.
  pose proof (light_kind _ _ SL) as SK.
  assert (EX : forall p, In p block -> exists w : R * R * R,
    (forall c, In c comps -> Rabs (channel c w - channel c (light (fst p) (snd p))) <= e + 2 / 100000000) /\
    pixel_approx (5 / 1000000) (recolored L (im_color src) (im_color dst) (source_pixel L m (im_format src) (im_color src) sps (fst p) (snd p)))
      (encoded td (channel CR w)) (encoded td (channel CG w)) (encoded td (channel CB w))).
  { intros p HP. destruct (H p HP) as (LA & GM). clear H. unfold recolored. rewrite SL. fold ts td.
    destruct (source_pixel L m (im_format src) (im_color src) sps (fst p) (snd p)) as (q, al). cbn [fst snd] in *.
    pose proof (GM CR ltac:(cbn; auto)) as G1. pose proof (GM CG ltac:(cbn; auto)) as G2. pose proof (GM CB ltac:(cbn; auto)) as G3. clear GM.
    unfold recolor.
    destruct (from_xyz (ci_primaries (im_color dst)) (to_xyz _ (map3 (eotf L ts) q))) as ((q1, q2), q3).
    destruct (light (fst p) (snd p)) as ((p1, p2), p3).
    unfold channel, fst3, snd3, thd3 in *. cbn [fst snd] in *. destruct LA as ((N1 & A1) & (N2 & A2) & (N3 & A3)).
    apply Rabs_le_inv in A1. apply Rabs_le_inv in A2. apply Rabs_le_inv in A3.
    destruct (encode_any sp sl cb td q1 A TD N1 ltac:(lra)) as (X1 & E1 & P1 & B1).
    destruct (encode_any sp sl cb td q2 A TD N2 ltac:(lra)) as (X2 & E2 & P2 & B2).
    destruct (encode_any sp sl cb td q3 A TD N3 ltac:(lra)) as (X3 & E3 & P3 & B3).
    apply Rabs_le_inv in E1. apply Rabs_le_inv in E2. apply Rabs_le_inv in E3.
    exists (X1, X2, X3). cbn [fst snd map3]. split.
    - intros c' HC'. cbn [In comps] in HC'. destruct HC' as [<- |[<- |[<- |[]]]]; cbn [fst snd]; apply Rabs_le; lra.
    - split; [split; [exact P1|split; [exact P2|exact P3]]|split; [exact B1|split; [exact B2|exact B3]]]. }
  destruct (choose _ _ (0, 0, 0) block EX) as (near & F). exists near. split; [intros p c' HP; apply (F p HP)|].
  intros color t hi RG.
  pose proof (pixels_stored (libm_of sp sl) b m src sps dst dps i _ _ _ (color CR) (color CG) (color CB) (5 / 1000000) CVT SK SF CI
    ltac:(destruct (yc_space i); try reflexivity; discriminate WK) (fun L => encoder_any L i k WK) ltac:(lra) c x y HC HI (fun p HP => proj2 (F p HP))) as S.
  cbv zeta in S.
  assert (ET : level_by (fun r g b => luma k r (written_green (yc_space i) g) b) (fun r g b => SpecReal.cb k r (written_green (yc_space i) g) b)
    (fun r g b => cr k r (written_green (yc_space i) g) b) (yc_full_range i) (im_format dst) (color CR) (color CG) (color CB) c x y = t).
  { unfold level_by, t, ideal_level. cbv zeta.
    assert (CM : chroma_mean (sampling_of (im_format dst)) (fun x y => written_green (yc_space i) (color CG x y)) x y
      = written_green (yc_space i) (chroma_mean (sampling_of (im_format dst)) (color CG) x y)).
    { unfold written_green. destruct (yc_space i); try reflexivity.
      unfold chroma_mean, mean. destruct (sampling_of (im_format dst)); unfold chroma_block; cbn [map fold_right length fst snd]; simpl INR; field. }
    rewrite CM. destruct c; reflexivity. }
  rewrite ET in S. clearbody t. destruct S as (z & ST & SS & Z0); [exact RG|].
  exists z. split; [exact ST|]. split; [exact Z0|]. eapply stored_for_weaken; [exact SS|].
  pose proof (max_level_R (im_format dst)). unfold u7. lra.
Qed.

Lemma recolored_stored : forall sp sl b m src sps dst dps i k r g bl e,
  converts (libm_of sp sl) b m src sps dst dps -> same_light (im_color src) (im_color dst) = false ->
  sampling_of (im_format dst) <> SRGB -> im_color dst = CYUV i -> weights_of (yc_space i) = Some k ->
  let ts := ci_transfer (im_color src) in
  let td := ci_transfer (im_color dst) in
  td <> TBT2100PQ -> 0 <= e <= 1 / 7900 ->
  forall c x y, has_comp (im_format dst) c = true -> in_image dst x y ->
  let cb := column_backend b (im_width dst) x in
  let L := lane_of (libm_of sp sl) cb in
  accurate L ->
  let light x y := light_of ts (ci_primaries (im_color src)) (ci_primaries (im_color dst)) (r x y) (g x y) (bl x y) in
  let block := (x, y) :: chroma_block (sampling_of (im_format dst)) x y in
  (forall p, In p block ->
     let w := (decoded ts (r (fst p) (snd p)), decoded ts (g (fst p) (snd p)), decoded ts (bl (fst p) (snd p))) in
     approx3 (map3 (eotf L ts) (fst (source_pixel L m (im_format src) (im_color src) sps (fst p) (snd p)))) w e /\
     (let '(x, y, z) := w in 0 <= x <= 12 / 10 /\ 0 <= y <= 12 / 10 /\ 0 <= z <= 12 / 10) /\
     forall c, In c comps -> darkest cb td <= channel c (light (fst p) (snd p)) <= 12 / 5) ->
  exists near : nat -> nat -> R * R * R,
    (forall p c, In p block -> In c comps ->
       Rabs (channel c (near (fst p) (snd p)) - channel c (light (fst p) (snd p))) <= 256 / 100 * e + 902 / 100000000) /\
    let color c x y := encoded td (channel c (near x y)) in
    let t := ideal_level k (yc_full_range i) (im_format dst) (color CR) (fun x y => written_green (yc_space i) (color CG x y)) (color CB) c x y in
    let hi := IZR (if (sample_bytes (im_format dst) =? 2)%nat then 65535 else 255) in
    (cb = AVX512 -> - (1 / 4) <= t <= hi + 1 / 4) ->
    exists z, stored (libm_of sp sl) b m src dst dps c x y = Some z /\ (0 <= z)%Z /\
      stored_for cb (IZR (max_level (im_format dst)) / 50000) (clamp hi t) z.
Proof.
  intros sp sl b m src sps dst dps i k r g bl e CVT SL SF CI WK ts td TD E c x y HC HI cb L A light block H.
  destruct (light_stored sp sl b m src sps dst dps i k light (256 / 100 * e + 9 / 1000000) CVT SL SF CI WK TD c x y HC HI A) as (near & N & R).
  { intros p HP. destruct (H p HP) as (D & W & GM). split.
    - exact (light_acc (ci_primaries (im_color src)) (ci_primaries (im_color dst)) _ _ _ D W ltac:(lra)).
    - intros c' HC'. specialize (GM c' HC'). fold cb td. lra. }
  exists near. split; [|exact R]. intros p c' HP HC'. eapply Rle_trans; [exact (N p c' HP HC')|]. lra.
Qed.

(** * C78 *)

(** Converting RGB to YUV with a change of the transfer function or the
    primaries: every sample is the level of colors whose linear light is that of
    the source up to 1/40000, up to 1/50000 of full scale and the rounding of
    the integer.  Colors outside of the gamut of the destination are not
    clipped before they are mixed: their encoding is continued below 0.
    BT.2020 scales green (C75).
    Missing: PQ; light below [darkest]. *)
Theorem C78_rgb_to_yuv_partial : forall sp sl b m src sps dst dps i k,
  converts (libm_of sp sl) b m src sps dst dps -> bytes_ok m ->
  sampling_of (im_format src) = SRGB -> sampling_of (im_format dst) <> SRGB ->
  im_color dst = CYUV i -> weights_of (yc_space i) = Some k ->
  same_light (im_color src) (im_color dst) = false ->
  let ts := ci_transfer (im_color src) in
  let td := ci_transfer (im_color dst) in
  ts <> TBT2100PQ -> td <> TBT2100PQ ->
  forall c x y, has_comp (im_format dst) c = true -> in_image dst x y ->
  let cb := column_backend b (im_width dst) x in
  platform_pow sp sl cb ->
  let s c x y := level m (im_format src) sps c x y / 255 in
  let light x y := light_of ts (ci_primaries (im_color src)) (ci_primaries (im_color dst)) (s CR x y) (s CG x y) (s CB x y) in
  let block := (x, y) :: chroma_block (sampling_of (im_format dst)) x y in
  (forall p c, In p block -> In c comps -> darkest cb td <= channel c (light (fst p) (snd p)) <= 12 / 5) ->
  exists near : nat -> nat -> R * R * R,
    (forall p c, In p block -> In c comps ->
       Rabs (channel c (near (fst p) (snd p)) - channel c (light (fst p) (snd p))) <= 1 / 40000) /\
    let color c x y := encoded td (channel c (near x y)) in
    let t := ideal_level k (yc_full_range i) (im_format dst) (color CR) (fun x y => written_green (yc_space i) (color CG x y)) (color CB) c x y in
    let hi := IZR (if (sample_bytes (im_format dst) =? 2)%nat then 65535 else 255) in
    (cb = AVX512 -> - (1 / 4) <= t <= hi + 1 / 4) ->
    exists z, stored (libm_of sp sl) b m src dst dps c x y = Some z /\ (0 <= z)%Z /\
      stored_for cb (IZR (max_level (im_format dst)) / 50000) (clamp hi t) z.
Proof.
  intros sp sl b m src sps dst dps i k CVT B FS FD CI WK SL ts td TS TD c x y HC HI cb PL s light block GM.
  pose proof (accurate_lane sp sl cb PL) as A. assert (VS : valid_image src sps) by apply CVT.
  destruct (recolored_stored sp sl b m src sps dst dps i k (s CR) (s CG) (s CB) (57 / 10000000) CVT SL FD CI WK TD ltac:(lra) c x y HC HI A) as (near & N & R).
  { intros p HP. destruct (rgb_light (lane_of (libm_of sp sl) cb) m src sps (fst p) (snd p) A VS B FS TS) as (R1 & R2).
    split; [exact R1|]. split; [exact R2|]. intros c' HC'. exact (GM p c' HP HC'). }
  exists near. split; [|exact R]. intros p c' HP HC'. eapply Rle_trans; [exact (N p c' HP HC')|]. lra.
Qed.
Print Assumptions C78_rgb_to_yuv_partial.

(** Colors read from YUV, as the code reads them: BT.2020 scales green (C75) *)
Definition read_at (k : weights) (m : mem) (src : image) (sps : list (slice * nat)) (i : yuv_color_info) (c : comp) (x y : nat) : R :=
  let vy := y_at m src sps i x y in let vu := u_at m src sps i x y in let vv := v_at m src sps i x y in
  match c with CR => red k vy vu vv | CG => read_green (yc_space i) k vy vu vv | _ => blue k vy vu vv end.

(** They are red, green and blue in 0 .. 1; not quite 0 for gamma 2.2 and 2.8
    (see C54) *)
Definition read_real (k : weights) (m : mem) (src : image) (sps : list (slice * nat)) (i : yuv_color_info) (x y : nat) : Prop :=
  forall c, In c comps ->
    0 <= read_at k m src sps i c x y <= 1 /\ (yc_transfer i = TGamma22 \/ yc_transfer i = TGamma28 -> 1 / 50000 <= read_at k m src sps i c x y).

Lemma read_light : forall sp sl b m src sps i k x y, let L := lane_of (libm_of sp sl) b in
  accurate L -> valid_image src sps -> levels_ok m src sps -> sampling_of (im_format src) <> SRGB ->
  im_color src = CYUV i -> weights_of (yc_space i) = Some k -> in_image src x y ->
  let ts := ci_transfer (im_color src) in ts <> TBT2100PQ -> read_real k m src sps i x y ->
  let s c := read_at k m src sps i c x y in
  let w := (decoded ts (s CR), decoded ts (s CG), decoded ts (s CB)) in
  approx3 (map3 (eotf L ts) (fst (source_pixel L m (im_format src) (im_color src) sps x y))) w (decode_error ts) /\
  (let '(x, y, z) := w in 0 <= x <= 12 / 10 /\ 0 <= y <= 12 / 10 /\ 0 <= z <= 12 / 10).
Proof.
  intros sp sl b m src sps i k x y L A V LV FS CI W HI ts TS RR s w.
  assert (DC : forall c, In c comps -> decodable ts (s c)) by (intros c HC; unfold ts; rewrite CI; exact (RR c HC)).
  pose proof (DC CR ltac:(cbn; auto)) as DR. pose proof (DC CG ltac:(cbn; auto)) as DG. pose proof (DC CB ltac:(cbn; auto)) as DB.
  destruct (yuv_source_acc_by L m src sps i _ _ _ x y V LV FS CI (decoder_any i k W) (fun vy vu vv => bound_any (yc_space i) k vy vu vv W) HI) as ((AR & AG & AB) & _).
  destruct (source_pixel L m (im_format src) (im_color src) sps x y) as (((r, g), bl), al).
  unfold fst3, snd3, thd3 in AR, AG, AB. cbn [fst snd] in *. split.
  - split; [|split]; apply decode_near; assumption.
  - unfold w. split; [|split]; apply decoded_unit; try exact TS; [apply DR|apply DG|apply DB].
Qed.

(** YUV to RGB with a change of the transfer function or the primaries, for
    every matrix: C65_yuv_to_rgb_partial with BT.2020.
    Missing: PQ; source colors outside of 0 .. 1. *)
Theorem C78_yuv_to_rgb_partial : forall sp sl b m src sps dst dps i k,
  converts (libm_of sp sl) b m src sps dst dps -> levels_ok m src sps ->
  sampling_of (im_format src) <> SRGB -> sampling_of (im_format dst) = SRGB ->
  im_color src = CYUV i -> weights_of (yc_space i) = Some k ->
  same_light (im_color src) (im_color dst) = false ->
  let ts := ci_transfer (im_color src) in
  let td := ci_transfer (im_color dst) in
  ts <> TBT2100PQ -> td <> TBT2100PQ ->
  forall c x y, In c comps -> in_image dst x y ->
  let cb := column_backend b (im_width dst) x in
  platform_pow sp sl cb ->
  read_real k m src sps i x y ->
  let s c := read_at k m src sps i c x y in
  let exact := channel c (light_of ts (ci_primaries (im_color src)) (ci_primaries (im_color dst)) (s CR) (s CG) (s CB)) in
  exists z light, stored (libm_of sp sl) b m src dst dps c x y = Some z /\ (0 <= z <= 255)%Z /\
    Rabs (light - exact) <= light_error ts /\
    stored_for cb (255 * (6 / 1000000)) (clamp 255 (255 * encoded td (Rmax 0 light))) z.
Proof.
  intros sp sl b m src sps dst dps i k CVT LV FS FD CI WK SL ts td TS TD c x y HC HI cb PL RC s exact.
  pose proof (light_kind _ _ SL) as SK. pose proof (converts_convertible _ _ _ _ _ _ _ CVT) as CT.
  assert (VS : valid_image src sps) by apply CVT.
  assert (HS : in_image src x y) by (unfold in_image in *; rewrite (cv_width _ _ _ _ CT), (cv_height _ _ _ _ CT); exact HI).
  assert (HD : has_comp (im_format dst) c = true) by (unfold has_comp; rewrite FD; cbn [In comps] in HC; intuition (subst; reflexivity)).
  assert (ICT : ictcp_chroma420 (im_format dst) (im_color dst) c = false) by (unfold ictcp_chroma420; rewrite FD; reflexivity).
  rewrite (stored_expected _ _ _ _ _ _ _ CVT c x y HD HI ICT). fold cb. set (L := lane_of (libm_of sp sl) cb).
  pose proof (accurate_lane sp sl cb PL) as A. fold L in A.
  assert (PN : pow_negative (l_pow L)) by (apply lane_negative; intros E; apply PL, E).
  destruct (read_light sp sl cb m src sps i k x y A VS LV FS CI WK HS TS RC) as (D3 & DB).
  fold ts in D3, DB. fold L in D3. unfold exact, light_of. fold (s CR) (s CG) (s CB) in D3, DB.
  set (w := (decoded ts (s CR), decoded ts (s CG), decoded ts (s CB))) in *.
  assert (DE : 5 / 1000000 <= decode_error ts <= 1 / 5000) by (unfold decode_error; destruct ts; lra).
  pose proof (light_acc (ci_primaries (im_color src)) (ci_primaries (im_color dst)) _ w _ D3 DB ltac:(lra)) as F3.
  pose proof (linear_bound (ci_primaries (im_color src)) (ci_primaries (im_color dst)) w DB) as FB.
  unfold expected_value. rewrite SK. unfold target. rewrite FD. unfold recolored. rewrite SL.
  destruct (source_pixel L m (im_format src) (im_color src) sps x y) as (q, al). cbn [fst snd] in *. unfold recolor. fold ts. fold td.
  destruct (from_xyz (ci_primaries (im_color dst)) (to_xyz (ci_primaries (im_color src)) (map3 (eotf L ts) q))) as ((q1, q2), q3).
  destruct (from_xyz (ci_primaries (im_color dst)) (to_xyz (ci_primaries (im_color src)) w)) as ((p1, p2), p3).
  destruct F3 as (Q1 & Q2 & Q3). destruct FB as (P1 & P2 & P3).
  assert (LE : 256 / 100 * decode_error ts + 9 / 1000000 + 1 / 100000000 <= light_error ts) by (unfold decode_error, light_error; destruct ts; lra).
  assert (END : forall q p, approx q p (256 / 100 * decode_error ts + 9 / 1000000) -> Rabs p <= 3 ->
    exists z light, Some (quantise (quant_of cb) (im_format dst) (oetf L td q)) = Some z /\ (0 <= z <= 255)%Z /\
      Rabs (light - p) <= light_error ts /\ stored_for cb (255 * (6 / 1000000)) (clamp 255 (255 * encoded td (Rmax 0 light))) z).
  { intros q' p (NQ & EQ) BP. apply Rabs_le_inv in EQ. apply Rabs_le_inv in BP.
    destruct (encode_store L cb (im_format dst) td q' A PN TD FD NQ ltac:(apply Rabs_le; lra)) as (X & EX & ST & ZB).
    exists (quantise (quant_of cb) (im_format dst) (oetf L td q')), X. split; [reflexivity|]. split; [exact ZB|]. apply Rabs_le_inv in EX.
    split; [apply Rabs_le; lra|]. eapply stored_for_weaken; [exact ST|lra]. }
  cbn [In comps] in HC. cbn [map3 fst3 snd3 thd3]. unfold channel, fst3, snd3, thd3.
  destruct HC as [<- |[<- |[<- |[]]]]; cbn [fst snd]; apply END; assumption.
Qed.
Print Assumptions C78_yuv_to_rgb_partial.

(** YUV to YUV.
    Missing: PQ; light below [darkest]; source colors outside of 0 .. 1. *)
Theorem C78_yuv_to_yuv_partial : forall sp sl b m src sps dst dps is ks id kd,
  converts (libm_of sp sl) b m src sps dst dps -> levels_ok m src sps ->
  sampling_of (im_format src) <> SRGB -> sampling_of (im_format dst) <> SRGB ->
  im_color src = CYUV is -> weights_of (yc_space is) = Some ks ->
  im_color dst = CYUV id -> weights_of (yc_space id) = Some kd ->
  same_light (im_color src) (im_color dst) = false ->
  let ts := ci_transfer (im_color src) in
  let td := ci_transfer (im_color dst) in
  ts <> TBT2100PQ -> td <> TBT2100PQ ->
  forall c x y, has_comp (im_format dst) c = true -> in_image dst x y ->
  let cb := column_backend b (im_width dst) x in
  platform_pow sp sl cb ->
  let s := read_at ks m src sps is in
  let light x y := light_of ts (ci_primaries (im_color src)) (ci_primaries (im_color dst)) (s CR x y) (s CG x y) (s CB x y) in
  let block := (x, y) :: chroma_block (sampling_of (im_format dst)) x y in
  (forall p, In p block -> read_real ks m src sps is (fst p) (snd p) /\
     forall c, In c comps -> darkest cb td <= channel c (light (fst p) (snd p)) <= 12 / 5) ->
  exists near : nat -> nat -> R * R * R,
    (forall p c, In p block -> In c comps ->
       Rabs (channel c (near (fst p) (snd p)) - channel c (light (fst p) (snd p))) <= light_error ts) /\
    let color c x y := encoded td (channel c (near x y)) in
    let t := ideal_level kd (yc_full_range id) (im_format dst) (color CR) (fun x y => written_green (yc_space id) (color CG x y)) (color CB) c x y in
    let hi := IZR (if (sample_bytes (im_format dst) =? 2)%nat then 65535 else 255) in
    (cb = AVX512 -> - (1 / 4) <= t <= hi + 1 / 4) ->
    exists z, stored (libm_of sp sl) b m src dst dps c x y = Some z /\ (0 <= z)%Z /\
      stored_for cb (IZR (max_level (im_format dst)) / 50000) (clamp hi t) z.
Proof.
  intros sp sl b m src sps dst dps is ks id kd CVT LV FS FD CI WS CID WK SL ts td TS TD c x y HC HI cb PL s light block GM.
  pose proof (accurate_lane sp sl cb PL) as A. assert (VS : valid_image src sps) by apply CVT.
  pose proof (converts_convertible _ _ _ _ _ _ _ CVT) as CT.
  assert (DE : 5 / 1000000 <= decode_error ts <= 1 / 7900) by (unfold decode_error; destruct ts; lra).
  assert (LE : 256 / 100 * decode_error ts + 902 / 100000000 <= light_error ts) by (unfold decode_error, light_error; destruct ts; lra).
  destruct (recolored_stored sp sl b m src sps dst dps id kd (s CR) (s CG) (s CB) (decode_error ts) CVT SL FD CID WK TD ltac:(lra) c x y HC HI A) as (near & N & R).
  { intros p HP. destruct (GM p HP) as (RC & GP).
    assert (HI' : in_image dst (fst p) (snd p)) by (eapply block_in_image; [apply CT|apply CT|exact HI|exact HP]).
    assert (HS : in_image src (fst p) (snd p)) by (unfold in_image in *; rewrite (cv_width _ _ _ _ CT), (cv_height _ _ _ _ CT); exact HI').
    destruct (read_light sp sl cb m src sps is ks (fst p) (snd p) A VS LV FS CI WS HS TS RC) as (R1 & R2).
    split; [exact R1|]. split; [exact R2|]. exact GP. }
  exists near. split; [|exact R]. intros p c' HP HC'. eapply Rle_trans; [exact (N p c' HP HC')|]. exact LE.
Qed.
Print Assumptions C78_yuv_to_yuv_partial.

(** ** Colors are not clipped before they are mixed *)

(** An image of the green of BT.2020, and images in BT.709 *)
Definition green_mem : mem := fun _ i => if (i mod 2 =? 1)%nat then 255%Z else 0%Z.
Definition green_src (t : color_transfer) : image := ex_image RGBA 2 2 (CRGB t PrBT2020) (ex_rgba_planes 0).
Definition green_dst (t : color_transfer) : image := ex_image I420 2 2 (CYUV (YuvCI t PrBT709 SpBT709 true)) (ex_yuv_planes 1).

Lemma green_light : forall t x y, t = TLinear \/ t = TSRGB -> (x < 2)%nat -> (y < 2)%nat ->
  let s c := level green_mem RGBA (ex_rgba_planes 0) c x y / 255 in
  (s CR = 0 /\ s CG = 1 /\ s CB = 0) /\
  let l := light_of t PrBT2020 PrBT709 (s CR) (s CG) (s CB) in
  - (59 / 100) <= channel CR l <= - (58 / 100) /\ 113 / 100 <= channel CG l <= 114 / 100 /\ - (11 / 100) <= channel CB l <= - (1 / 10).
Proof.
  intros t x y T X Y s.
  assert (S : s CR = 0 /\ s CG = 1 /\ s CB = 0).
  { unfold s. destruct x as [|[|x]]; [| |lia]; (destruct y as [|[|y]]; [| |lia]);
      (split; [|split]); unfold level;
      match goal with |- context [component ?m ?f ?p ?c ?x ?y] => let v := eval vm_compute in (component m f p c x y) in change (component m f p c x y) with v end; lra. }
  split; [exact S|]. destruct S as (-> & -> & ->).
  assert (D : decoded t 0 = 0 /\ decoded t 1 = 1).
  { destruct T as [-> | ->]; cbn [decoded]; [auto|]. unfold srgb_decode. destruct (Rle_dec 0 _) as [_|C]; [|lra]. destruct (Rle_dec 1 _) as [C|_]; [lra|].
    split; [lra|]. replace ((1 + 55 / 1000) / (1055 / 1000)) with 1 by lra. unfold power. destruct (Rle_dec 1 0); [lra|]. unfold Rpower. rewrite ln_1, Rmult_0_r. apply exp_0. }
  unfold light_of. rewrite (proj1 D), (proj2 D). cbn [to_xyz from_xyz channel]. unfold channel, fst3, snd3, thd3. cbn [fst snd].
  unfold dot. cbn [fadd fmul flit R_ops]. lits. lra.
Qed.

(** That the samples are those of the nearest color that the destination can
    have is wrong: the green of BT.2020 is stored as black in BT.709, whose own
    green has luma 182 of 255.  The negative red of -0.58 is encoded as -7.6,
    and that is mixed with the other channels. *)
Theorem C78_clipped_refuted : forall b, let lm := libm_of avx_pow avx_log in
  let src := green_src TSRGB in let dst := green_dst TSRGB in
  converts lm b green_mem src (ex_rgba_planes 0) dst (ex_yuv_planes 1) /\ (forall cb, platform_pow avx_pow avx_log cb) /\
  forall x y, (x < 2)%nat -> (y < 2)%nat ->
  let s c := level green_mem (im_format src) (ex_rgba_planes 0) c x y / 255 in
  let light := light_of TSRGB PrBT2020 PrBT709 (s CR) (s CG) (s CB) in
  channel CR light < 0 /\ 1 < channel CG light /\ channel CB light < 0 /\
  182 < ideal_level bt709 true (im_format dst) (fun _ _ => 0) (fun _ _ => 1) (fun _ _ => 0) CY x y < 183 /\
  stored lm b green_mem src dst (ex_yuv_planes 1) CY x y = Some 0%Z.
Proof.
  intros b lm src dst. split; [unfold lm, src, dst; ex_converts b|].
  split; [intros cb _; split; [exact avx_pow_ok|split; [exact (log_contract avx_log avx_log_ok)|exact avx_pow_negative]]|].
  intros x y X Y s light. destruct (green_light TSRGB x y ltac:(auto) X Y) as (_ & L).
  change (- (59 / 100) <= channel CR light <= - (58 / 100) /\ 113 / 100 <= channel CG light <= 114 / 100 /\ - (11 / 100) <= channel CB light <= - (1 / 10)) in L.
  clearbody light.
  split; [lra|]. split; [lra|]. split; [lra|]. split.
  { unfold ideal_level. cbn [im_format dst green_dst ex_image]. unfold y_level, luma. unfold_k. change (IZR (max_level I420)) with 255. lra. }
  unfold lm, src, dst. destruct x as [|[|x]]; [| |lia]; (destruct y as [|[|y]]; [| |lia]); destruct b; vm_compute; reflexivity.
Qed.
Print Assumptions C78_clipped_refuted.

(** The theorems above say what is stored: here linear light far out of the
    gamut of the destination, on every back end *)
Example C78_example : forall b, let lm := libm_of avx_pow avx_log in
  let src := green_src TLinear in let dst := green_dst TLinear in
  converts lm b green_mem src (ex_rgba_planes 0) dst (ex_yuv_planes 1) /\ bytes_ok green_mem /\ same_light (im_color src) (im_color dst) = false /\
  (forall cb, platform_pow avx_pow avx_log cb) /\
  (forall cb x y, (x < 2)%nat -> (y < 2)%nat -> forall c, In c comps ->
     let s c := level green_mem (im_format src) (ex_rgba_planes 0) c x y / 255 in
     darkest cb TLinear <= channel c (light_of TLinear PrBT2020 PrBT709 (s CR) (s CG) (s CB)) <= 12 / 5) /\
  map (fun c => stored lm b green_mem src dst (ex_yuv_planes 1) c 1 1) [CY; CU; CV] = [Some 172; Some 20; Some 0]%Z.
Proof.
  intros b lm src dst. split; [unfold lm, src, dst; ex_converts b|].
  split; [intros k j; unfold green_mem; destruct (_ =? _)%nat; lia|]. split; [reflexivity|].
  split; [intros cb _; split; [exact avx_pow_ok|split; [exact (log_contract avx_log avx_log_ok)|exact avx_pow_negative]]|]. split.
  { intros cb x y X Y c HC s. destruct (green_light TLinear x y ltac:(auto) X Y) as (_ & L). cbn [darkest].
    cbn [In comps] in HC. destruct HC as [<- |[<- |[<- |[]]]]; cbv zeta in L; change (im_format src) with RGBA in *; unfold s; split; lra. }
  destruct b; vm_compute; reflexivity.
Qed.

(** YUV, with BT.2020 on both sides *)
Definition wide_info : yuv_color_info := YuvCI TSRGB PrBT709 SpBT2020 false.
Definition wide_src : image := ex_image I420 2 2 (CYUV wide_info) (ex_yuv_planes 0).
Definition wide_hlg : image := ex_image I420 2 2 (CYUV (YuvCI TBT2100HLG PrBT2020 SpBT2020 false)) (ex_yuv_planes 1).

Lemma wide_colors : forall x y, in_image wide_src x y -> read_real bt2020 soft_mem wide_src (ex_yuv_planes 0) wide_info x y.
Proof.
  intros x y (HX & HY) c HC. cbn in HX, HY. split; [|cbn; intros [H|H]; discriminate H].
  assert (X : (x = 0 \/ x = 1)%nat) by lia. assert (Y : (y = 0 \/ y = 1)%nat) by lia.
  assert (LC : forall c, c = CY \/ c = CU \/ c = CV -> exists z, level soft_mem I420 (ex_yuv_planes 0) c x y = IZR z /\ (100 <= z <= 130)%Z).
  { intros c' [-> |[-> | ->]]; destruct X as [-> | ->], Y as [-> | ->]; eexists; (split; [unfold level; match goal with |- context [component ?m ?f ?p ?c ?x ?y] => let v := eval vm_compute in (component m f p c x y) in change (component m f p c x y) with v end; reflexivity|lia]). }
  destruct (LC CY ltac:(auto)) as (ly & EY & BY). destruct (LC CU ltac:(auto)) as (lu & EU & BU). destruct (LC CV ltac:(auto)) as (lv & EV & BV).
  pose proof (IZR_le _ _ (proj1 BY)). pose proof (IZR_le _ _ (proj2 BY)). pose proof (IZR_le _ _ (proj1 BU)). pose proof (IZR_le _ _ (proj2 BU)).
  pose proof (IZR_le _ _ (proj1 BV)). pose proof (IZR_le _ _ (proj2 BV)).
  unfold read_at, y_at, u_at, v_at. cbn [im_format wide_src ex_image yc_full_range yc_space wide_info read_green]. rewrite EY, EU, EV.
  unfold green, red, blue, level_y, level_c, w_g, bt2020. cbn [w_r w_b]. change (IZR (max_level I420)) with 255.
  cbn [In comps] in HC. destruct HC as [<- |[<- |[<- |[]]]]; lra.
Qed.

Example C78_example_yuv : forall b, let lm := libm_of avx_pow avx_log in
  converts lm b soft_mem wide_src (ex_yuv_planes 0) soft_rgb (ex_rgba_planes 1) /\
  converts lm b soft_mem wide_src (ex_yuv_planes 0) wide_hlg (ex_yuv_planes 1) /\ levels_ok soft_mem wide_src (ex_yuv_planes 0) /\
  same_light (im_color wide_src) (im_color soft_rgb) = false /\ same_light (im_color wide_src) (im_color wide_hlg) = false /\
  (forall cb x y, in_image wide_src x y -> read_real bt2020 soft_mem wide_src (ex_yuv_planes 0) wide_info x y /\
     forall c, In c comps -> let s c := read_at bt2020 soft_mem wide_src (ex_yuv_planes 0) wide_info c x y in
       darkest cb TBT2100HLG <= channel c (light_of TSRGB PrBT709 PrBT2020 (s CR) (s CG) (s CB)) <= 12 / 5) /\
  map (fun c => stored lm b soft_mem wide_src soft_rgb (ex_rgba_planes 1) c 1 1) comps = [Some 115; Some 154; Some 72]%Z /\
  map (fun c => stored lm b soft_mem wide_src wide_hlg (ex_yuv_planes 1) c 1 1) [CY; CU; CV] = [Some 121; Some 127; Some 158]%Z.
Proof.
  intros b lm. split; [unfold lm; ex_converts b|]. split; [unfold lm; ex_converts b|]. split; [apply bytes_levels; [|reflexivity]|].
  { intros bf i. unfold soft_mem. pose proof (Nat.mod_upper_bound i 4). lia. }
  split; [reflexivity|]. split; [reflexivity|]. split.
  { intros cb x y H. pose proof (wide_colors x y H) as R. split; [exact R|]. intros c HC s. cbn [darkest].
    assert (G : in_gamut (channel c (light_of TSRGB PrBT709 PrBT2020 (s CR) (s CG) (s CB)))).
    { apply gamut_kept; try exact HC; [tauto|right; reflexivity| | |]; apply R; cbn; auto. }
    unfold in_gamut in G. lra. }
  unfold lm. split; narrow b (ex_yuv_planes 0).
Qed.
