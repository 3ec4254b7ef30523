(** C64, C65: how accurately convert computes colors when the transfer function
    or the primaries change and one of the images, or both, are YUV. *)

From Coq Require Import List ZArith Bool Arith Reals Lia Lra Psatz.
From Coq Require Import Floats.SpecFloat.
From Flocq Require Import Core.
From Verif Require Import Base Types Planes ImageM F32 Vector Simd SpecVector SimdProofs QuantProofs SpecGeom GeomProofs
  SpecColor SpecConvert SpecRun Formats Visit Convert VisitProofs ColorProofs ConvertProofs ExactProofs PropConvert PropFidelity
  SpecReal FloatProofs AccProofs TargetProofs PropColor ColorR SpecTransfer PowerProofs MathProofs SpecMath LaneProofs TransferProofs
  Math NegProofs RecolorProofs PropRecolor GamutProofs.
Import ListNotations.
Local Open Scope R_scope.

(** The linear light of a channel can be shown by the destination; the
    matrices are given to seven digits, so that 0 and 1 are met only up to a few
    units of the seventh digit *)
Definition in_gamut (v : R) : Prop := - (1 / 100000) <= v <= 1 + 1 / 100000.

(** Light [w] as the destination encodes it *)
Definition shown (td : color_transfer) (c : comp) (w : R * R * R) : R := encoded td (Rmax 0 (channel c w)).

Definition comps : list comp := [CR; CG; CB].

Lemma encoded_top : forall t v, gentle t -> 0 <= v <= 1 + 1 / 100000 -> 0 <= encoded t v <= 1 + 1 / 2900.
Proof.
  intros t v G V.
  assert (E1 : encoded t 1 = 1).
  { destruct G as [-> |[-> | ->]]; cbn [encoded]; [reflexivity| |].
    - unfold srgb_encode. destruct (Rle_dec 1 _); [lra|]. rewrite power_1. lra.
    - unfold sdr_encode. destruct (Rlt_dec 1 _); [lra|]. rewrite power_1. lra. }
  assert (P0 : 0 <= encoded t v).
  { destruct G as [-> |[-> | ->]]; cbn [encoded]; [lra| |].
    - assert (T2 : 904738 / 10000000 <= power (31308 / 10000000) (5 / 12)) by (left; apply (power_above _ _ _ 5 12); simpl; lra).
      unfold srgb_encode. destruct (Rle_dec v _); [lra|]. assert (power (31308 / 10000000) (5 / 12) <= power v (5 / 12)) by (apply power_le; lra). lra.
    - assert (T2 : 164231 / 1000000 <= power (1805397 / 100000000) (9 / 20)) by (left; apply (power_above _ _ _ 9 20); simpl; lra).
      unfold sdr_encode. destruct (Rlt_dec v _); [lra|]. assert (power (1805397 / 100000000) (9 / 20) <= power v (9 / 20)) by (apply power_le; lra). lra. }
  split; [exact P0|]. destruct (Rle_dec v 1) as [C|C].
  - pose proof (encoded_lip t v 1 G ltac:(lra)). lra.
  - pose proof (encoded_lip2 t v 1 G ltac:(lra) ltac:(lra)) as H. rewrite (Rabs_pos_eq (v - 1)) in H by lra.
    assert (RM : Rmax (13 * (v - 1) + 1 / 1000000) (46 / 10 * (v - 1) + 1 / 3500) <= 1 / 2900) by (apply Rmax_lub; lra).
    apply Rabs_le_inv in H. lra.
Qed.

(** Common part: the colors of the source are known after decoding *)
Lemma to_yuv_light : forall sp sl b m src sps dst dps i k r g bl e,
  converts (libm_of sp sl) b m src sps dst dps -> same_light (im_color src) (im_color dst) = false ->
  sampling_of (im_format dst) <> SRGB -> im_color dst = CYUV i -> weights_known (yc_space i) k ->
  let ts := ci_transfer (im_color src) in
  let td := ci_transfer (im_color dst) in
  gentle td -> 5 / 1000000 <= e <= 1 / 5000 ->
  forall c x y, has_comp (im_format dst) c = true -> in_image dst x y ->
  let cb := column_backend b (im_width dst) x in
  let L := lane_of (libm_of sp sl) cb in
  accurate L ->
  let light x y := light_of ts (ci_primaries (im_color src)) (ci_primaries (im_color dst)) (r x y) (g x y) (bl x y) in
  (forall p, In p ((x, y) :: chroma_block (sampling_of (im_format dst)) x y) ->
     let w := (decoded ts (r (fst p) (snd p)), decoded ts (g (fst p) (snd p)), decoded ts (bl (fst p) (snd p))) in
     approx3 (map3 (eotf L ts) (fst (source_pixel L m (im_format src) (im_color src) sps (fst p) (snd p)))) w e /\
     (let '(x, y, z) := w in 0 <= x <= 12 / 10 /\ 0 <= y <= 12 / 10 /\ 0 <= z <= 12 / 10) /\
     forall c, In c comps -> in_gamut (channel c (light (fst p) (snd p)))) ->
  let M := IZR (max_level (im_format dst)) in
  let E := 13 * (256 / 100 * e + 9 / 1000000) + 15 / 100000 in
  let t := ideal_level k (yc_full_range i) (im_format dst) (fun x y => shown td CR (light x y)) (fun x y => shown td CG (light x y)) (fun x y => shown td CB (light x y)) c x y in
  (cb = AVX512 -> - (1 / 4) + M * E <= t <= IZR (top (im_format dst)) + 1 / 4 - M * E) ->
  exists z, stored (libm_of sp sl) b m src dst dps c x y = Some z /\
    stored_for cb (M * (E + 113 * u7)) (clamp (IZR (top (im_format dst))) t) z /\ (0 <= z)%Z.
Proof.
  intros sp sl b m src sps dst dps i k r g bl e CV SL SF CI K ts td G EB c x y HC HI cb L A light H M E t RG.
  pose proof (light_kind _ _ SL) as SK. pose proof (converts_convertible _ _ _ _ _ _ _ CV) as CT.
  assert (KK : k = bt601 \/ k = bt709) by (destruct K as [(_ & ->)|(_ & ->)]; auto).
  assert (ICT : ictcp_chroma420 (im_format dst) (im_color dst) c = false).
  { unfold ictcp_chroma420. rewrite CI, (known_not_ictcp _ _ K). destruct (sampling_of _), c; reflexivity. }
  rewrite (stored_expected _ _ _ _ _ _ _ CV c x y HC HI ICT). fold cb. fold L. eexists; split; [reflexivity|].
  unfold expected_value. rewrite SK.
  set (pix := fun x y => recolored L (im_color src) (im_color dst) (source_pixel L m (im_format src) (im_color src) sps x y)).
  assert (M0 : 1 <= M <= 4095) by (apply max_level_R). assert (EP : 0 <= E <= 1 / 140) by (unfold E; lra).
  assert (PA : forall p, In p ((x, y) :: chroma_block (sampling_of (im_format dst)) x y) ->
    (approx (fst3 (fst (pix (fst p) (snd p)))) (shown td CR (light (fst p) (snd p))) E /\
     approx (snd3 (fst (pix (fst p) (snd p)))) (shown td CG (light (fst p) (snd p))) E /\
     approx (thd3 (fst (pix (fst p) (snd p)))) (shown td CB (light (fst p) (snd p))) E) /\
    (0 <= shown td CR (light (fst p) (snd p)) <= 1 + 1 / 2900 /\ 0 <= shown td CG (light (fst p) (snd p)) <= 1 + 1 / 2900 /\
     0 <= shown td CB (light (fst p) (snd p)) <= 1 + 1 / 2900)).
  { intros p HP. destruct (H p HP) as (D & W & GM). clear H. unfold pix, recolored. rewrite SL. fold ts. fold td.
    destruct (source_pixel L m (im_format src) (im_color src) sps (fst p) (snd p)) as (q, al). cbn [fst snd] in *.
    set (w := (decoded ts (r (fst p) (snd p)), decoded ts (g (fst p) (snd p)), decoded ts (bl (fst p) (snd p)))) in *.
    change (light (fst p) (snd p)) with (from_xyz (ci_primaries (im_color dst)) (to_xyz (ci_primaries (im_color src)) w)) in *.
    pose proof (GM CR ltac:(cbn; auto)) as G1. pose proof (GM CG ltac:(cbn; auto)) as G2. pose proof (GM CB ltac:(cbn; auto)) as G3.
    pose proof (recolor_acc sp sl cb ts td (ci_primaries (im_color src)) (ci_primaries (im_color dst)) q w e A G D W EB) as RA. fold L in RA.
    destruct (from_xyz (ci_primaries (im_color dst)) (to_xyz (ci_primaries (im_color src)) w)) as ((p1, p2), p3).
    unfold in_gamut, channel, fst3, snd3, thd3 in G1, G2, G3. cbn [fst snd] in G1, G2, G3.
    specialize (RA ltac:(cbn [gamut3]; lra)). unfold shown, channel.
    destruct (recolor L ts td _ _ q) as ((q1, q2), q3). cbn [map3 approx3 fst3 snd3 thd3 fst snd] in *.
    split; [exact RA|]. split; [|split]; (apply encoded_top; [exact G|]); unfold Rmax; destruct (Rle_dec 0 _); lra. }
  set (fr := fun x y => fval (fst3 (fst (pix x y)))). set (fg := fun x y => fval (snd3 (fst (pix x y)))). set (fb := fun x y => fval (thd3 (fst (pix x y)))).
  assert (PE : forall p, In p ((x, y) :: chroma_block (sampling_of (im_format dst)) x y) ->
    pixel_approx 0 (pix (fst p) (snd p)) (fr (fst p) (snd p)) (fg (fst p) (snd p)) (fb (fst p) (snd p))).
  { intros p HP. destruct (PA p HP) as (((N1 & A1) & (N2 & A2) & (N3 & A3)) & B1 & B2 & B3).
    apply Rabs_le_inv in A1. apply Rabs_le_inv in A2. apply Rabs_le_inv in A3. split.
    - split; [|split]; apply exact_approx; assumption.
    - unfold fr, fg, fb. split; [|split]; apply Rabs_le; lra. }
  pose proof (acc_target L (im_format dst) i k pix fr fg fb 0 x y c K SF HC ltac:(lra) PE) as AT. rewrite <- CI in AT.
  set (t' := ideal_level k (yc_full_range i) (im_format dst) fr fg fb c x y) in *. fold M in AT.
  assert (TN : Rabs (t' - t) <= M * E).
  { apply ideal_near; [exact KK|lra|]. intros p HP. destruct (PA p HP) as (((_ & A1) & (_ & A2) & (_ & A3)) & _). unfold fr, fg, fb. tauto. }
  assert (TB : - (2 * M) <= t <= 3 * M).
  { assert (N : Rabs (t - ideal_level k (yc_full_range i) (im_format dst) (fun _ _ => 0) (fun _ _ => 0) (fun _ _ => 0) c x y) <= M * (1 + 1 / 2900)).
    { apply ideal_near; [exact KK|lra|]. intros p HP. destruct (PA p HP) as (_ & B1 & B2 & B3). split; [|split]; apply Rabs_le; lra. }
    assert (Z0 : 0 <= ideal_level k (yc_full_range i) (im_format dst) (fun _ _ => 0) (fun _ _ => 0) (fun _ _ => 0) c x y <= M).
    { pose proof (ideal_range k (yc_full_range i) (im_format dst) (fun _ _ => 0) (fun _ _ => 0) (fun _ _ => 0) c x y KK ltac:(intros; lra)) as Q. cbv zeta in Q.
      pose proof (range_levels c (yc_full_range i) M ltac:(lra)) as Q2. cbv zeta in Q2. fold M in Q. lra. }
    apply Rabs_le_inv in N. split; lra. }
  assert (TM : Rabs (t' / M) <= 4).
  { apply Rabs_le_inv in TN. assert (ME : M * E <= M * (1 / 140)) by (apply Rmult_le_compat_l; lra).
    assert (TT : - (4 * M) <= t' <= 4 * M) by lra.
    assert (IM : t' / M * M = t') by (field; lra). apply Rabs_le. split; apply Rmult_le_reg_r with M; lra. }
  pose proof (acc_store cb (im_format dst) _ _ _ AT TM ltac:(unfold u7; lra)) as S. fold M in S.
  assert (MT : M * (t' / M) = t') by (field; lra). rewrite MT in S.
  destruct S as (S & Z0).
  { right. destruct cb; [left; discriminate|left; discriminate|right|left; discriminate]. specialize (RG eq_refl). apply Rabs_le_inv in TN. lra. }
  split; [|exact Z0].
  assert (HT : 0 <= IZR (top (im_format dst))) by (apply IZR_le; destruct (im_format dst); discriminate).
  pose proof (clamp_near _ _ _ _ HT TN) as CN. apply Rabs_le_inv in CN.
  set (z := quantise _ _ _) in *. clearbody z. set (ct := clamp _ t) in *. set (ct' := clamp _ t') in *.
  assert (EQ : M * (11 / 10 * 0 + 110 * u7 + 3 * u7) + M * E = M * (E + 113 * u7)) by ring.
  destruct cb; cbn [stored_for] in *; unfold truncated, rounded in *; try lra; apply Rabs_le_inv in S; apply Rabs_le; lra.
Qed.

(** Levels of colors that are in the gamut *)
Lemma gamut_level : forall k full f r g b c x y, (k = bt601 \/ k = bt709) ->
  (forall p, In p ((x, y) :: chroma_block (sampling_of f) x y) ->
     0 <= r (fst p) (snd p) <= 1 + 1 / 2900 /\ 0 <= g (fst p) (snd p) <= 1 + 1 / 2900 /\ 0 <= b (fst p) (snd p) <= 1 + 1 / 2900) ->
  let t := ideal_level k full f r g b c x y in
  let M := IZR (max_level f) in
  (if full then 0 else M * (16 / 255)) - M / 2900 <= t <= (if full then M else M * (240 / 255)) + M / 2900.
Proof.
  intros k full f r g b c x y K H t M. set (cut := fun q : nat -> nat -> R => fun x y => Rmin 1 (q x y)).
  assert (CU' : forall v, 0 <= v <= 1 + 1 / 2900 -> 0 <= Rmin 1 v <= 1 /\ Rabs (v - Rmin 1 v) <= 1 / 2900).
  { intros v V. unfold Rmin. destruct (Rle_dec 1 v); (split; [lra|]); apply Rabs_le; lra. }
  assert (N : Rabs (t - ideal_level k full f (cut r) (cut g) (cut b) c x y) <= M * (1 / 2900)).
  { apply ideal_near; [exact K|lra|]. intros p HP. destruct (H p HP) as (B1 & B2 & B3). unfold cut.
    split; [|split]; apply CU'; assumption. }
  pose proof (ideal_range k full f (cut r) (cut g) (cut b) c x y K) as Q. cbv zeta in Q.
  assert (P : forall p, In p ((x, y) :: chroma_block (sampling_of f) x y) ->
    0 <= cut r (fst p) (snd p) <= 1 /\ 0 <= cut g (fst p) (snd p) <= 1 /\ 0 <= cut b (fst p) (snd p) <= 1).
  { intros p HP. destruct (H p HP) as (B1 & B2 & B3). unfold cut. split; [|split]; apply CU'; assumption. }
  specialize (Q P). fold M in Q. assert (M0 : 1 <= M) by (apply max_level_R). apply Rabs_le_inv in N.
  assert (RR : (if full then 0 else M * (16 / 255)) <= fst (match c with CU | CV => chroma_range | _ => luma_range end full M) /\
    snd (match c with CU | CV => chroma_range | _ => luma_range end full M) <= (if full then M else M * (240 / 255))).
  { destruct full, c; cbn [chroma_range luma_range fst snd]; lra. }
  lra.
Qed.

(** A component of the light is in the gamut: what is shown is in 0 .. 1 *)
Lemma shown_range : forall td c w, gentle td -> in_gamut (channel c w) -> 0 <= shown td c w <= 1 + 1 / 2900.
Proof.
  intros td c w G I. unfold shown. apply encoded_top; [exact G|]. unfold in_gamut in I. unfold Rmax. destruct (Rle_dec 0 _); lra.
Qed.

Lemma accurate_lane : forall sp sl b, platform_pow sp sl b -> accurate (lane_of (libm_of sp sl) b).
Proof. intros sp sl b PL. apply lane_accurate. intros E. destruct (PL E) as (? & ? & ?); auto. Qed.

(** * C64: RGB to YUV *)

Lemma rgb_light : forall L m src sps x y, accurate L -> valid_image src sps -> bytes_ok m -> sampling_of (im_format src) = SRGB ->
  let ts := ci_transfer (im_color src) in ts <> TBT2100PQ ->
  let s c := level m (im_format src) sps c x y / 255 in
  let w := (decoded ts (s CR), decoded ts (s CG), decoded ts (s CB)) in
  approx3 (map3 (eotf L ts) (fst (source_pixel L m (im_format src) (im_color src) sps x y))) w (57 / 10000000) /\
  (let '(x, y, z) := w in 0 <= x <= 12 / 10 /\ 0 <= y <= 12 / 10 /\ 0 <= z <= 12 / 10).
Proof.
  intros L m src sps x y A V B FS ts TS s w.
  assert (MS : max_level (im_format src) = 255%Z) by (destruct (im_format src); try discriminate FS; reflexivity).
  assert (LV : forall c, In c comps -> exists z, (0 <= z <= 255)%Z /\ s c = IZR z / 255 /\ norm m (im_format src) sps c x y = fdiv (f32_of_Z z) (f32_of_Z 255)).
  { intros c' H'. assert (H1 : has_comp (im_format src) c' = true) by (unfold has_comp; rewrite FS; cbn [In comps] in H'; intuition (subst; reflexivity)).
    destruct (given_some m src sps c' x y V H1) as (z & G). exists z. pose proof (given_range _ _ _ _ _ _ _ B G) as R.
    assert (SB : sample_bytes (im_format src) = 1%nat) by (destruct (im_format src); try discriminate FS; reflexivity). rewrite SB in R. cbn in R.
    unfold s, level, norm. unfold given in G. rewrite G, MS. split; [lia|]. auto. }
  destruct (LV CR ltac:(cbn; auto)) as (zr & Zr & Sr & Nr). destruct (LV CG ltac:(cbn; auto)) as (zg & Zg & Sg & Ng).
  destruct (LV CB ltac:(cbn; auto)) as (zb & Zb & Sb & Nb).
  pose proof (decode_level L ts zr A TS Zr) as Dr. pose proof (decode_level L ts zg A TS Zg) as Dg. pose proof (decode_level L ts zb A TS Zb) as Db.
  pose proof (decoded_range ts zr TS Zr) as Rr. pose proof (decoded_range ts zg TS Zg) as Rg. pose proof (decoded_range ts zb TS Zb) as Rb.
  rewrite <- Nr, <- Sr in *. rewrite <- Ng, <- Sg in *. rewrite <- Nb, <- Sb in *.
  unfold source_pixel. rewrite FS. cbn [fst map3]. unfold w. split; [split; [exact Dr|split; [exact Dg|exact Db]]|].
  repeat split; apply Rr || apply Rg || apply Rb.
Qed.

(** Converting RGB to YUV (BT.601 or BT.709) with a change of the transfer
    function or the primaries: every sample is the level of the colors that have
    the same linear light, up to 1/2000 of full scale and the rounding of the
    integer; sub-sampled chroma is that of the mean of these colors.
    Missing: PQ sources; destinations with gamma 2.2 or 2.8 (see the refutation
    below), HLG or PQ; colors outside of the gamut of the destination; AVX-512
    with full range and more than 8 bits. *)
Theorem C64_rgb_to_yuv_partial : forall sp sl b m src sps dst dps i k,
  converts (libm_of sp sl) b m src sps dst dps -> bytes_ok m ->
  sampling_of (im_format src) = SRGB -> sampling_of (im_format dst) <> SRGB ->
  im_color dst = CYUV i -> weights_of (yc_space i) = Some k -> yc_space i <> SpBT2020 ->
  same_light (im_color src) (im_color dst) = false ->
  let ts := ci_transfer (im_color src) in
  let td := ci_transfer (im_color dst) in
  ts <> TBT2100PQ -> td = TLinear \/ td = TSRGB \/ td = TSDR ->
  forall c x y, has_comp (im_format dst) c = true -> in_image dst x y ->
  let cb := column_backend b (im_width dst) x in
  platform_pow sp sl cb ->
  let s c x y := level m (im_format src) sps c x y / 255 in
  let light x y := light_of ts (ci_primaries (im_color src)) (ci_primaries (im_color dst)) (s CR x y) (s CG x y) (s CB x y) in
  (forall p, In p ((x, y) :: chroma_block (sampling_of (im_format dst)) x y) -> forall c, In c comps -> in_gamut (channel c (light (fst p) (snd p)))) ->
  (cb = AVX512 -> yc_full_range i = false \/ sample_bytes (im_format dst) = 1%nat) ->
  let color c x y := encoded td (Rmax 0 (channel c (light x y))) in
  let t := ideal_level k (yc_full_range i) (im_format dst) (color CR) (color CG) (color CB) c x y in
  let hi := IZR (if (sample_bytes (im_format dst) =? 2)%nat then 65535 else 255) in
  exists z, stored (libm_of sp sl) b m src dst dps c x y = Some z /\ (0 <= z)%Z /\
    stored_for cb (IZR (max_level (im_format dst)) / 2000) (clamp hi t) z.
Proof.
  intros sp sl b m src sps dst dps i k CV B FS FD CI WK N20 SL ts td TS G c x y HC HI cb PL s light GM AV color t hi.
  pose proof (matrix_known _ _ WK N20) as K. pose proof (accurate_lane sp sl cb PL) as A.
  assert (KK : k = bt601 \/ k = bt709) by (destruct K as [(_ & ->)|(_ & ->)]; auto).
  assert (VS : valid_image src sps) by apply CV. pose proof (max_level_R (im_format dst)) as M0.
  destruct (to_yuv_light sp sl b m src sps dst dps i k (s CR) (s CG) (s CB) (57 / 10000000) CV SL FD CI K G ltac:(lra) c x y HC HI A) as (z & ST & SF & Z0).
  - intros p HP. destruct (rgb_light (lane_of (libm_of sp sl) cb) m src sps (fst p) (snd p) A VS B FS TS) as (R1 & R2).
    split; [exact R1|]. split; [exact R2|]. exact (GM p HP).
  - intros EA. specialize (AV EA).
    assert (GL : forall p, In p ((x, y) :: chroma_block (sampling_of (im_format dst)) x y) ->
      0 <= color CR (fst p) (snd p) <= 1 + 1 / 2900 /\ 0 <= color CG (fst p) (snd p) <= 1 + 1 / 2900 /\ 0 <= color CB (fst p) (snd p) <= 1 + 1 / 2900).
    { intros p HP. split; [|split]; apply (shown_range td); try exact G; apply (GM p HP); cbn; auto. }
    pose proof (gamut_level k (yc_full_range i) (im_format dst) _ _ _ c x y KK GL) as Q. cbv zeta in Q.
    change (ideal_level k (yc_full_range i) (im_format dst) _ _ _ c x y) with t in Q |- *. fold td ts light.
    destruct AV as [FR|SB].
    + rewrite FR in Q. pose proof (IZR_le _ _ (top_max (im_format dst))). fold light in Q |- *. lra.
    + assert (ML : max_level (im_format dst) = 255%Z) by (destruct (im_format dst); try discriminate SB; reflexivity).
      assert (TP : top (im_format dst) = 255%Z) by (destruct (im_format dst); try discriminate SB; reflexivity).
      rewrite ML, TP in *. destruct (yc_full_range i); lra.
  - exists z. split; [exact ST|]. split; [exact Z0|]. eapply stored_for_weaken; [exact SF|]. unfold u7. lra.
Qed.
Print Assumptions C64_rgb_to_yuv_partial.

(** The gamut of the destination contains that of the source *)
Definition gamut_within (ps pd : color_primaries) : Prop := ps = pd \/ pd = PrBT2020.

Lemma gamut_kept : forall ts ps pd r g b, (ts = TLinear \/ ts = TGamma22 \/ ts = TGamma28 \/ ts = TSRGB) -> gamut_within ps pd ->
  0 <= r <= 1 -> 0 <= g <= 1 -> 0 <= b <= 1 -> forall c, In c comps -> in_gamut (channel c (light_of ts ps pd r g b)).
Proof.
  intros ts ps pd r g b T GW R G B c HC.
  assert (U : forall v, 0 <= v <= 1 -> 0 <= decoded ts v <= 1).
  { intros v V. destruct T as [-> |[-> |[-> | ->]]]; cbn [decoded].
    - exact V.
    - split; [apply power_ge0|apply power_le_1; lra].
    - split; [apply power_ge0|apply power_le_1; lra].
    - unfold srgb_decode. destruct (Rle_dec v _); [lra|]. split; [apply power_ge0|apply power_le_1; lra]. }
  pose proof (U r R) as UR. pose proof (U g G) as UG. pose proof (U b B) as UB. unfold light_of.
  set (x := decoded ts r) in *. set (y := decoded ts g) in *. set (z := decoded ts b) in *. clearbody x y z.
  unfold in_gamut. cbn [In comps] in HC.
  destruct GW as [-> | ->]; [destruct pd|destruct ps]; destruct HC as [<- |[<- |[<- |[]]]]; cbn [to_xyz from_xyz channel fst3 snd3 thd3 fst snd];
    unfold fst3, snd3, thd3; cbn [fst snd]; unfold dot; cbn [fadd fmul flit R_ops]; lits; lra.
Qed.

(** Nothing is required of the colors if the gamut of the destination contains
    that of the source *)
Theorem C64_rgb_to_yuv_within_gamut_partial : forall sp sl b m src sps dst dps i k,
  converts (libm_of sp sl) b m src sps dst dps -> bytes_ok m ->
  sampling_of (im_format src) = SRGB -> sampling_of (im_format dst) <> SRGB ->
  im_color dst = CYUV i -> weights_of (yc_space i) = Some k -> yc_space i <> SpBT2020 ->
  same_light (im_color src) (im_color dst) = false ->
  let ts := ci_transfer (im_color src) in
  let td := ci_transfer (im_color dst) in
  let ps := ci_primaries (im_color src) in
  let pd := ci_primaries (im_color dst) in
  ts = TLinear \/ ts = TGamma22 \/ ts = TGamma28 \/ ts = TSRGB -> td = TLinear \/ td = TSRGB \/ td = TSDR ->
  ps = pd \/ pd = PrBT2020 ->
  forall c x y, has_comp (im_format dst) c = true -> in_image dst x y ->
  let cb := column_backend b (im_width dst) x in
  platform_pow sp sl cb ->
  (cb = AVX512 -> yc_full_range i = false \/ sample_bytes (im_format dst) = 1%nat) ->
  let s c x y := level m (im_format src) sps c x y / 255 in
  let color c x y := encoded td (Rmax 0 (channel c (light_of ts ps pd (s CR x y) (s CG x y) (s CB x y)))) in
  let t := ideal_level k (yc_full_range i) (im_format dst) (color CR) (color CG) (color CB) c x y in
  let hi := IZR (if (sample_bytes (im_format dst) =? 2)%nat then 65535 else 255) in
  exists z, stored (libm_of sp sl) b m src dst dps c x y = Some z /\ (0 <= z)%Z /\
    stored_for cb (IZR (max_level (im_format dst)) / 2000) (clamp hi t) z.
Proof.
  intros sp sl b m src sps dst dps i k CV B FS FD CI WK N20 SL ts td ps pd TS G GW c x y HC HI cb PL AV s color t hi.
  pose proof (converts_convertible _ _ _ _ _ _ _ CV) as CT. assert (VS : valid_image src sps) by apply CV.
  apply (C64_rgb_to_yuv_partial sp sl b m src sps dst dps i k CV B FS FD CI WK N20 SL); try assumption.
  - fold ts. destruct TS as [-> |[-> |[-> | ->]]]; discriminate.
  - intros p HP. assert (HI' : in_image dst (fst p) (snd p)) by (eapply block_in_image; [apply CT|apply CT|exact HI|exact HP]).
    assert (HS : in_image src (fst p) (snd p)) by (unfold in_image in *; rewrite (cv_width _ _ _ _ CT), (cv_height _ _ _ _ CT); exact HI').
    assert (UN : forall c, In c comps -> 0 <= s c (fst p) (snd p) <= 1).
    { intros c' HC'. assert (M255 : max_level (im_format src) = 255%Z) by (destruct (im_format src); try discriminate FS; reflexivity).
      pose proof (norm_acc m src sps c' (fst p) (snd p) VS) as Q. rewrite M255 in Q. apply Q; [|exact HS|].
      - apply bytes_levels; [exact B|]. destruct (im_format src); try discriminate FS; reflexivity.
      - unfold has_comp. rewrite FS. cbn [In comps] in HC'. destruct HC' as [<- |[<- |[<- |[]]]]; reflexivity. }
    apply gamut_kept; try assumption; apply UN; cbn; auto.
Qed.
Print Assumptions C64_rgb_to_yuv_within_gamut_partial.

(** A picture of two columns is processed with scalar code on all back ends. *)
(** Compute a stored sample of such a picture once, for all back ends, from the
    pixels it depends on *)
Lemma narrow_expected : forall lm b m src sps dst dps c x y, converts lm b m src sps dst dps ->
  im_width dst = 2%nat -> has_comp (im_format dst) c = true -> in_image dst x y ->
  ictcp_chroma420 (im_format dst) (im_color dst) c = false ->
  stored lm b m src dst dps c x y = Some (quantise (quant_of Scalar) (im_format dst) (expected_value (lane_of lm Scalar) m src sps dst c x y)).
Proof.
  intros lm b m src sps dst dps c x y C W HC HI ICT. rewrite (stored_expected _ _ _ _ _ _ _ C c x y HC HI ICT). cbv zeta.
  assert (S : column_backend b (im_width dst) x = Scalar)
    by (rewrite W; unfold column_backend; destruct b; [destruct (x <? _)%nat; reflexivity|reflexivity|reflexivity|reflexivity]).
  rewrite S. reflexivity.
Qed.

Ltac narrow b sps := unfold comps; cbn [map]; rewrite !(fun lm m src dst dps c x y => narrow_expected lm b m src sps dst dps c x y) by
  (match goal with |- converts _ _ _ _ _ _ _ => ex_converts b | |- in_image _ _ _ => split; cbn; lia | |- _ => reflexivity end); vm_compute; reflexivity.

(** A BT.709 sRGB picture to BT.2020 primaries, SDR curve, limited range *)
Definition sdr22 (f : pixel_format) : image := ex_image f 2 2 (CYUV (YuvCI TSDR PrBT2020 SpBT709 false)) (ex_yuv_planes 1).
Example C64_example : forall b,
  converts (libm_of avx_pow avx_log) b ex_mem srgb22 (ex_rgba_planes 0) (sdr22 I420) (ex_yuv_planes 1) /\ bytes_ok ex_mem /\
  same_light (im_color srgb22) (im_color (sdr22 I420)) = false /\ (forall cb, platform_pow avx_pow avx_log cb) /\
  map (fun c => stored (libm_of avx_pow avx_log) b ex_mem srgb22 (sdr22 I420) (ex_yuv_planes 1) c 1 1) [CY; CU; CV] = [Some 80; Some 130; Some 126]%Z.
Proof.
  intros b. split; [ex_converts b|]. split; [apply ex_mem_bytes|]. split; [reflexivity|].
  split; [intros cb _; split; [exact avx_pow_ok|split; [exact (log_contract avx_log avx_log_ok)|exact avx_pow_negative]]|].
  narrow b (ex_rgba_planes 0).
Qed.

(** * Gamma 2.2 and 2.8 destinations *)

Definition is_nan3 (c : f32 * f32 * f32) : Prop := fst3 c = S754_nan \/ snd3 c = S754_nan \/ thd3 c = S754_nan.

Lemma nan_yuv : forall L s t p c, weights_of s <> None -> is_nan3 c -> rgb_yuv L s t p c = (S754_nan, S754_nan, S754_nan).
Proof.
  intros L s t p ((r, g), b) W H. unfold is_nan3, fst3, snd3, thd3 in H. cbn [fst snd] in H.
  destruct s; cbn [weights_of] in W; try congruence; cbn [rgb_yuv luma_weights]; unfold weights_to_yuv; rewrite !nan_dot by exact H; reflexivity.
Qed.

Lemma nan_encode : forall i, encode_y i (S754_nan : f32) = S754_nan /\ encode_c i (S754_nan : f32) = S754_nan.
Proof. intros i. unfold encode_y, encode_c, compress_y, compress_c. destruct (yc_full_range i); split; vm_compute; reflexivity. Qed.

Lemma nan_mean : forall a b c d, (a = S754_nan \/ b = S754_nan \/ c = S754_nan \/ d = S754_nan) ->
  fmul (fadd (fadd a b) (fadd c d)) (flit 25 2 : f32) = S754_nan.
Proof.
  intros a b c d H. cbn [fmul fadd f32_ops]. destruct H as [-> |[-> |[-> | ->]]]; rewrite ?(proj1 (nan_add _)), ?(proj2 (nan_add _)), ?(proj1 (nan_add _)), ?(proj2 (nan_add _));
    apply nan_mul.
Qed.

Lemma nan_mean4 : forall a b c d, is_nan3 a \/ is_nan3 b \/ is_nan3 c \/ is_nan3 d -> is_nan3 (mean4 a b c d).
Proof.
  intros a b c d H. unfold is_nan3, mean4. unfold is_nan3, fst3, snd3, thd3 in *. cbn [fst snd].
  assert (P : (fst (fst a) = S754_nan \/ fst (fst b) = S754_nan \/ fst (fst c) = S754_nan \/ fst (fst d) = S754_nan) \/
    (snd (fst a) = S754_nan \/ snd (fst b) = S754_nan \/ snd (fst c) = S754_nan \/ snd (fst d) = S754_nan) \/
    (snd a = S754_nan \/ snd b = S754_nan \/ snd c = S754_nan \/ snd d = S754_nan)) by tauto.
  destruct P as [P|[P|P]]; [left|right; left|right; right]; apply nan_mean; exact P.
Qed.

(** The pixels a component is computed from *)
Definition covered (s : sampling) (c : comp) (x y : nat) : list (nat * nat) :=
  match c with CU | CV => chroma_block s x y | _ => [(x, y)] end.

Lemma nan_target : forall L f i pix c x y p, sampling_of f <> SRGB -> has_comp f c = true -> weights_of (yc_space i) <> None ->
  In p (covered (sampling_of f) c x y) -> is_nan3 (fst (pix (fst p) (snd p))) ->
  target L f (CYUV i) pix c x y = S754_nan.
Proof.
  intros L f i pix c x y p SF HC W HP NP. unfold target. destruct (nan_encode i) as (NY & NC).
  assert (CC : c = CY \/ c = CU \/ c = CV).
  { unfold has_comp in HC. destruct (sampling_of f), c; auto; congruence. }
  assert (CH : forall sel : f32 * f32 * f32 -> f32, sel (S754_nan, S754_nan, S754_nan) = S754_nan -> c = CU \/ c = CV ->
    match sampling_of f with
    | S420 => sel (rgb_yuv L (yc_space i) (yc_transfer i) (yc_primaries i) (mean4 (fst (pix (2 * (x / 2)) (2 * (y / 2)))) (fst (pix (2 * (x / 2)) (2 * (y / 2) + 1)))
                (fst (pix (2 * (x / 2) + 1) (2 * (y / 2)))) (fst (pix (2 * (x / 2) + 1) (2 * (y / 2) + 1)))))
    | S422 => fdiv (fadd (sel (rgb_yuv L (yc_space i) (yc_transfer i) (yc_primaries i) (fst (pix (2 * (x / 2)) y))))
                (sel (rgb_yuv L (yc_space i) (yc_transfer i) (yc_primaries i) (fst (pix (2 * (x / 2) + 1) y))))) (flit 2 0)
    | _ => sel (rgb_yuv L (yc_space i) (yc_transfer i) (yc_primaries i) (fst (pix x y)))
    end%nat = S754_nan).
  { intros sel S C. unfold covered in HP. rewrite !Nat.add_1_r. destruct (sampling_of f).
    - rewrite nan_yuv; [exact S|exact W|]. apply nan_mean4. destruct C as [-> | ->]; cbn [chroma_block In] in HP;
        destruct HP as [<- |[<- |[<- |[<- |[]]]]]; cbn [fst snd] in NP; tauto.
    - assert (D : forall v : f32, fdiv (fadd S754_nan v) (flit 2 0) = S754_nan /\ fdiv (fadd v S754_nan) (flit 2 0) = S754_nan).
      { intros v. cbn [fadd fdiv f32_ops]. rewrite (proj1 (nan_add v)), (proj2 (nan_add v)). split; reflexivity. }
      destruct C as [-> | ->]; cbn [chroma_block In] in HP; destruct HP as [<- |[<- |[]]]; cbn [fst snd] in NP;
        rewrite (nan_yuv _ _ _ _ _ W NP), S; apply D.
    - rewrite nan_yuv; [exact S|exact W|]. destruct C as [-> | ->]; cbn [chroma_block In] in HP; destruct HP as [<- |[]]; exact NP.
    - congruence. }
  destruct CC as [-> |[-> | ->]].
  - destruct HP as [<- |[]]. cbn [fst snd] in NP. rewrite (nan_yuv _ _ _ _ _ W NP). unfold fst3. cbn [fst]. rewrite NY. destruct (sampling_of f); congruence.
  - pose proof (CH snd3 eq_refl (or_introl eq_refl)) as Q. clear CH HP HC. destruct (sampling_of f); try congruence; rewrite Q; exact NC.
  - pose proof (CH thd3 eq_refl (or_intror eq_refl)) as Q. clear CH HP HC. destruct (sampling_of f); try congruence; rewrite Q; exact NC.
Qed.

Lemma store_nan_avx : forall cb f, avx cb -> quantise (quant_of cb) f S754_nan = 0%Z.
Proof. intros cb f [-> | ->]; destruct f; vm_compute; reflexivity. Qed.

(** With AVX2 and AVX-512 every sample that covers a pixel with a negative light
    is stored as 0: luma below black, chroma far away from neutral *)
Theorem C64_out_of_gamut_zero : forall sp sl b m src sps dst dps i,
  converts (libm_of sp sl) b m src sps dst dps -> bytes_ok m ->
  sampling_of (im_format src) = SRGB -> sampling_of (im_format dst) <> SRGB ->
  im_color dst = CYUV i -> weights_of (yc_space i) <> None ->
  same_light (im_color src) (im_color dst) = false ->
  let ts := ci_transfer (im_color src) in
  ts <> TBT2100PQ -> yc_transfer i = TGamma22 \/ yc_transfer i = TGamma28 ->
  forall c x y, has_comp (im_format dst) c = true -> in_image dst x y -> avx (column_backend b (im_width dst) x) ->
  let s c x y := level m (im_format src) sps c x y / 255 in
  let light x y := light_of ts (ci_primaries (im_color src)) (ci_primaries (im_color dst)) (s CR x y) (s CG x y) (s CB x y) in
  (exists p c', In p (covered (sampling_of (im_format dst)) c x y) /\ In c' comps /\ channel c' (light (fst p) (snd p)) < - (1 / 40000)) ->
  stored (libm_of sp sl) b m src dst dps c x y = Some 0%Z.
Proof.
  intros sp sl b m src sps dst dps i CV B FS FD CI W SL ts TS TG c x y HC HI AV s light (p & c' & HP & HC' & NEG).
  set (cb := column_backend b (im_width dst) x) in *. pose proof (light_kind _ _ SL) as SK.
  assert (VS : valid_image src sps) by apply CV.
  assert (PL : platform_pow sp sl cb) by (intros E; rewrite E in AV; destruct AV; discriminate).
  pose proof (accurate_lane sp sl cb PL) as A.
  assert (ICT : ictcp_chroma420 (im_format dst) (im_color dst) c = false).
  { unfold ictcp_chroma420. rewrite CI. destruct (yc_space i); cbn [weights_of] in W; try congruence; destruct (sampling_of (im_format dst)), c; reflexivity. }
  rewrite (stored_expected _ _ _ _ _ _ _ CV c x y HC HI ICT). fold cb. set (L := lane_of (libm_of sp sl) cb) in *.
  f_equal. rewrite <- (store_nan_avx cb (im_format dst) AV). f_equal. unfold expected_value. rewrite SK, CI.
  apply nan_target with (p := p); try assumption. rewrite <- CI. unfold recolored. rewrite SL.
  destruct (rgb_light L m src sps (fst p) (snd p) A VS B FS TS) as (R1 & R2). fold ts in R1, R2 |- *. fold (s CR (fst p) (snd p)) in R1, R2. fold (s CG (fst p) (snd p)) in R1, R2. fold (s CB (fst p) (snd p)) in R1, R2.
  pose proof (light_acc (ci_primaries (im_color src)) (ci_primaries (im_color dst)) _ _ _ R1 R2 ltac:(lra)) as LA.
  unfold light, light_of in NEG. destruct (source_pixel L m (im_format src) (im_color src) sps (fst p) (snd p)) as (q, al). cbn [fst snd] in *.
  unfold recolor. destruct (from_xyz (ci_primaries (im_color dst)) (to_xyz _ (map3 (eotf L ts) q))) as ((q1, q2), q3).
  destruct (from_xyz (ci_primaries (im_color dst)) _) as ((p1, p2), p3).
  assert (TD : forall v w, approx v w (256 / 100 * (57 / 10000000) + 9 / 1000000) -> w < - (1 / 40000) -> oetf L (ci_transfer (im_color dst)) v = S754_nan).
  { intros v w (NV & EV) HW. apply Rabs_le_inv in EV. rewrite CI. cbn [ci_transfer].
    assert (LP : forall y, l_pow L v y = S754_nan) by (intros y'; unfold L; destruct AV as [E|E]; rewrite E; apply avx_pow_nan; [exact NV|lra|exact NV|lra]).
    destruct TG as [-> | ->]; cbn [oetf]; apply LP. }
  destruct LA as (L1 & L2 & L3). unfold is_nan3. cbn [map3 fst3 snd3 thd3 fst snd]. unfold channel, fst3, snd3, thd3 in *. cbn [fst snd] in *. cbn [In comps] in HC'.
  destruct HC' as [<- |[<- |[<- |[]]]]; [left|right; left|right; right]; eapply TD; eassumption.
Qed.
Print Assumptions C64_out_of_gamut_zero.

(** Even colors that are in the gamut are lost: a picture of blue pixels, sRGB,
    to gamma 2.2 with the same primaries.  The matrices to XYZ and back leave a
    tiny negative red *)
Definition blue_mem : mem := fun b i => if (i mod 3 =? 2)%nat then 255%Z else 0%Z.
Definition blue_planes : list (slice * nat) := [(Slice 0 0 192, 96)]%nat.
Definition blue_src : image := ex_image RGB 32 2 (CRGB TSRGB PrBT709) blue_planes.
Definition blue_dst_planes : list (slice * nat) := [(Slice 1 0 64, 32); (Slice 1 64 64, 32); (Slice 1 128 64, 32)]%nat.
Definition blue_info : yuv_color_info := YuvCI TGamma22 PrBT709 SpBT709 true.
Definition blue_dst : image := ex_image I444 32 2 (CYUV blue_info) blue_dst_planes.

Theorem C64_gamma_refuted : forall sp sl b, avx b ->
  converts (libm_of sp sl) b blue_mem blue_src blue_planes blue_dst blue_dst_planes /\ bytes_ok blue_mem /\
  map (fun c => given blue_mem blue_src blue_planes c 3 1) [CR; CG; CB] = [Some 0; Some 0; Some 255]%Z /\
  (let light := light_of TSRGB PrBT709 PrBT709 0 0 1 in
   let color c (x y : nat) := encoded TGamma22 (Rmax 0 (channel c light)) in
   let t c := ideal_level bt709 true I444 (color CR) (color CG) (color CB) c 3 1 in
   (forall c, In c comps -> in_gamut (channel c light)) /\ 18 <= t CY <= 19 /\ 254 <= t CU <= 255 /\ 115 <= t CV <= 116) /\
  map (fun c => stored (libm_of sp sl) b blue_mem blue_src blue_dst blue_dst_planes c 3 1) [CY; CU; CV] = [Some 0; Some 0; Some 0]%Z.
Proof.
  intros sp sl b AV. split.
  { split; [|split; [|split; [|split]]]; try (split; [reflexivity|split; [repeat constructor; cbn; unfold usize; cbn; lia|reflexivity]]).
    - intros i j a c H Ha Hc k K. destruct i as [|[|[|i]]], j as [|[|[|j]]]; cbn in Ha, Hc; try discriminate Ha; try discriminate Hc;
        try (destruct (H eq_refl)); try (destruct i; discriminate Ha); try (destruct j; discriminate Hc); injection Ha as <-; injection Hc as <-; cbn in K; lia.
    - discriminate.
    - destruct AV as [-> | ->]; vm_compute; reflexivity. }
  split; [intros bb j; unfold blue_mem; destruct (j mod 3 =? 2)%nat; lia|]. split; [reflexivity|].
  split; [|destruct AV as [-> | ->]; vm_compute; reflexivity].
  intros light color t.
  assert (GK : forall c, In c comps -> in_gamut (channel c light)) by (apply gamut_kept; try lra; [tauto|left; reflexivity]).
  split; [exact GK|].
  assert (D0 : decoded TSRGB 0 = 0) by (apply decoded_0; discriminate).
  assert (D1 : decoded TSRGB 1 = 1) by (cbn [decoded]; unfold srgb_decode; destruct (Rle_dec 1 _); [lra|]; replace ((1 + 55 / 1000) / (1055 / 1000)) with 1 by lra; apply power_1).
  assert (LV : channel CR light <= 0 /\ channel CG light <= 0 /\ 999 / 1000 <= channel CB light <= 1).
  { unfold light, light_of. rewrite D0, D1. cbn [to_xyz from_xyz channel]; unfold fst3, snd3, thd3; cbn [fst snd]; unfold dot; cbn [fadd fmul flit R_ops]; lits; lra. }
  destruct LV as (LR & LG & LB).
  assert (C0 : color CR 3%nat 1%nat = 0 /\ color CG 3%nat 1%nat = 0 /\ 999 / 1000 <= color CB 3%nat 1%nat <= 1).
  { unfold color. rewrite !Rmax_left by lra. rewrite Rmax_right by lra. cbn [encoded]. rewrite power_0. split; [reflexivity|]. split; [reflexivity|].
    split; [|apply power_le_1; lra].
    apply Rle_trans with (channel CB light); [lra|]. set (v := channel CB light) in *. rewrite power_pos by lra.
    rewrite <- (Rpower_1 v) at 1 by lra. unfold Rpower. apply exp_le. assert (ln v <= 0) by (rewrite <- ln_1; apply ln_le; lra). nra. }
  destruct C0 as (C1 & C2 & C3). unfold t, ideal_level, chroma_mean, mean. cbn [sampling_of chroma_block map fold_right length fst snd max_level]. simpl INR.
  set (u := color CB 3%nat 1%nat) in *. rewrite C1, C2. unfold y_level, c_level. unfold_k. lra.
Qed.
Print Assumptions C64_gamma_refuted.

(** * C65: YUV sources *)

Lemma yuv_light : forall sp sl b m src sps i k x y, let L := lane_of (libm_of sp sl) b in
  accurate L -> valid_image src sps -> levels_ok m src sps -> sampling_of (im_format src) <> SRGB ->
  im_color src = CYUV i -> weights_known (yc_space i) k -> in_image src x y ->
  let ts := ci_transfer (im_color src) in ts <> TBT2100PQ ->
  decodable ts (red_at k m src sps i x y) -> decodable ts (green_at k m src sps i x y) -> decodable ts (blue_at k m src sps i x y) ->
  let w := (decoded ts (red_at k m src sps i x y), decoded ts (green_at k m src sps i x y), decoded ts (blue_at k m src sps i x y)) in
  approx3 (map3 (eotf L ts) (fst (source_pixel L m (im_format src) (im_color src) sps x y))) w (decode_error ts) /\
  (let '(x, y, z) := w in 0 <= x <= 12 / 10 /\ 0 <= y <= 12 / 10 /\ 0 <= z <= 12 / 10).
Proof.
  intros sp sl b m src sps i k x y L A V LV FS CI K HI ts TS DR DG DB w.
  destruct (yuv_source_acc L m src sps i k x y V LV FS CI K HI) as ((AR & AG & AB) & _).
  destruct (source_pixel L m (im_format src) (im_color src) sps x y) as (((r, g), bl), al). cbn [fst3 snd3 thd3 fst snd] in AR, AG, AB.
  unfold fst3, snd3, thd3 in AR, AG, AB. cbn [fst snd] in *. split.
  - split; [|split]; apply decode_near; assumption.
  - unfold w. split; [|split]; apply decoded_unit; try exact TS; [apply DR|apply DG|apply DB].
Qed.

(** The color of the pixel is one the source can have: red, green and blue in
    0 .. 1; not quite 0 for gamma 2.2 and 2.8, because rounding could make it
    negative (see C54) *)
Definition real_color (k : weights) (m : mem) (src : image) (sps : list (slice * nat)) (i : yuv_color_info) (x y : nat) : Prop :=
  forall q, In q [red_at k m src sps i x y; green_at k m src sps i x y; blue_at k m src sps i x y] ->
    0 <= q <= 1 /\ (yc_transfer i = TGamma22 \/ yc_transfer i = TGamma28 -> 1 / 50000 <= q).

(** Light is computed up to 1/5000 of the reference white (HLG: 1/3000) *)
Definition light_error (t : color_transfer) : R := match t with TBT2100HLG => 1 / 3000 | _ => 1 / 5000 end.

(** YUV (BT.601, BT.709) to RGB with a change of the transfer function or the
    primaries: every sample encodes the linear light of the color of the pixel
    up to the error above and the rounding of the integer; light outside of the
    gamut of the destination is clipped.
    Missing: PQ; source colors outside of 0 .. 1 (C54 is about them). *)
Theorem C65_yuv_to_rgb_partial : forall sp sl b m src sps dst dps i k,
  converts (libm_of sp sl) b m src sps dst dps -> levels_ok m src sps ->
  sampling_of (im_format src) <> SRGB -> sampling_of (im_format dst) = SRGB ->
  im_color src = CYUV i -> weights_of (yc_space i) = Some k -> yc_space i <> SpBT2020 ->
  same_light (im_color src) (im_color dst) = false ->
  let ts := ci_transfer (im_color src) in
  let td := ci_transfer (im_color dst) in
  ts <> TBT2100PQ -> td <> TBT2100PQ ->
  forall c x y, In c comps -> in_image dst x y ->
  let cb := column_backend b (im_width dst) x in
  platform_pow sp sl cb ->
  real_color k m src sps i x y ->
  let exact := channel c (light_of ts (ci_primaries (im_color src)) (ci_primaries (im_color dst))
                            (red_at k m src sps i x y) (green_at k m src sps i x y) (blue_at k m src sps i x y)) in
  exists z light, stored (libm_of sp sl) b m src dst dps c x y = Some z /\ (0 <= z <= 255)%Z /\
    Rabs (light - exact) <= light_error ts /\
    stored_for cb (255 * (6 / 1000000)) (clamp 255 (255 * encoded td (Rmax 0 light))) z.
Proof.
  intros sp sl b m src sps dst dps i k CV LV FS FD CI WK N20 SL ts td TS TD c x y HC HI cb PL RC exact.
  pose proof (matrix_known _ _ WK N20) as K. pose proof (light_kind _ _ SL) as SK. pose proof (converts_convertible _ _ _ _ _ _ _ CV) as CT.
  assert (VS : valid_image src sps) by apply CV.
  assert (HS : in_image src x y) by (unfold in_image in *; rewrite (cv_width _ _ _ _ CT), (cv_height _ _ _ _ CT); exact HI).
  assert (HD : has_comp (im_format dst) c = true) by (unfold has_comp; rewrite FD; cbn [In comps] in HC; intuition (subst; reflexivity)).
  assert (ICT : ictcp_chroma420 (im_format dst) (im_color dst) c = false) by (unfold ictcp_chroma420; rewrite FD; reflexivity).
  rewrite (stored_expected _ _ _ _ _ _ _ CV c x y HD HI ICT). fold cb. set (L := lane_of (libm_of sp sl) cb).
  pose proof (accurate_lane sp sl cb PL) as A. fold L in A.
  assert (PN : pow_negative (l_pow L)) by (apply lane_negative; intros E; apply PL, E).
  assert (DC : forall q, In q [red_at k m src sps i x y; green_at k m src sps i x y; blue_at k m src sps i x y] -> decodable ts q).
  { intros q HQ. unfold ts. rewrite CI. exact (RC q HQ). }
  destruct (yuv_light sp sl cb m src sps i k x y A VS LV FS CI K HS TS (DC _ (or_introl eq_refl)) (DC _ (or_intror (or_introl eq_refl))) (DC _ (or_intror (or_intror (or_introl eq_refl))))) as (D3 & DB).
  fold ts in D3, DB. fold L in D3. unfold exact, light_of.
  set (w := (decoded ts (red_at k m src sps i x y), decoded ts (green_at k m src sps i x y), decoded ts (blue_at k m src sps i x y))) in *.
  assert (DE : 5 / 1000000 <= decode_error ts <= 1 / 5000) by (unfold decode_error; destruct ts; lra).
  pose proof (light_acc (ci_primaries (im_color src)) (ci_primaries (im_color dst)) _ w _ D3 DB ltac:(lra)) as F3.
  pose proof (linear_bound (ci_primaries (im_color src)) (ci_primaries (im_color dst)) w DB) as FB.
  unfold expected_value. rewrite SK. unfold target. rewrite FD. unfold recolored. rewrite SL.
  destruct (source_pixel L m (im_format src) (im_color src) sps x y) as (q, al). cbn [fst snd] in *. unfold recolor. fold ts. fold td.
  destruct (from_xyz (ci_primaries (im_color dst)) (to_xyz (ci_primaries (im_color src)) (map3 (eotf L ts) q))) as ((q1, q2), q3).
  destruct (from_xyz (ci_primaries (im_color dst)) (to_xyz (ci_primaries (im_color src)) w)) as ((p1, p2), p3).
  destruct F3 as (Q1 & Q2 & Q3). destruct FB as (P1 & P2 & P3).
  assert (LE : 256 / 100 * decode_error ts + 9 / 1000000 + 1 / 100000000 <= light_error ts) by (unfold decode_error, light_error; destruct ts; lra).
  assert (END : forall q p, approx q p (256 / 100 * decode_error ts + 9 / 1000000) -> Rabs p <= 3 ->
    exists z light, Some (quantise (quant_of cb) (im_format dst) (oetf L td q)) = Some z /\ (0 <= z <= 255)%Z /\
      Rabs (light - p) <= light_error ts /\ stored_for cb (255 * (6 / 1000000)) (clamp 255 (255 * encoded td (Rmax 0 light))) z).
  { intros q' p (NQ & EQ) BP. apply Rabs_le_inv in EQ. apply Rabs_le_inv in BP.
    destruct (encode_store L cb (im_format dst) td q' A PN TD FD NQ ltac:(apply Rabs_le; lra)) as (X & EX & ST & ZB).
    exists (quantise (quant_of cb) (im_format dst) (oetf L td q')), X. split; [reflexivity|]. split; [exact ZB|]. apply Rabs_le_inv in EX.
    split; [apply Rabs_le; lra|]. eapply stored_for_weaken; [exact ST|lra]. }
  cbn [In comps] in HC. cbn [map3 fst3 snd3 thd3]. unfold channel, fst3, snd3, thd3.
  destruct HC as [<- |[<- |[<- |[]]]]; cbn [fst snd]; apply END; assumption.
Qed.
Print Assumptions C65_yuv_to_rgb_partial.

(** In levels, for destinations whose curve is not vertical at black *)
Theorem C65_yuv_to_rgb_levels_partial : forall sp sl b m src sps dst dps i k,
  converts (libm_of sp sl) b m src sps dst dps -> levels_ok m src sps ->
  sampling_of (im_format src) <> SRGB -> sampling_of (im_format dst) = SRGB ->
  im_color src = CYUV i -> weights_of (yc_space i) = Some k -> yc_space i <> SpBT2020 ->
  same_light (im_color src) (im_color dst) = false ->
  let ts := ci_transfer (im_color src) in
  let td := ci_transfer (im_color dst) in
  ts <> TBT2100PQ -> td = TLinear \/ td = TSRGB \/ td = TSDR ->
  forall c x y, In c comps -> in_image dst x y ->
  let cb := column_backend b (im_width dst) x in
  platform_pow sp sl cb ->
  real_color k m src sps i x y ->
  let exact := channel c (light_of ts (ci_primaries (im_color src)) (ci_primaries (im_color dst))
                            (red_at k m src sps i x y) (green_at k m src sps i x y) (blue_at k m src sps i x y)) in
  exists z, stored (libm_of sp sl) b m src dst dps c x y = Some z /\ (0 <= z <= 255)%Z /\
    stored_for cb (match ts with TBT2100HLG => 9 / 8 | _ => 3 / 4 end) (clamp 255 (255 * encoded td (Rmax 0 exact))) z.
Proof.
  intros sp sl b m src sps dst dps i k CV LV FS FD CI WK N20 SL ts td TS TD c x y HC HI cb PL RC exact.
  assert (TP : td <> TBT2100PQ) by (destruct TD as [-> |[-> | ->]]; discriminate).
  destruct (C65_yuv_to_rgb_partial sp sl b m src sps dst dps i k CV LV FS FD CI WK N20 SL TS TP c x y HC HI PL RC) as (z & light & ST & ZB & LE & SF).
  change (Rabs (light - exact) <= light_error ts) in LE. change (stored_for cb (255 * (6 / 1000000)) (clamp 255 (255 * encoded td (Rmax 0 light))) z) in SF.
  clearbody exact td cb ts. exists z. split; [exact ST|]. split; [exact ZB|]. apply Rabs_le_inv in LE.
  assert (ML : Rabs (Rmax 0 light - Rmax 0 exact) <= light_error ts).
  { apply Rabs_le. unfold Rmax. destruct (Rle_dec 0 light), (Rle_dec 0 exact); lra. }
  pose proof (Rmax_l 0 light). pose proof (Rmax_l 0 exact).
  set (p := Rmax 0 light) in *. set (q := Rmax 0 exact) in *.
  pose proof (encoded_lip2 td p q TD ltac:(lra) ltac:(lra)) as EL.
  assert (D : Rabs (255 * encoded td p - 255 * encoded td q) <= (match ts with TBT2100HLG => 9 / 8 | _ => 3 / 4 end) - 1 / 100).
  { replace (255 * encoded td p - 255 * encoded td q) with (255 * (encoded td p - encoded td q)) by ring.
    rewrite Rabs_mult, (Rabs_pos_eq 255) by lra.
    assert (RM : Rmax (13 * Rabs (p - q) + 1 / 1000000) (46 / 10 * Rabs (p - q) + 1 / 3500) <= (match ts with TBT2100HLG => 1114 / 1000 | _ => 7 / 10 end) / 255)
      by (unfold light_error in ML; destruct ts; apply Rmax_lub; lra).
    destruct ts; lra. }
  pose proof (clamp_near 255 _ _ _ ltac:(lra) D) as CN. apply Rabs_le_inv in CN.
  set (tol := match ts with TBT2100HLG => 9 / 8 | _ => 3 / 4 end) in *.
  destruct cb; cbn [stored_for] in *; unfold truncated, rounded in *; try lra; apply Rabs_le_inv in SF; apply Rabs_le; lra.
Qed.
Print Assumptions C65_yuv_to_rgb_levels_partial.

(** YUV to YUV *)
Theorem C65_yuv_to_yuv_partial : forall sp sl b m src sps dst dps is ks id kd,
  converts (libm_of sp sl) b m src sps dst dps -> levels_ok m src sps ->
  sampling_of (im_format src) <> SRGB -> sampling_of (im_format dst) <> SRGB ->
  im_color src = CYUV is -> weights_of (yc_space is) = Some ks -> yc_space is <> SpBT2020 ->
  im_color dst = CYUV id -> weights_of (yc_space id) = Some kd -> yc_space id <> SpBT2020 ->
  same_light (im_color src) (im_color dst) = false ->
  let ts := ci_transfer (im_color src) in
  let td := ci_transfer (im_color dst) in
  ts <> TBT2100PQ -> td = TLinear \/ td = TSRGB \/ td = TSDR ->
  forall c x y, has_comp (im_format dst) c = true -> in_image dst x y ->
  let cb := column_backend b (im_width dst) x in
  platform_pow sp sl cb ->
  let light x y := light_of ts (ci_primaries (im_color src)) (ci_primaries (im_color dst))
                     (red_at ks m src sps is x y) (green_at ks m src sps is x y) (blue_at ks m src sps is x y) in
  (forall p, In p ((x, y) :: chroma_block (sampling_of (im_format dst)) x y) ->
     real_color ks m src sps is (fst p) (snd p) /\ forall c, In c comps -> in_gamut (channel c (light (fst p) (snd p)))) ->
  (cb = AVX512 -> yc_full_range id = false) ->
  let color c x y := encoded td (Rmax 0 (channel c (light x y))) in
  let t := ideal_level kd (yc_full_range id) (im_format dst) (color CR) (color CG) (color CB) c x y in
  let hi := IZR (if (sample_bytes (im_format dst) =? 2)%nat then 65535 else 255) in
  exists z, stored (libm_of sp sl) b m src dst dps c x y = Some z /\ (0 <= z)%Z /\
    stored_for cb (IZR (max_level (im_format dst)) / match ts with TBT2100HLG => 220 | _ => 350 end) (clamp hi t) z.
Proof.
  intros sp sl b m src sps dst dps is ks id kd CV LV FS FD CI WS NS CID WK N20 SL ts td TS G c x y HC HI cb PL light GM AV color t hi.
  pose proof (matrix_known _ _ WS NS) as KS. pose proof (matrix_known _ _ WK N20) as K. pose proof (accurate_lane sp sl cb PL) as A.
  pose proof (converts_convertible _ _ _ _ _ _ _ CV) as CT.
  assert (KK : kd = bt601 \/ kd = bt709) by (destruct K as [(_ & ->)|(_ & ->)]; auto).
  assert (VS : valid_image src sps) by apply CV. pose proof (max_level_R (im_format dst)) as M0.
  assert (DE : 5 / 1000000 <= decode_error ts <= 1 / 5000) by (unfold decode_error; destruct ts; lra).
  destruct (to_yuv_light sp sl b m src sps dst dps id kd (red_at ks m src sps is) (green_at ks m src sps is) (blue_at ks m src sps is) (decode_error ts)
    CV SL FD CID K G DE c x y HC HI A) as (z & ST & SF & Z0).
  - intros p HP. destruct (GM p HP) as (RC & GP).
    assert (HI' : in_image dst (fst p) (snd p)) by (eapply block_in_image; [apply CT|apply CT|exact HI|exact HP]).
    assert (HS : in_image src (fst p) (snd p)) by (unfold in_image in *; rewrite (cv_width _ _ _ _ CT), (cv_height _ _ _ _ CT); exact HI').
    assert (DC : forall q, In q [red_at ks m src sps is (fst p) (snd p); green_at ks m src sps is (fst p) (snd p); blue_at ks m src sps is (fst p) (snd p)] -> decodable ts q).
    { intros q HQ. unfold ts. rewrite CI. exact (RC q HQ). }
    destruct (yuv_light sp sl cb m src sps is ks (fst p) (snd p) A VS LV FS CI KS HS TS (DC _ (or_introl eq_refl)) (DC _ (or_intror (or_introl eq_refl))) (DC _ (or_intror (or_intror (or_introl eq_refl))))) as (R1 & R2).
    split; [exact R1|]. split; [exact R2|]. exact GP.
  - intros EA. specialize (AV EA).
    assert (GL : forall p, In p ((x, y) :: chroma_block (sampling_of (im_format dst)) x y) ->
      0 <= color CR (fst p) (snd p) <= 1 + 1 / 2900 /\ 0 <= color CG (fst p) (snd p) <= 1 + 1 / 2900 /\ 0 <= color CB (fst p) (snd p) <= 1 + 1 / 2900).
    { intros p HP. destruct (GM p HP) as (_ & GP). split; [|split]; apply (shown_range td); try exact G; apply GP; cbn; auto. }
    pose proof (gamut_level kd (yc_full_range id) (im_format dst) _ _ _ c x y KK GL) as Q. cbv zeta in Q.
    change (ideal_level kd (yc_full_range id) (im_format dst) _ _ _ c x y) with t in Q |- *.
    rewrite AV in Q. pose proof (IZR_le _ _ (top_max (im_format dst))). fold ts.
    assert (ME : IZR (max_level (im_format dst)) * (13 * (256 / 100 * decode_error ts + 9 / 1000000) + 15 / 100000) <= IZR (max_level (im_format dst)) * (1 / 100))
      by (apply Rmult_le_compat_l; lra). lra.
  - exists z. split; [exact ST|]. split; [exact Z0|]. eapply stored_for_weaken; [exact SF|]. fold ts.
    assert (IM : forall e d, e <= / d -> IZR (max_level (im_format dst)) * e <= IZR (max_level (im_format dst)) / d)
      by (intros e d H; unfold Rdiv; apply Rmult_le_compat_l; lra).
    apply IM. unfold decode_error, u7. clear - TS. destruct ts; lra.
Qed.
Print Assumptions C65_yuv_to_yuv_partial.

(** BT.709 sRGB video to BT.2020 primaries with the SDR curve, as RGB and as
    YUV: the hypotheses of C65 hold of every pixel *)
Definition soft_mem : mem := fun b i => (100 + 10 * Z.of_nat (i mod 4))%Z.
Definition soft_info : yuv_color_info := YuvCI TSRGB PrBT709 SpBT709 false.
Definition soft_src : image := ex_image I420 2 2 (CYUV soft_info) (ex_yuv_planes 0).
Definition soft_rgb : image := ex_image RGBA 2 2 (CRGB TSDR PrBT2020) (ex_rgba_planes 1).

Lemma soft_colors : forall x y, in_image soft_src x y -> real_color bt709 soft_mem soft_src (ex_yuv_planes 0) soft_info x y.
Proof.
  intros x y (HX & HY) q HQ. cbn in HX, HY.
  split; [|cbn; intros [H|H]; discriminate H].
  assert (X : (x = 0 \/ x = 1)%nat) by lia. assert (Y : (y = 0 \/ y = 1)%nat) by lia.
  assert (LY : exists z, level soft_mem I420 (ex_yuv_planes 0) CY x y = IZR z /\ (100 <= z <= 130)%Z).
  { destruct X as [-> | ->], Y as [-> | ->]; eexists; (split; [unfold level; match goal with |- context [component ?m ?f ?p ?c ?x ?y] => let v := eval vm_compute in (component m f p c x y) in change (component m f p c x y) with v end; reflexivity|lia]). }
  assert (LC : forall c, c = CU \/ c = CV -> exists z, level soft_mem I420 (ex_yuv_planes 0) c x y = IZR z /\ (100 <= z <= 130)%Z).
  { intros c [-> | ->]; destruct X as [-> | ->], Y as [-> | ->]; eexists; (split; [unfold level; match goal with |- context [component ?m ?f ?p ?c ?x ?y] => let v := eval vm_compute in (component m f p c x y) in change (component m f p c x y) with v end; reflexivity|lia]). }
  destruct LY as (ly & EY & BY). destruct (LC CU (or_introl eq_refl)) as (lu & EU & BU). destruct (LC CV (or_intror eq_refl)) as (lv & EV & BV).
  pose proof (IZR_le _ _ (proj1 BY)). pose proof (IZR_le _ _ (proj2 BY)). pose proof (IZR_le _ _ (proj1 BU)). pose proof (IZR_le _ _ (proj2 BU)).
  pose proof (IZR_le _ _ (proj1 BV)). pose proof (IZR_le _ _ (proj2 BV)).
  unfold red_at, green_at, blue_at, y_at, u_at, v_at in HQ. cbn [im_format soft_src ex_image yc_full_range soft_info] in HQ. rewrite EY, EU, EV in HQ.
  unfold green, red, blue, level_y, level_c, w_g, bt709 in HQ. cbn in HQ.
  destruct HQ as [<- |[<- |[<- |[]]]]; lra.
Qed.

Example C65_example : forall b,
  converts (libm_of avx_pow avx_log) b soft_mem soft_src (ex_yuv_planes 0) soft_rgb (ex_rgba_planes 1) /\
  converts (libm_of avx_pow avx_log) b soft_mem soft_src (ex_yuv_planes 0) (sdr22 I420) (ex_yuv_planes 1) /\ levels_ok soft_mem soft_src (ex_yuv_planes 0) /\
  same_light (im_color soft_src) (im_color soft_rgb) = false /\ same_light (im_color soft_src) (im_color (sdr22 I420)) = false /\
  (forall x y, in_image soft_src x y -> real_color bt709 soft_mem soft_src (ex_yuv_planes 0) soft_info x y /\
     forall c, In c comps -> in_gamut (channel c (light_of TSRGB PrBT709 PrBT2020 (red_at bt709 soft_mem soft_src (ex_yuv_planes 0) soft_info x y)
       (green_at bt709 soft_mem soft_src (ex_yuv_planes 0) soft_info x y) (blue_at bt709 soft_mem soft_src (ex_yuv_planes 0) soft_info x y)))) /\
  map (fun c => stored (libm_of avx_pow avx_log) b soft_mem soft_src soft_rgb (ex_rgba_planes 1) c 1 1) comps = [Some 104; Some 133; Some 69]%Z /\
  map (fun c => stored (libm_of avx_pow avx_log) b soft_mem soft_src (sdr22 I420) (ex_yuv_planes 1) c 1 1) [CY; CU; CV] = [Some 121; Some 103; Some 118]%Z.
Proof.
  intros b. split; [ex_converts b|]. split; [ex_converts b|]. split; [apply bytes_levels; [|reflexivity]|].
  { intros bf i. unfold soft_mem. pose proof (Nat.mod_upper_bound i 4). lia. }
  split; [reflexivity|]. split; [reflexivity|]. split.
  { intros x y H. pose proof (soft_colors x y H) as R. split; [exact R|]. intros c HC.
    apply gamut_kept; try exact HC; [tauto|right; reflexivity| | |]; apply R; cbn; auto. }
  split; narrow b (ex_yuv_planes 0).
Qed.
