(** C76 and C61 with a change of the transfer function or the primaries: what
    convert stores for ICtCp if the source is RGB of another kind. *)

From Coq Require Import List ZArith Bool Arith Reals Lia Lra Psatz.
From Flocq Require Import Core.
From Verif Require Import Base Types Planes ImageM F32 Vector Simd SpecVector SimdProofs QuantProofs SpecGeom GeomProofs
  SpecColor SpecConvert SpecRun Formats Visit Convert VisitProofs ColorProofs ConvertProofs ExactProofs PropConvert PropFidelity
  SpecReal FloatProofs AccProofs TargetProofs PropColor ColorR SpecTransfer PowerProofs MathProofs SpecMath LaneProofs TransferProofs
  Math NegProofs RecolorProofs PropRecolor GamutProofs PropGamut PropBackends PropBackends2 SpecIctcp PropIctcp IctcpProofs WideProofs PropWide PropGray PqProofs PqEncProofs
  PropDrift PropBT2020 PropOut PropIctcpAcc PropIctcpPq PropIctcpGray PropGrayPq PropToPQ PropFromPQ PropPQ PropIctcpRecolor PropCodes PropIctcpLevels PropIctcpIn.
From Verif Require PropTransfer.
Import ListNotations.
Local Open Scope R_scope.

(** * Light that is encoded and decoded again *)

(** The transfer functions of this file: they are inverted exactly or nearly so
    (C35) and support light slightly below 0 *)
Definition restores (t : color_transfer) : Prop := t = TLinear \/ t = TSRGB \/ t = TBT2100HLG.

Lemma encoded_top : forall t x, restores t -> 0 <= x <= 1 + 4 / 100000 -> 0 <= encoded t x <= 1 + 6 / 100000.
Proof.
  intros t x T X. destruct T as [-> |[-> | ->]]; cbn [encoded].
  - lra.
  - unfold srgb_encode. destruct (Rle_dec x _) as [C|C]; [lra|].
    assert (U : power x (5 / 12) <= power (1 + 4 / 100000) (5 / 12)) by (apply power_le; lra).
    assert (V : power (1 + 4 / 100000) (5 / 12) < 1 + 5 / 100000) by (apply (power_below _ _ _ 5 12); simpl; lra).
    assert (W : 9 / 100 < power (31308 / 10000000) (5 / 12)) by (apply (power_above _ _ _ 5 12); simpl; lra).
    assert (Z : power (31308 / 10000000) (5 / 12) <= power x (5 / 12)) by (apply power_le; lra). lra.
  - assert (W : forall y, 0 <= y <= 1 -> 0 <= hlg_encode y <= 1 + 1 / 25000).
    { intros y Y. apply (curve_range SpICtCpHLG); [right; reflexivity|cbn; lra]. }
    destruct (Rle_lt_dec x 1) as [C|C]; [pose proof (W x ltac:(lra)); lra|].
    split; [unfold hlg_encode; destruct (Rle_dec _ _); [apply sqrt_pos|]; pose proof (hlg_high x ltac:(lra)); lra|].
    pose proof (W 1 ltac:(lra)). pose proof (hlg_relative 1 x (4 / 100000) ltac:(lra) ltac:(lra) ltac:(lra) ltac:(lra)). lra.
Qed.

Lemma restored : forall t x, restores t -> 0 <= x <= 1 + 4 / 100000 -> Rabs (decoded t (encoded t x) - x) <= 1 / 1000000.
Proof.
  intros t x T X. pose proof (encoded_top t x T X) as E. destruct T as [-> |[-> | ->]]; cbn [encoded decoded] in *.
  - rewrite Rminus_diag_eq, Rabs_R0 by reflexivity. lra.
  - rewrite <- PropTransfer.encode_srgb in E |- * by lra. rewrite <- PropTransfer.decode_srgb by lra.
    destruct (PropTransfer.C35_srgb_inverse x ltac:(lra)) as (I & _).
    destruct (Rle_dec x (31308 / 10000000)) as [C|C]; [rewrite I by auto; rewrite Rminus_diag_eq, Rabs_R0 by reflexivity; lra|].
    destruct (Rle_dec (31309 / 10000000) x) as [D|D]; [rewrite I by auto; rewrite Rminus_diag_eq, Rabs_R0 by reflexivity; lra|].
    rewrite PropTransfer.decode_srgb by lra. rewrite PropTransfer.encode_srgb in E |- * by lra. unfold srgb_encode in *. destruct (Rle_dec x (31308 / 10000000)); [lra|].
    assert (W : 9047379 / 100000000 < power (31308 / 10000000) (5 / 12)) by (apply (power_above _ _ _ 5 12); simpl; lra).
    assert (Z : power (31308 / 10000000) (5 / 12) <= power x (5 / 12)) by (apply power_le; lra).
    assert (V : power (31309 / 10000000) (5 / 12) < 904751 / 10000000) by (apply (power_below _ _ _ 5 12); simpl; lra).
    assert (U : power x (5 / 12) <= power (31309 / 10000000) (5 / 12)) by (apply power_le; lra).
    unfold srgb_decode. destruct (Rle_dec _ _) as [F|F]; [apply Rabs_le; lra|].
    replace ((1055 / 1000 * power x (5 / 12) - 55 / 1000 + 55 / 1000) / (1055 / 1000)) with (power x (5 / 12)) by field.
    rewrite power_inv by lra. rewrite Rminus_diag_eq, Rabs_R0 by reflexivity. lra.
  - rewrite <- PropTransfer.encode_hlg in E |- * by lra. rewrite <- PropTransfer.decode_hlg by lra. apply PropTransfer.C35_hlg_inverse. lra.
Qed.

(** Accuracy of light that is encoded and decoded *)
Definition again_error (t : color_transfer) : R := match t with TBT2100HLG => 15 / 100000 | _ => 1 / 10000 end.

Lemma light_restored : forall sp sl b t q p, let L := lane_of (libm_of sp sl) b in
  accurate L -> restores t -> approx q p (25 / 1000000) -> - (1 / 100000) <= p <= 1 + 1 / 100000 ->
  approx (eotf L t (oetf L t q)) (Rmax 0 p) (again_error t).
Proof.
  intros sp sl b t q p L A T (N & E) P. apply Rabs_le_inv in E.
  assert (TP : t <> TBT2100PQ) by (destruct T as [-> |[-> | ->]]; discriminate).
  assert (AE : 1 / 10000 <= again_error t /\ decode_error t + 27 / 1000000 <= again_error t) by (destruct T as [-> |[-> | ->]]; cbn; lra).
  destruct (Rle_dec 0 (fval q)) as [Q|Q].
  - assert (M : Rabs (fval q - Rmax 0 p) <= 25 / 1000000) by (apply Rabs_le; unfold Rmax; destruct (Rle_dec 0 p); lra).
    destruct (encode_num L t q A TP N ltac:(lra)) as (X & XB & XE & H). apply Rabs_le_inv in XE.
    assert (XT : 0 <= X <= 1 + 4 / 100000) by lra.
    pose proof (encoded_top t X T XT) as ET. pose proof (restored t X T XT) as RX. apply Rabs_le_inv in RX. apply Rabs_le_inv in M.
    apply approx_weaken with (v := decoded t (encoded t X)) (e := decode_error t);
      [|assert (Rabs (decoded t (encoded t X) - Rmax 0 p) <= 27 / 1000000) by (apply Rabs_le; lra); lra].
    destruct (Rle_lt_dec (encoded t X) 1) as [C|C].
    + apply decode_near; [exact A|exact TP|eapply approx_le; [exact H|unfold u7; lra]|].
      split; [lra|]. destruct T as [-> |[-> | ->]]; intros [F|F]; discriminate F.
    + destruct H as (NO & EO). apply Rabs_le_inv in EO. assert (B : 0 <= fval (oetf L t q) <= 10001 / 10000) by lra.
      apply approx_weaken with (v := decoded t (fval (oetf L t q))) (e := 5 / 1000000).
      * destruct T as [-> |[-> | ->]]; cbn [decoded].
        -- eapply approx_le; [apply exact_approx, NO|lra].
        -- eapply approx_le; [apply srgb_dec_ok; assumption|lra].
        -- apply hlg_dec_ok; assumption.
      * pose proof (decoded_lip t (fval (oetf L t q)) (encoded t X) TP B ltac:(lra)) as H.
        assert (Rabs (fval (oetf L t q) - encoded t X) <= 5 / 1000000) by (apply Rabs_le; lra).
        unfold slope, decode_error in *. destruct T as [-> |[-> | ->]]; lra.
  - assert (M : 0 <= Rmax 0 p <= 25 / 1000000) by (unfold Rmax; destruct (Rle_dec 0 p); lra).
    assert (HQ : approx q (fval q) 0) by (apply exact_approx, N).
    assert (AQ : Rabs (fval q) <= 4 / 100000) by (apply Rabs_le; lra).
    destruct T as [-> |[-> | ->]]; cbn [again_error] in *.
    + cbn [oetf eotf]. split; [exact N|apply Rabs_le; lra].
    + assert (C : approx (f32_lit 1292 2) (1292 / 100) (5 / 10000000)) by const_approx.
      assert (CT : approx (f32_lit 31308 7) (31308 / 10000000) (1 / 1000000)) by const_approx. destruct CT as (NT & VT). apply Rabs_le_inv in VT.
      assert (OE : oetf L TSRGB q = f32_mul q (f32_lit 1292 2)).
      { run_f32. replace (l_le L q (f32_lit 31308 7)) with true by (symmetry; apply lane_small; [exact N|exact NT|lra]). reflexivity. }
      pose proof (approx_mul _ _ _ _ _ _ (4 / 100000) 13 (1 / 10) HQ C AQ ltac:(apply Rabs_le; lra) ltac:(lra) ltac:(lra)) as H. rewrite <- OE in H. clear OE.
      set (o := oetf L TSRGB q) in *. destruct H as (NO & EO). unfold half_ulp in EO. apply Rabs_le_inv in EO. apply Rabs_le_inv in AQ.
      destruct (Rlt_le_dec (fval o) 0) as [G|G].
      * assert (CD : approx (f32_lit 4045 5) (10858214 / 268435456) 0) by const_approx. apply const_val in CD. destruct CD as (VD & ND & _).
        run_f32. replace (l_le L o (f32_lit 4045 5)) with true by (symmetry; apply lane_small; [exact NO|exact ND|lra]).
        pose proof (approx_div2 _ _ _ _ _ _ 12 (1 / 1000) (1 / 10) (exact_approx o NO) C ltac:(lra) ltac:(lra) ltac:(apply Rabs_le; lra) ltac:(lra) ltac:(lra)) as D.
        eapply approx_weaken; [exact D|]. unfold half_ulp.
        assert (Rabs (fval o / (1292 / 100) - Rmax 0 p) <= 9 / 100000) by (apply Rabs_le; lra). lra.
      * pose proof (srgb_dec_ok L o A NO ltac:(lra)) as D. eapply approx_weaken; [exact D|].
        assert (S0 : 0 <= srgb_decode (fval o) <= 1 / 100000) by (unfold srgb_decode; destruct (Rle_dec _ _); lra).
        assert (Rabs (srgb_decode (fval o) - Rmax 0 p) <= 25 / 1000000) by (apply Rabs_le; lra). lra.
    + pose proof (hlg_enc_max L q A N ltac:(lra)) as H. rewrite Rmax_right in H by lra.
      assert (Z : hlg_encode 0 = 0) by (unfold hlg_encode; destruct (Rle_dec _ _); [rewrite Rmult_0_r; apply sqrt_0|lra]). rewrite Z in H.
      pose proof (decode_near sp sl b TBT2100HLG _ 0 A TP ltac:(eapply approx_le; [exact H|unfold u7; lra]) ltac:(split; [lra|intros [F|F]; discriminate F])) as D.
      rewrite decoded_0 in D by exact TP. eapply approx_weaken; [exact D|]. cbn [decode_error].
      assert (Rabs (0 - Rmax 0 p) <= 25 / 1000000) by (apply Rabs_le; lra). lra.
Qed.

(** * C76 *)

(** RGB to ICtCp with a change of the transfer function or the primaries: the cone
    responses are those of the light of the pixels in the primaries of the
    destination, up to 1/9600 (HLG: 1/6500).
    Missing: the chroma of 4:2:0 (see C19); PQ on either side; gamma 2.2 and 2.8
    and BT.709's transfer function (C35 refutes that it restores the light) of
    the destination; colors outside of the gamut of the destination. *)
Theorem C76_other_rgb_to_ictcp_partial : forall sp sl b m src sps dst dps i,
  converts (libm_of sp sl) b m src sps dst dps -> bytes_ok m ->
  sampling_of (im_format src) = SRGB -> sampling_of (im_format dst) <> SRGB ->
  im_color dst = CYUV i -> is_bt2100 (yc_space i) ->
  same_light (im_color src) (im_color dst) = false ->
  let ts := ci_transfer (im_color src) in
  ts <> TBT2100PQ -> yc_transfer i = TLinear \/ yc_transfer i = TSRGB \/ yc_transfer i = TBT2100HLG ->
  let s c x y := level m (im_format src) sps c x y / 255 in
  let light x y := light_of ts (ci_primaries (im_color src)) (yc_primaries i) (s CR x y) (s CG x y) (s CB x y) in
  forall c x y, has_comp (im_format dst) c = true -> in_image dst x y ->
  (sampling_of (im_format dst) = S420 -> c = CY) ->
  let cb := column_backend b (im_width dst) x in
  platform_pow sp sl cb ->
  let block := (x, y) :: chroma_block (sampling_of (im_format dst)) x y in
  (forall p, In p block -> forall c, In c comps -> in_gamut (channel c (light (fst p) (snd p)))) ->
  exists l m' n,
    (forall p, In p block -> let x := fst p in let y := snd p in
      SpecIctcp.within3 (match yc_transfer i with TBT2100HLG => 1 / 6500 | _ => 1 / 9600 end) (l x y, m' x y, n x y)
        (cones (yc_primaries i) (Rmax 0 (channel CR (light x y))) (Rmax 0 (channel CG (light x y))) (Rmax 0 (channel CB (light x y)))) /\
      0 <= l x y /\ 0 <= m' x y /\ 0 <= n x y) /\
    let M := IZR (max_level (im_format dst)) in
    let E := M * ictcp_error (yc_space i) in
    let v := ictcp_level (yc_space i) (yc_full_range i) (im_format dst) l m' n c x y in
    let hi := IZR (top (im_format dst)) in
    exists z, stored (libm_of sp sl) b m src dst dps c x y = Some z /\ (0 <= z)%Z /\
      ((cb = AVX512 -> - (1 / 4) + E <= v <= hi + 1 / 4 - E) -> stored_for cb E (clamp hi v) z).
Proof.
  intros sp sl b m src sps dst dps i CVT B FS FD CI S SL ts TS TD s light c x y HC HI N420 cb PL block GM.
  pose proof (accurate_lane sp sl cb PL) as A. assert (VS : valid_image src sps) by apply CVT.
  pose proof (light_kind _ _ SL) as SK.
  set (w := fun x y => (Rmax 0 (channel CR (light x y)), Rmax 0 (channel CG (light x y)), Rmax 0 (channel CB (light x y)))).
  destruct (ictcp_sample sp sl b m src sps dst dps i (again_error (yc_transfer i)) w c x y CVT FD SK CI S
    ltac:(destruct TD as [-> |[-> | ->]]; cbn; lra) HC HI N420 A) as (l & mm & n & H & R).
  { intros p HP. fold cb. set (L := lane_of (libm_of sp sl) cb) in *.
    destruct (rgb_light L m src sps (fst p) (snd p) A VS B FS TS) as (D & W).
    pose proof (light_acc (ci_primaries (im_color src)) (yc_primaries i) _ _ _ D W ltac:(lra)) as F.
    pose proof (GM p HP CR ltac:(cbn; auto)) as G1. pose proof (GM p HP CG ltac:(cbn; auto)) as G2. pose proof (GM p HP CB ltac:(cbn; auto)) as G3.
    unfold in_gamut in G1, G2, G3.
    unfold recolored. rewrite SL.
    destruct (source_pixel L m (im_format src) (im_color src) sps (fst p) (snd p)) as (q, al). cbn [fst snd] in F |- *. unfold recolor, w.
    rewrite CI. cbn [ci_transfer ci_primaries]. fold ts in F |- *.
    unfold light, light_of, s in G1, G2, G3 |- *.
    destruct (from_xyz (yc_primaries i) (to_xyz (ci_primaries (im_color src)) (map3 (eotf L ts) q))) as ((q1, q2), q3).
    destruct (from_xyz (yc_primaries i) (to_xyz (ci_primaries (im_color src)) _)) as ((p1, p2), p3).
    destruct F as (F1 & F2 & F3). unfold channel, fst3, snd3, thd3 in *. cbn [fst snd map3] in *.
    split.
    - split; [|split]; apply light_restored; try assumption; (eapply approx_le; [eassumption|lra]).
    - repeat split; try apply Rmax_l; apply Rmax_lub; lra. }
  exists l, mm, n. split; [|exact R]. intros p HP x' y'. destruct (H p HP) as (W & PS). split; [|exact PS]. subst x' y'.
  change (cones (yc_primaries i) (Rmax 0 (channel CR (light (fst p) (snd p)))) (Rmax 0 (channel CG (light (fst p) (snd p)))) (Rmax 0 (channel CB (light (fst p) (snd p)))))
    with (cones (yc_primaries i) (fst3 (w (fst p) (snd p))) (snd3 (w (fst p) (snd p))) (thd3 (w (fst p) (snd p)))).
  destruct (cones _ _ _ _) as ((c1, c2), c3). destruct W as (W1 & W2 & W3).
  destruct TD as [TD|[TD|TD]]; rewrite TD in *; cbn [again_error] in *; (split; [|split]); lra.
Qed.
Print Assumptions C76_other_rgb_to_ictcp_partial.

(** In levels *)
Theorem C76_other_rgb_to_ictcp_levels_partial : forall sp sl b m src sps dst dps i,
  converts (libm_of sp sl) b m src sps dst dps -> bytes_ok m ->
  sampling_of (im_format src) = SRGB -> sampling_of (im_format dst) <> SRGB ->
  im_color dst = CYUV i -> is_bt2100 (yc_space i) ->
  same_light (im_color src) (im_color dst) = false ->
  let ts := ci_transfer (im_color src) in
  ts <> TBT2100PQ -> yc_transfer i = TLinear \/ yc_transfer i = TSRGB \/ yc_transfer i = TBT2100HLG ->
  let s c x y := level m (im_format src) sps c x y / 255 in
  let light x y := light_of ts (ci_primaries (im_color src)) (yc_primaries i) (s CR x y) (s CG x y) (s CB x y) in
  forall c x y, has_comp (im_format dst) c = true -> in_image dst x y ->
  (sampling_of (im_format dst) = S420 -> c = CY) ->
  let cb := column_backend b (im_width dst) x in
  platform_pow sp sl cb ->
  (forall p, In p ((x, y) :: chroma_block (sampling_of (im_format dst)) x y) -> forall c, In c comps -> in_gamut (channel c (light (fst p) (snd p)))) ->
  let response x y := cones (yc_primaries i) (Rmax 0 (channel CR (light x y))) (Rmax 0 (channel CG (light x y))) (Rmax 0 (channel CB (light x y))) in
  let E := IZR (max_level (im_format dst)) * wide_error (yc_space i) c in
  let v := ictcp_level (yc_space i) (yc_full_range i) (im_format dst)
    (fun x y => Rmax (fst3 (response x y)) 0) (fun x y => Rmax (snd3 (response x y)) 0) (fun x y => Rmax (thd3 (response x y)) 0) c x y in
  let hi := IZR (top (im_format dst)) in
  exists z, stored (libm_of sp sl) b m src dst dps c x y = Some z /\ (0 <= z)%Z /\
    ((cb = AVX512 -> - (1 / 4) + E <= v <= hi + 1 / 4 - E) -> stored_for cb E (clamp hi v) z).
Proof.
  intros sp sl b m src sps dst dps i CVT B FS FD CI S SL ts TS TD s light c x y HC HI N420 cb PL GM response E v hi.
  destruct (C76_other_rgb_to_ictcp_partial sp sl b m src sps dst dps i CVT B FS FD CI S SL TS TD c x y HC HI N420 PL GM) as (l & m' & n & H & R).
  cbv zeta in R. destruct R as (z & ST & Z0 & R). exists z. split; [exact ST|]. split; [exact Z0|].
  refine (ictcp_sample_levels (yc_space i) (yc_full_range i) (im_format dst) cb _ l m' n (fun x y => fst3 (response x y)) (fun x y => snd3 (response x y)) (fun x y => thd3 (response x y))
    c x y z S eq_refl _ R).
  intros p HP. destruct (H p HP) as (W & PS). split; [|exact PS]. cbv zeta in W.
  match type of W with context [cones ?a ?b ?c ?d] => change (cones a b c d) with (response (fst p) (snd p)) in W end.
  destruct (response (fst p) (snd p)) as ((r1, r2), r3). unfold fst3, snd3, thd3. cbn [fst snd]. destruct W as (W1 & W2 & W3).
  destruct TD as [TD|[TD|TD]]; rewrite TD in *; (split; [|split]); lra.
Qed.
Print Assumptions C76_other_rgb_to_ictcp_levels_partial.

(** * C61 *)

Theorem C61_other_rgb_to_ictcp : forall sp1 sl1 b1 sp2 sl2 b2 m src sps dst dps i,
  converts (libm_of sp1 sl1) b1 m src sps dst dps -> converts (libm_of sp2 sl2) b2 m src sps dst dps -> bytes_ok m ->
  sampling_of (im_format src) = SRGB -> sampling_of (im_format dst) <> SRGB ->
  im_color dst = CYUV i -> is_bt2100 (yc_space i) ->
  same_light (im_color src) (im_color dst) = false ->
  let ts := ci_transfer (im_color src) in
  ts <> TBT2100PQ -> yc_transfer i = TLinear \/ yc_transfer i = TSRGB \/ yc_transfer i = TBT2100HLG ->
  let s c x y := level m (im_format src) sps c x y / 255 in
  let light x y := light_of ts (ci_primaries (im_color src)) (yc_primaries i) (s CR x y) (s CG x y) (s CB x y) in
  forall c x y, has_comp (im_format dst) c = true -> in_image dst x y ->
  (sampling_of (im_format dst) = S420 -> c = CY) ->
  let cb1 := column_backend b1 (im_width dst) x in
  let cb2 := column_backend b2 (im_width dst) x in
  platform_pow sp1 sl1 cb1 -> platform_pow sp2 sl2 cb2 ->
  (forall p, In p ((x, y) :: chroma_block (sampling_of (im_format dst)) x y) -> forall c, In c comps -> in_gamut (channel c (light (fst p) (snd p)))) ->
  let response x y := cones (yc_primaries i) (Rmax 0 (channel CR (light x y))) (Rmax 0 (channel CG (light x y))) (Rmax 0 (channel CB (light x y))) in
  let E := IZR (max_level (im_format dst)) * wide_error (yc_space i) c in
  let v := ictcp_level (yc_space i) (yc_full_range i) (im_format dst)
    (fun x y => Rmax (fst3 (response x y)) 0) (fun x y => Rmax (snd3 (response x y)) 0) (fun x y => Rmax (thd3 (response x y)) 0) c x y in
  let hi := IZR (top (im_format dst)) in
  (cb1 = AVX512 \/ cb2 = AVX512 -> - (1 / 4) + E <= v <= hi + 1 / 4 - E) ->
  forall n, 1 / 2 + 2 * E < IZR n ->
  apart n (stored (libm_of sp1 sl1) b1 m src dst dps c x y) (stored (libm_of sp2 sl2) b2 m src dst dps c x y).
Proof.
  intros sp1 sl1 b1 sp2 sl2 b2 m src sps dst dps i C1 C2 B FS FD CI S SL ts TS TD s light c x y HC HI N420 cb1 cb2 P1 P2 GM response E v hi AV n N.
  destruct (C76_other_rgb_to_ictcp_levels_partial sp1 sl1 b1 m src sps dst dps i C1 B FS FD CI S SL TS TD c x y HC HI N420 P1 GM) as (z1 & S1 & _ & A1).
  destruct (C76_other_rgb_to_ictcp_levels_partial sp2 sl2 b2 m src sps dst dps i C2 B FS FD CI S SL TS TD c x y HC HI N420 P2 GM) as (z2 & S2 & _ & A2).
  exists z1, z2. split; [exact S1|split; [exact S2|]].
  specialize (A1 (fun e => AV (or_introl e))). specialize (A2 (fun e => AV (or_intror e))).
  assert (E0 : 0 <= E).
  { unfold E, wide_error. pose proof (max_level_R (im_format dst)). apply Rmult_le_pos; [lra|]. destruct S as [-> | ->]; destruct c; cbn; lra. }
  refine (stored_apart_by _ _ E _ _ 0 _ _ n E0 _ _ A1 A2); [apply Rabs_le; lra|lra].
Qed.
Print Assumptions C61_other_rgb_to_ictcp.

(** An sRGB picture as ICtCp in BT.2020 with HLG *)
Definition hlg_ictcp : image := ex_image I444 2 2 (CYUV (YuvCI TBT2100HLG PrBT2020 SpICtCpHLG true)) i444_planes.

Example C76_other_example : forall b, let lm := libm_of avx_pow avx_log in
  converts lm b ex_mem srgb_709 (ex_rgba_planes 0) hlg_ictcp i444_planes /\ bytes_ok ex_mem /\
  same_light (im_color srgb_709) (im_color hlg_ictcp) = false /\ (forall cb, platform_pow avx_pow avx_log cb) /\
  (forall x y, in_image srgb_709 x y -> forall c, In c comps ->
     let s c := level ex_mem (im_format srgb_709) (ex_rgba_planes 0) c x y / 255 in
     in_gamut (channel c (light_of TSRGB PrBT709 PrBT2020 (s CR) (s CG) (s CB)))) /\
  map (fun c => stored lm b ex_mem srgb_709 hlg_ictcp i444_planes c 1 1) [CY; CU; CV] = [Some 140; Some 132; Some 123]%Z.
Proof.
  intros b lm.
  assert (CVT : forall b, converts lm b ex_mem srgb_709 (ex_rgba_planes 0) hlg_ictcp i444_planes).
  { intros b'. unfold lm. apply runs; [| |apply i444_disjoint|discriminate|vm_compute; reflexivity];
      (split; [reflexivity|split; [repeat constructor; cbn; unfold usize; cbn; lia|reflexivity]]). }
  split; [apply CVT|]. split; [apply ex_mem_bytes|].
  split; [reflexivity|]. split; [intros cb _; split; [exact avx_pow_ok|split; [exact (log_contract avx_log avx_log_ok)|exact avx_pow_negative]]|].
  split.
  { intros x y (HX & HY) c HC s. cbn in HX, HY.
    assert (LV : forall c, In c comps -> 0 <= s c <= 1).
    { intros c' HC'. assert (VS : valid_image srgb_709 (ex_rgba_planes 0)) by apply (CVT b).
      unfold s. assert (exists z, level ex_mem RGBA (ex_rgba_planes 0) c' x y = IZR z /\ (0 <= z <= 255)%Z) as (z & EZ & BZ).
      { assert (X : (x = 0 \/ x = 1)%nat) by lia. assert (Y : (y = 0 \/ y = 1)%nat) by lia. cbn [In comps] in HC'.
        destruct HC' as [<- |[<- |[<- |[]]]]; destruct X as [-> | ->], Y as [-> | ->]; eexists; (split; [unfold level; match goal with |- context [component ?m ?f ?p ?c ?x ?y] => let v := eval vm_compute in (component m f p c x y) in change (component m f p c x y) with v end; reflexivity|lia]). }
      cbn [im_format srgb_709 ex_image]. rewrite EZ. destruct BZ as (Z1 & Z2). apply IZR_le in Z1, Z2. lra. }
    apply gamut_kept; try exact HC; [tauto|right; reflexivity| | |]; apply LV; cbn; auto. }
  cbn [map]. rewrite !(fun c => narrow_expected _ b ex_mem srgb_709 (ex_rgba_planes 0) hlg_ictcp i444_planes c 1 1 (CVT b)) by
    (first [reflexivity | split; cbn; lia]).
  vm_compute. reflexivity.
Qed.
