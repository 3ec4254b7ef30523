(** C77 with a change of the transfer function or the primaries: what convert
    stores for RGB of another kind if the source is ICtCp with the HLG curve. *)

From Coq Require Import List ZArith Bool Arith Reals Lia Lra Psatz.
From Flocq Require Import Core.
From Verif Require Import Base Types Planes ImageM F32 Vector Simd SpecVector SimdProofs QuantProofs SpecGeom GeomProofs
  SpecColor SpecConvert SpecRun Formats Visit Convert VisitProofs ColorProofs ConvertProofs ExactProofs PropConvert PropFidelity
  SpecReal FloatProofs AccProofs TargetProofs PropColor ColorR SpecTransfer PowerProofs MathProofs SpecMath LaneProofs TransferProofs
  Math NegProofs RecolorProofs PropRecolor GamutProofs PropGamut PropBackends PropBackends2 SpecIctcp PropIctcp IctcpProofs WideProofs HlgProofs PropWide PropGray
  PropDrift PropOut PropIctcpAcc PropIctcpDec PropIctcpRecolor PropIctcpOther.
From Verif Require PropTransfer.
Import ListNotations.
Local Open Scope R_scope.

(** * Light that is encoded and decoded again *)

Lemma restored_wide : forall t x, restores t -> 0 <= x <= 1 + 3 / 1000 -> Rabs (decoded t (encoded t x) - x) <= 1 / 1000000 /\ 0 <= encoded t x <= 11 / 10.
Proof.
  intros t x T X. destruct (Rle_lt_dec x 1) as [C|C]; [split; [apply restored; [exact T|lra]|pose proof (encoded_top t x T ltac:(lra)); lra]|].
  destruct T as [-> |[-> | ->]]; cbn [encoded decoded].
  - rewrite Rminus_diag_eq, Rabs_R0 by reflexivity. lra.
  - rewrite <- PropTransfer.encode_srgb by lra.
    assert (E : 0 <= PropTransfer.encode TSRGB x <= 11 / 10).
    { rewrite PropTransfer.encode_srgb by lra. unfold srgb_encode. destruct (Rle_dec x _); [lra|].
      assert (U : power x (5 / 12) <= power (1 + 3 / 1000) (5 / 12)) by (apply power_le; lra).
      assert (V : power (1 + 3 / 1000) (5 / 12) < 1 + 3 / 1000) by (apply (power_below _ _ _ 5 12); simpl; lra).
      assert (W : power 1 (5 / 12) <= power x (5 / 12)) by (apply power_le; lra).
      assert (W1 : 9 / 10 < power 1 (5 / 12)) by (apply (power_above _ _ _ 5 12); simpl; lra). lra. }
    split; [|exact E]. rewrite <- PropTransfer.decode_srgb by lra.
    destruct (PropTransfer.C35_srgb_inverse x ltac:(lra)) as (I & _). rewrite I by lra. rewrite Rminus_diag_eq, Rabs_R0 by reflexivity. lra.
  - assert (E : 0 <= hlg_encode x <= 11 / 10).
    { assert (W : 0 <= hlg_encode 1 <= 1 + 6 / 100000) by (apply (encoded_top TBT2100HLG 1); [right; right; reflexivity|lra]).
      pose proof (hlg_relative 1 x (3 / 1000) ltac:(lra) ltac:(lra) ltac:(lra) ltac:(lra)).
      split; [unfold hlg_encode; destruct (Rle_dec _ _); [apply sqrt_pos|]; pose proof (hlg_high x ltac:(lra)); lra|lra]. }
    split; [|exact E]. rewrite <- PropTransfer.encode_hlg in E |- * by lra. rewrite <- PropTransfer.decode_hlg by lra. apply PropTransfer.C35_hlg_inverse. lra.
Qed.

Lemma restored_near : forall sp sl b t q p e, let L := lane_of (libm_of sp sl) b in
  accurate L -> restores t -> approx q p e -> 0 <= p <= 1 -> 0 <= e <= 2 / 1000 ->
  approx (eotf L t (oetf L t q)) p (e + 65 / 100000).
Proof.
  intros sp sl b t q p e L A T (N & E) P EB. pose proof E as E'. apply Rabs_le_inv in E'.
  assert (TP : t <> TBT2100PQ) by (destruct T as [-> |[-> | ->]]; discriminate).
  destruct (Rle_dec 0 (fval q)) as [Q|Q].
  - destruct (encode_num L t q A TP N ltac:(lra)) as (X & XB & XE & H). apply Rabs_le_inv in XE.
    destruct (restored_wide t X T ltac:(lra)) as (RX & ET). apply Rabs_le_inv in RX.
    assert (D : approx (eotf L t (oetf L t q)) (decoded t (encoded t X)) (63 / 100000)).
    { destruct T as [-> |[-> | ->]].
      - pose proof (decode_wide sp sl b TLinear (oetf L TLinear q) (encoded TLinear X) A ltac:(eapply approx_le; [exact H|unfold u7; lra]) ltac:(cbn [readable]; lra)) as D.
        eapply approx_le; [exact D|lra].
      - pose proof (decode_wide sp sl b TSRGB (oetf L TSRGB q) (encoded TSRGB X) A ltac:(eapply approx_le; [exact H|unfold u7; lra]) ltac:(cbn [readable]; destruct b; lra)) as D.
        eapply approx_le; [exact D|lra].
      - destruct (hlg_dec_far sp sl b (oetf L TBT2100HLG q) (encoded TBT2100HLG X) A ltac:(eapply approx_le; [exact H|lra]) ltac:(lra)) as (D & _).
        cbn [encoded decoded] in *. rewrite Rmax_right in D by lra. eapply approx_le; [exact D|lra]. }
    eapply approx_weaken; [exact D|]. assert (Rabs (decoded t (encoded t X) - p) <= e + 2 / 1000000) by (apply Rabs_le; lra). lra.
  - assert (M : p <= e) by lra.
    assert (HQ : approx q (fval q) 0) by (apply exact_approx, N).
    assert (AQ : Rabs (fval q) <= 2 / 1000) by (apply Rabs_le; lra).
    destruct T as [-> |[-> | ->]].
    + cbn [oetf eotf]. split; [exact N|eapply Rle_trans; [exact E|lra]].
    + assert (C : approx (f32_lit 1292 2) (1292 / 100) (5 / 10000000)) by const_approx.
      assert (CT : approx (f32_lit 31308 7) (31308 / 10000000) (1 / 1000000)) by const_approx. destruct CT as (NT & VT). apply Rabs_le_inv in VT.
      assert (OE : oetf L TSRGB q = f32_mul q (f32_lit 1292 2)).
      { run_f32. replace (l_le L q (f32_lit 31308 7)) with true by (symmetry; apply lane_small; [exact N|exact NT|lra]). reflexivity. }
      pose proof (approx_mul _ _ _ _ _ _ (2 / 1000) 13 (1 / 10) HQ C AQ ltac:(apply Rabs_le; lra) ltac:(lra) ltac:(lra)) as H. rewrite <- OE in H. clear OE.
      set (o := oetf L TSRGB q) in *. destruct H as (NO & EO). unfold half_ulp in EO. apply Rabs_le_inv in EO. apply Rabs_le_inv in AQ.
      destruct (Rlt_le_dec (fval o) 0) as [G|G].
      * assert (CD : approx (f32_lit 4045 5) (10858214 / 268435456) 0) by const_approx. apply const_val in CD. destruct CD as (VD & ND & _).
        run_f32. replace (l_le L o (f32_lit 4045 5)) with true by (symmetry; apply lane_small; [exact NO|exact ND|lra]).
        pose proof (approx_div2 _ _ _ _ _ _ 12 (1 / 100) (1 / 10) (exact_approx o NO) C ltac:(lra) ltac:(lra) ltac:(apply Rabs_le; lra) ltac:(lra) ltac:(lra)) as D.
        eapply approx_weaken; [exact D|]. unfold half_ulp.
        assert (Rabs (fval o / (1292 / 100) - p) <= e + 1 / 100000) by (apply Rabs_le; lra). lra.
      * pose proof (srgb_dec_ok L o A NO ltac:(lra)) as D. eapply approx_weaken; [exact D|].
        assert (S0 : 0 <= srgb_decode (fval o) <= 1 / 100000) by (unfold srgb_decode; destruct (Rle_dec _ _); lra).
        assert (Rabs (srgb_decode (fval o) - p) <= e + 1 / 100000) by (apply Rabs_le; lra). lra.
    + pose proof (hlg_enc_max L q A N ltac:(lra)) as H. rewrite Rmax_right in H by lra.
      assert (Z : hlg_encode 0 = 0) by (unfold hlg_encode; destruct (Rle_dec _ _); [rewrite Rmult_0_r; apply sqrt_0|lra]). rewrite Z in H.
      pose proof (decode_near sp sl b TBT2100HLG _ 0 A TP ltac:(eapply approx_le; [exact H|unfold u7; lra]) ltac:(split; [lra|intros [F|F]; discriminate F])) as D.
      rewrite decoded_0 in D by exact TP. eapply approx_weaken; [exact D|]. cbn [decode_error].
      assert (Rabs (0 - p) <= e) by (apply Rabs_le; lra). lra.
Qed.

(** [light_wide] for light that is known less exactly *)
Lemma light_rough : forall ps pd v w e, approx3 v w e -> between3 0 1 w ->
  0 <= e <= 1 / 10 -> approx3 (from_xyz pd (to_xyz ps v)) (from_xyz pd (to_xyz ps w)) (256 / 100 * e + 63 / 1000000).
Proof.
  intros ps pd ((a, b), c) ((x, y), z) e ((NA & HA) & (NB & HB) & (NC & HC)) (BX & BY & BZ) E.
  set (w' := (fval a, fval b, fval c)).
  assert (A0 : approx3 (a, b, c) w' 0) by (repeat split; try apply NA; try apply NB; try apply NC; rewrite Rminus_diag_eq, Rabs_R0 by reflexivity; lra).
  pose proof HA as HA'. pose proof HB as HB'. pose proof HC as HC'. apply Rabs_le_inv in HA'. apply Rabs_le_inv in HB'. apply Rabs_le_inv in HC'.
  destruct (to_xyz_wide ps (a, b, c) w' A0) as (X1 & X2); [cbn; (split; [|split]); apply Rabs_le; lra|].
  pose proof (from_xyz_wide pd _ _ _ X1 X2 ltac:(lra)) as F1.
  pose proof (light_lip ps pd w' (x, y, z) e ltac:(split; [exact HA|split; [exact HB|exact HC]])) as F2.
  destruct (from_xyz pd (to_xyz ps (a, b, c))) as ((q1, q2), q3). destruct (from_xyz pd (to_xyz ps w')) as ((p1, p2), p3).
  destruct (from_xyz pd (to_xyz ps (x, y, z))) as ((r1, r2), r3).
  destruct F1 as (G1 & G2 & G3). destruct F2 as (K1 & K2 & K3).
  split; [|split]; (eapply approx_weaken; [eassumption|]); lra.
Qed.

(** * What is read *)

Lemma source_light_hlg : forall L m src sps i x y, accurate L ->
  valid_image src sps -> levels_ok m src sps -> sampling_of (im_format src) <> SRGB ->
  im_color src = CYUV i -> yc_space i = SpICtCpHLG -> in_image src x y ->
  let t := ci_transfer (im_color src) in
  forall l' m' n' red green blue d, 0 <= l' <= 1 -> 0 <= m' <= 1 -> 0 <= n' <= 1 ->
  ictcp_hlg l' m' n' = (y_at m src sps i x y, u_at m src sps i x y, v_at m src sps i x y) ->
  nearly_shown red -> nearly_shown green -> nearly_shown blue -> 0 <= d <= 1 / 1000 ->
  SpecIctcp.within3 d (hlg_decode l', hlg_decode m', hlg_decode n') (cones (ci_primaries (im_color src)) red green blue) ->
  exists v, source_pixel L m (im_format src) (im_color src) sps x y = (map3 (oetf L t) v, fone) /\ approx3 v (red, green, blue) (6 / 10000 + 14 * d).
Proof.
  intros L m src sps i x y A VS LV FS CI S HS t l' m' n' cr cg cb' d HL HM HN MX GR GG GB D CN.
  assert (HCS : forall c, c = CY \/ c = CU \/ c = CV -> has_comp (im_format src) c = true)
    by (intros c' [-> |[-> | ->]]; unfold has_comp; destruct (sampling_of (im_format src)); congruence).
  destruct (norm_acc m src sps CY x y VS LV HS (HCS _ ltac:(auto))) as (AY & BY).
  destruct (norm_acc m src sps CU x y VS LV HS (HCS _ ltac:(auto))) as (AU & BU).
  destruct (norm_acc m src sps CV x y VS LV HS (HCS _ ltac:(auto))) as (AV & BV).
  assert (TE : yc_transfer i = t /\ yc_primaries i = ci_primaries (im_color src)) by (unfold t; rewrite CI; auto). destruct TE as (TE & PE).
  set (ps := ci_primaries (im_color src)) in *.
  unfold y_at, u_at, v_at in MX. rewrite (level_y_div _ (IZR (max_level (im_format src)))), !(level_c_div _ (IZR (max_level (im_format src)))) in MX.
  destruct (expand_near L i _ _ _ _ _ _ AY AU AV BY BU BV) as (a & bb & cc & EQ & QA & QB & QC).
  assert (BQ : forall v, 0 <= v <= 1 -> Rabs (level_c (yc_full_range i) 1 v) <= 6 / 10) by (intros v V; unfold level_c; destruct (yc_full_range i); apply Rabs_le; lra).
  pose proof (unmix_acc a bb cc _ _ _ l' m' n' QA QB QC (BQ _ BU) (BQ _ BV) HL HM HN MX) as U.
  set (lms := (a + bb * flit 1571858 8 + cc * flit 20958106 8, a + bb * flit (-1571858) 8 + cc * flit (-20958106) 8, a + bb * flit 10212711 7 + cc * flit (-6052745) 7)%F) in *.
  assert (H3 : approx3 (map3 (eotf L TBT2100HLG) lms) (hlg_decode l', hlg_decode m', hlg_decode n') (27 / 1000000)).
  { destruct lms as [[x1 x2] x3]. destruct U as (U1 & U2 & U3). cbn [map3 approx3]. split; [|split]; apply hlg_cone; assumption. }
  destruct (back ps cr cg cb' _ _ _ d GR GG GB D CN) as (W1 & W2 & W3).
  pose proof (from_lms_acc _ _ _ H3 W1 ltac:(lra)) as X3.
  pose proof (from_xyz_acc ps _ _ _ X3 W2 ltac:(lra)) as F3.
  exists (from_xyz ps (from_lms (map3 (eotf L TBT2100HLG) lms))). split.
  - unfold source_pixel. rewrite CI. assert (EX : decode_yuv L i (norm m (im_format src) sps CY x y) (norm m (im_format src) sps CU x y) (norm m (im_format src) sps CV x y)
        = map3 (oetf L t) (from_xyz ps (from_lms (map3 (eotf L TBT2100HLG) lms)))) by (rewrite EQ, S, TE, PE; reflexivity).
    rewrite EX. destruct (sampling_of (im_format src)); congruence.
  - destruct (from_xyz ps (from_lms (map3 (eotf L TBT2100HLG) lms))) as ((q1, q2), q3).
    destruct (from_xyz ps (from_lms (hlg_decode l', hlg_decode m', hlg_decode n'))) as ((p1, p2), p3).
    destruct F3 as (Q1 & Q2 & Q3). destruct W3 as (P1 & P2 & P3).
    split; [|split]; (eapply approx_weaken; [eassumption|]); lra.
Qed.

(** * C77 *)

(** ICtCp with the HLG curve to RGB with another transfer function or other
    primaries: if the pixel encodes light of the gamut of the source, what is
    stored is the encoding of this light in the primaries of the destination, up
    to 1/300 of the reference white and the rounding of the integer.  Light
    outside of the gamut of the destination is clipped.
    Missing: sources whose transfer function is SDR, a pure power or PQ; PQ
    destinations; light outside of the gamut of the source; YUV destinations. *)
Theorem C77_hlg_to_other_rgb_partial : forall sp sl b m src sps dst dps i,
  converts (libm_of sp sl) b m src sps dst dps -> levels_ok m src sps ->
  sampling_of (im_format src) <> SRGB -> sampling_of (im_format dst) = SRGB ->
  im_color src = CYUV i -> yc_space i = SpICtCpHLG ->
  same_light (im_color src) (im_color dst) = false ->
  let td := ci_transfer (im_color dst) in
  restores (ci_transfer (im_color src)) -> td <> TBT2100PQ ->
  forall c x y, In c comps -> in_image dst x y ->
  let cb := column_backend b (im_width dst) x in
  platform_pow sp sl cb ->
  forall l' m' n' red green blue d, 0 <= l' <= 1 -> 0 <= m' <= 1 -> 0 <= n' <= 1 ->
  ictcp_hlg l' m' n' = (y_at m src sps i x y, u_at m src sps i x y, v_at m src sps i x y) ->
  0 <= red <= 1 -> 0 <= green <= 1 -> 0 <= blue <= 1 -> 0 <= d <= 1 / 10000 ->
  SpecIctcp.within3 d (hlg_decode l', hlg_decode m', hlg_decode n') (cones (ci_primaries (im_color src)) red green blue) ->
  let exact := channel c (from_xyz (ci_primaries (im_color dst)) (to_xyz (ci_primaries (im_color src)) (red, green, blue))) in
  exists z light, stored (libm_of sp sl) b m src dst dps c x y = Some z /\ (0 <= z <= 255)%Z /\
    Rabs (light - exact) <= 1 / 300 + 36 * d /\
    stored_for cb (255 * (6 / 1000000)) (clamp 255 (255 * encoded td (Rmax 0 light))) z.
Proof.
  intros sp sl b m src sps dst dps i CVT LV FS FD CI S SL td TS TD c x y HC HI cb PL l' m' n' red green blue d HL HM HN MX GR GG GB D CN exact.
  pose proof (accurate_lane sp sl cb PL) as A.
  assert (VS : valid_image src sps) by apply CVT. pose proof (converts_convertible _ _ _ _ _ _ _ CVT) as CT.
  pose proof (light_kind _ _ SL) as SK.
  assert (HD : has_comp (im_format dst) c = true) by (unfold has_comp; rewrite FD; cbn [In comps] in HC; intuition (subst; reflexivity)).
  assert (ICT : ictcp_chroma420 (im_format dst) (im_color dst) c = false) by (unfold ictcp_chroma420; rewrite FD; reflexivity).
  assert (HS : in_image src x y) by (unfold in_image in *; rewrite (cv_width _ _ _ _ CT), (cv_height _ _ _ _ CT); exact HI).
  assert (PN : pow_negative (l_pow (lane_of (libm_of sp sl) cb))) by (apply lane_negative; intros E; apply PL, E).
  destruct (source_light_hlg _ m src sps i x y A VS LV FS CI S HS l' m' n' red green blue d HL HM HN MX
    ltac:(unfold nearly_shown; lra) ltac:(unfold nearly_shown; lra) ltac:(unfold nearly_shown; lra) ltac:(lra) CN) as (((q1, q2), q3) & EP & (F1 & F2 & F3)).
  rewrite (stored_expected _ _ _ _ _ _ _ CVT c x y HD HI ICT). fold cb.
  set (ts := ci_transfer (im_color src)) in *. set (ps := ci_primaries (im_color src)) in *. set (pd := ci_primaries (im_color dst)) in *.
  pose proof (restored_near sp sl cb ts q1 red _ A TS F1 GR ltac:(lra)) as R1.
  pose proof (restored_near sp sl cb ts q2 green _ A TS F2 GG ltac:(lra)) as R2.
  pose proof (restored_near sp sl cb ts q3 blue _ A TS F3 GB ltac:(lra)) as R3.
  set (L := lane_of (libm_of sp sl) cb) in *.
  pose proof (light_rough ps pd (map3 (eotf L ts) (map3 (oetf L ts) (q1, q2, q3))) (red, green, blue) _
    ltac:(split; [exact R1|split; [exact R2|exact R3]]) ltac:(split; [exact GR|split; [exact GG|exact GB]]) ltac:(lra)) as F.
  pose proof (linear_wide ps pd 0 1 (red, green, blue) ltac:(lra) ltac:(lra) ltac:(split; [exact GR|split; [exact GG|exact GB]])) as FB.
  unfold expected_value. rewrite SK. unfold target. rewrite FD. unfold recolored. rewrite SL, EP. cbn [fst snd]. unfold recolor. fold td ts ps pd.
  destruct (from_xyz pd (to_xyz ps (map3 (eotf L ts) (map3 (oetf L ts) (q1, q2, q3))))) as ((x1, x2), x3).
  unfold exact. clear exact. destruct (from_xyz pd (to_xyz ps (red, green, blue))) as ((p1, p2), p3).
  assert (END : forall q w, approx q w (256 / 100 * (6 / 10000 + 14 * d + 65 / 100000) + 63 / 1000000) -> 179 / 100 * 0 - 79 / 100 * 1 <= w <= 179 / 100 * 1 - 79 / 100 * 0 ->
    exists z light, Some (quantise (quant_of cb) (im_format dst) (oetf L td q)) = Some z /\ (0 <= z <= 255)%Z /\
      Rabs (light - w) <= 1 / 300 + 36 * d /\ stored_for cb (255 * (6 / 1000000)) (clamp 255 (255 * encoded td (Rmax 0 light))) z).
  { intros q w (NQ & EQ) BW. apply Rabs_le_inv in EQ.
    destruct (encode_store L cb (im_format dst) td q A PN TD FD NQ ltac:(apply Rabs_le; lra)) as (X & EX & ST & ZB).
    exists (quantise (quant_of cb) (im_format dst) (oetf L td q)), X. split; [reflexivity|]. split; [exact ZB|]. apply Rabs_le_inv in EX.
    split; [apply Rabs_le; lra|]. eapply stored_for_weaken; [exact ST|lra]. }
  destruct F as (Q1 & Q2 & Q3). destruct FB as (P1 & P2 & P3). cbn [map3 fst3 snd3 thd3].
  cbn [In comps] in HC. destruct HC as [<- |[<- |[<- |[]]]]; cbn [channel fst3 snd3 thd3 fst snd] in *; apply END; assumption.
Qed.
Print Assumptions C77_hlg_to_other_rgb_partial.

(** The dark gray of [C77_example], converted to the primaries of BT.709 *)
Example C77_hlg_recolor_example : forall b,
  let l := 84 / 219 in
  let light := l * l / 3 in
  converts (libm_of avx_pow avx_log) b gray_mem gray_ictcp i444_planes srgb_709 (ex_rgba_planes 0) /\ levels_ok gray_mem gray_ictcp i444_planes /\
  same_light (im_color gray_ictcp) (im_color srgb_709) = false /\ restores (ci_transfer (im_color gray_ictcp)) /\
  (forall cb, platform_pow avx_pow avx_log cb) /\
  ictcp_hlg l l l = (y_at gray_mem gray_ictcp i444_planes gray_ci 1 1, u_at gray_mem gray_ictcp i444_planes gray_ci 1 1, v_at gray_mem gray_ictcp i444_planes gray_ci 1 1) /\
  0 <= l <= 1 /\ 0 <= light <= 1 /\
  SpecIctcp.within3 (1 / 200000) (hlg_decode l, hlg_decode l, hlg_decode l) (cones PrBT2020 light light light) /\
  map (fun c => stored (libm_of avx_pow avx_log) b gray_mem gray_ictcp srgb_709 (ex_rgba_planes 0) c 1 1) [CR; CG; CB] = [Some 62; Some 62; Some 62]%Z.
Proof.
  intros b l light.
  assert (CVT : forall b, converts (libm_of avx_pow avx_log) b gray_mem gray_ictcp i444_planes srgb_709 (ex_rgba_planes 0)).
  { intros b'. apply runs; [| |apply single_disjoint|exact i444_strides|vm_compute; reflexivity];
      (split; [reflexivity|split; [repeat constructor; cbn; unfold usize; cbn; lia|reflexivity]]). }
  destruct (C77_example b) as (_ & LV & _ & PL & MX & HL & _ & CN & _). fold l in MX, HL, CN. fold light in CN.
  split; [apply CVT|]. split; [exact LV|]. split; [reflexivity|]. split; [right; left; reflexivity|].
  split; [exact PL|]. split; [exact MX|]. split; [exact HL|]. split; [unfold light, l; lra|]. split; [exact CN|].
  cbn [map]; rewrite !(fun c => narrow_expected _ b gray_mem gray_ictcp i444_planes srgb_709 (ex_rgba_planes 0) c 1 1 (CVT b)) by
    (first [reflexivity | split; cbn; lia]).
  vm_compute. reflexivity.
Qed.
