(** C85: RGB to RGB with another transfer function or other primaries, and back. *)

From Coq Require Import List ZArith Bool Arith Reals Lia Lra Psatz.
From Flocq Require Import Core.
From Verif Require Import Base Types Planes ImageM F32 Vector Simd SpecVector SimdProofs QuantProofs SpecGeom GeomProofs
  SpecColor SpecConvert SpecRun Formats Visit Convert VisitProofs ColorProofs ConvertProofs ExactProofs PropConvert PropFidelity
  SpecReal FloatProofs AccProofs TargetProofs PropColor ColorR SpecTransfer PowerProofs MathProofs SpecMath LaneProofs TransferProofs
  Math NegProofs RecolorProofs PropRecolor GamutProofs PropGamut PropBackends PropBackends2 SpecIctcp PropIctcp IctcpProofs WideProofs HlgProofs PropWide GrayProofs PropGray
  PropRound PropDrift PropOut PropDepth PropNeutral PropIctcpAcc PropIctcpDec PropIctcpRecolor PropCodes PropIctcpOther PropIctcpHlgRecolor PropIctcpApart.
From Verif Require PropTransfer PropExact.
Import ListNotations.
Local Open Scope R_scope.

(** * Specification *)

(** Rounding of an integer *)
Definition step (b : backend) : R := if rounds b then 1 / 2 else 1.

(** How steep the decoding of the picture in the middle is *)
Definition steep (t : color_transfer) : R := match t with TLinear => 1 | TBT2100HLG => 55 / 10 | _ => 282 / 100 end.

(** What is lost because the two formulas of a transfer function are not inverse
    (C35): the formulas of BT.709 are off by 1/1000 *)
Definition undone (t : color_transfer) : R := match t with TSDR => 1 / 1000 | _ => 1 / 1000000 end.

(** How far the primaries [pd] spread an error of the three channels in [ps]: largest
    sum of the absolute values of a row *)
Definition spread (ps pd : color_primaries) : R :=
  match ps, pd with
  | PrBT2020, PrBT2020 => 1
  | PrBT2020, _ => 256 / 100
  | PrBT709, PrST240M => 1132 / 1000
  | PrST240M, PrBT709 => 101 / 100
  | _, _ => 1
  end.

(** Error of the light after the way back *)
Definition loss (ps pm : color_primaries) (tm : color_transfer) (b : backend) : R :=
  spread pm ps * (steep tm * ((step b + 1 / 50) / 255) + undone tm + 75 / 1000000) + 7 / 100000.

(** * Proofs *)

Lemma hlg_white_low : 1 - 1 / 100000 <= hlg_encode 1.
Proof.
  assert (C : approx (f32_lit 1 0) 1 (1 / 10000000)) by const_approx.
  assert (O : approx (oetf avx_lane TBT2100HLG (f32_lit 1 0)) 1 (4 / 1000000)) by const_approx. destruct O as (_ & O). apply Rabs_le_inv in O.
  assert (V : fval (f32_lit 1 0) = 1) by (cbv; lra).
  destruct C as (N & _). destruct (hlg_enc_ok avx_lane _ avx_lane_ok N ltac:(lra)) as (_ & H). rewrite V in H. apply Rabs_le_inv in H. lra.
Qed.

Lemma encoded_unit : forall t x, t <> TBT2100PQ -> 0 <= x <= 1 -> 0 <= encoded t x <= 1 + 6 / 100000.
Proof.
  intros t x T X. destruct t; try congruence; try (apply encoded_top; [unfold restores; tauto|lra]); cbn [encoded].
  - pose proof (power_ge0 x (10 / 22)). pose proof (power_le_1 x (10 / 22) ltac:(lra) ltac:(lra)). lra.
  - pose proof (power_ge0 x (10 / 28)). pose proof (power_le_1 x (10 / 28) ltac:(lra) ltac:(lra)). lra.
  - unfold sdr_encode. destruct (Rlt_dec x _) as [C|C]; [lra|]. pose proof (power_le_1 x (9 / 20) ltac:(lra) ltac:(lra)).
    assert (W : 16 / 100 < power (18 / 1000) (9 / 20)) by (apply (power_above _ _ _ 9 20); simpl; lra).
    assert (Z : power (18 / 1000) (9 / 20) <= power x (9 / 20)) by (apply power_le; lra). lra.
Qed.

Lemma encoded_white : forall t, t <> TBT2100PQ -> 1 - 1 / 100000 <= encoded t 1.
Proof.
  intros t T. destruct t; try congruence; cbn [encoded]; try (rewrite ?power_1; lra); try exact hlg_white_low.
  - unfold srgb_encode. destruct (Rle_dec 1 _); [lra|]. rewrite power_1. lra.
  - unfold sdr_encode. destruct (Rlt_dec 1 _); [lra|]. rewrite power_1. lra.
Qed.

Lemma undone_ok : forall t x, t <> TBT2100PQ -> 0 <= x <= 1 -> Rabs (decoded t (encoded t x) - x) <= undone t.
Proof.
  intros t x T X. destruct t; try congruence; try (apply restored; [unfold restores; tauto|lra]); cbn [encoded decoded undone].
  - rewrite power_inv by lra. rewrite Rminus_diag_eq, Rabs_R0 by reflexivity. lra.
  - rewrite power_inv by lra. rewrite Rminus_diag_eq, Rabs_R0 by reflexivity. lra.
  - pose proof (encoded_unit TSDR x ltac:(discriminate) X) as E. cbn [encoded] in E.
    pose proof (PropTransfer.C35_sdr_close x X) as H. rewrite PropTransfer.encode_sdr in H by lra. rewrite PropTransfer.decode_sdr in H by lra. exact H.
Qed.

Lemma steep_ok : forall t a b, t <> TBT2100PQ -> 0 <= a <= 10001 / 10000 -> 0 <= b <= 10001 / 10000 ->
  Rabs (decoded t a - decoded t b) <= steep t * Rabs (a - b) + 12 / 1000000.
Proof.
  intros t a b T A B. pose proof (decoded_lip t a b T A B) as H. destruct t; try exact H. cbn [decoded steep]. lra.
Qed.

(** The light that the picture in the middle stands for *)
Lemma mid_light : forall cb t light v z, t <> TBT2100PQ -> in_gamut v -> Rabs (light - v) <= 1 / 20000 -> (0 <= z <= 255)%Z ->
  stored_for cb (255 * (6 / 1000000)) (clamp 255 (255 * encoded t (Rmax 0 light))) z ->
  Rabs (decoded t (IZR z / 255) - v) <= steep t * ((step cb + 1 / 50) / 255) + undone t + 75 / 1000000.
Proof.
  intros cb t light v z T G D Z S. unfold in_gamut in G. apply Rabs_le_inv in D.
  assert (ZR : 0 <= IZR z <= 255) by (split; apply IZR_le; lia).
  set (l := Rmin 1 (Rmax 0 light)).
  assert (LL : 0 <= l <= 1) by (unfold l, Rmin, Rmax; destruct (Rle_dec 0 light), (Rle_dec 1 _); lra).
  assert (LV : Rabs (l - v) <= 6 / 100000) by (unfold l, Rmin, Rmax; destruct (Rle_dec 0 light), (Rle_dec 1 _); apply Rabs_le; lra).
  pose proof (encoded_unit t l T LL) as EU.
  assert (C : Rabs (clamp 255 (255 * encoded t (Rmax 0 light)) - 255 * encoded t l) <= 255 * (7 / 100000)).
  { unfold l in *. clear l. pose proof (Rmax_l 0 light) as M. set (q := Rmax 0 light) in *. destruct (Rle_dec q 1) as [Q|Q].
    - rewrite Rmin_right in * by lra. unfold clamp. rewrite Rmax_right by (unfold Rmin; destruct (Rle_dec _ _); lra).
      unfold Rmin. destruct (Rle_dec _ _); apply Rabs_le; lra.
    - rewrite Rmin_left in * by lra. pose proof (encoded_white t T). pose proof (encoded_mono t 1 q T ltac:(lra)).
      unfold clamp. rewrite Rmax_right by (unfold Rmin; destruct (Rle_dec _ _); lra).
      unfold Rmin. destruct (Rle_dec _ _); apply Rabs_le; lra. }
  assert (R : Rabs (IZR z - clamp 255 (255 * encoded t (Rmax 0 light))) <= step cb + 255 * (6 / 1000000)).
  { unfold step. destruct cb; cbn [stored_for rounds] in *; unfold truncated, rounded in S; try (apply Rabs_le_inv in S); apply Rabs_le; lra. }
  apply Rabs_le_inv in C. apply Rabs_le_inv in R.
  assert (A : Rabs (IZR z / 255 - encoded t l) <= (step cb + 1 / 50) / 255) by (apply Rabs_le; lra).
  pose proof (steep_ok t (IZR z / 255) (encoded t l) T ltac:(lra) ltac:(lra)) as K.
  assert (K2 : steep t * Rabs (IZR z / 255 - encoded t l) <= steep t * ((step cb + 1 / 50) / 255)).
  { apply Rmult_le_compat_l; [destruct t; cbn [steep]; lra|exact A]. }
  pose proof (undone_ok t l T LL) as U. apply Rabs_le_inv in K. apply Rabs_le_inv in U. apply Rabs_le_inv in LV. apply Rabs_le. lra.
Qed.

(** The matrices there and back *)
Lemma spread_ok : forall ps pm r g b r1 g1 b1 d, 0 <= r <= 1 -> 0 <= g <= 1 -> 0 <= b <= 1 ->
  (let '(r0, g0, b0) := from_xyz pm (to_xyz ps (r, g, b)) in Rabs (r1 - r0) <= d /\ Rabs (g1 - g0) <= d /\ Rabs (b1 - b0) <= d) -> d <= 1 ->
  let '(r2, g2, b2) := from_xyz ps (to_xyz pm (r1, g1, b1)) in
  Rabs (r2 - r) <= spread pm ps * d + 2 / 100000 /\ Rabs (g2 - g) <= spread pm ps * d + 2 / 100000 /\ Rabs (b2 - b) <= spread pm ps * d + 2 / 100000.
Proof.
  intros ps pm r g b r1 g1 b1 d R G B H D1.
  revert H. destruct ps, pm; cbn [to_xyz from_xyz spread]; unfold dot; cbn [fadd fmul flit R_ops]; PropExact.lits;
    intros (H1 & H2 & H3); apply Rabs_le_inv in H1; apply Rabs_le_inv in H2; apply Rabs_le_inv in H3; repeat split; apply Rabs_le; lra.
Qed.

Lemma source_kept : forall t z, t = TLinear \/ t = TSRGB -> (0 <= z <= 255)%Z ->
  0 <= decoded t (IZR z / 255) <= 1 /\ encoded t (decoded t (IZR z / 255)) = IZR z / 255.
Proof.
  intros t z T Z. assert (ZR : 0 <= IZR z <= 255) by (split; apply IZR_le; lia). assert (U : 0 <= IZR z / 255 <= 1) by lra.
  destruct T as [-> | ->]; [cbn [encoded decoded]; lra|].
  assert (B : 0 <= decoded TSRGB (IZR z / 255) <= 1).
  { cbn [decoded]. unfold srgb_decode. destruct (Rle_dec _ _); [lra|]. split; [apply power_ge0|apply power_le_1; lra]. }
  split; [exact B|]. cbn [decoded encoded] in *.
  rewrite <- PropTransfer.encode_srgb by lra. rewrite <- PropTransfer.decode_srgb by lra.
  apply (PropTransfer.C35_srgb_inverse (IZR z / 255) ltac:(lra)).
  destruct (Z_le_gt_dec z 10) as [C|C]; [left; apply IZR_le in C; lra|right]. assert (H : (11 <= z)%Z) by lia. apply IZR_le in H. lra.
Qed.

(** * C85 *)

(** RGB, linear or sRGB, is converted to RGB with another transfer function (any but
    PQ) or other primaries, and back.  If the color is in the gamut of the picture
    in the middle, no channel changes by more than the rounding of the integer plus
    what the rounding of the picture in the middle makes of the light, magnified
    at most by the slope of the transfer function. *)
Theorem C85_there_and_back : forall sp1 sl1 b1 sp2 sl2 b2 m src sps mid mps dst dps,
  converts (libm_of sp1 sl1) b1 m src sps mid mps ->
  let m' := apply_all m (fst (convert (libm_of sp1 sl1) b1 m src mid)) in
  converts (libm_of sp2 sl2) b2 m' mid mps dst dps -> bytes_ok m ->
  sampling_of (im_format src) = SRGB -> sampling_of (im_format mid) = SRGB -> sampling_of (im_format dst) = SRGB ->
  let t := ci_transfer (im_color src) in let p := ci_primaries (im_color src) in
  let tm := ci_transfer (im_color mid) in let pm := ci_primaries (im_color mid) in
  ci_transfer (im_color dst) = t -> ci_primaries (im_color dst) = p ->
  same_light (im_color src) (im_color mid) = false ->
  t = TLinear \/ t = TSRGB -> tm <> TBT2100PQ ->
  forall x y, in_image dst x y ->
  let cb1 := column_backend b1 (im_width mid) x in let cb2 := column_backend b2 (im_width dst) x in
  platform_pow sp1 sl1 cb1 -> platform_pow sp2 sl2 cb2 ->
  let s c := level m (im_format src) sps c x y / 255 in
  (forall c, In c comps -> PropGamut.in_gamut (channel c (light_of t p pm (s CR) (s CG) (s CB)))) ->
  forall c z, In c comps -> given m src sps c x y = Some z ->
  exists z', stored (libm_of sp2 sl2) b2 m' mid dst dps c x y = Some z' /\
    Rabs (IZR z' - IZR z) <= step cb2 + 1 / 500 + 255 * magnified t (loss p pm tm cb1).
Proof.
  intros sp1 sl1 b1 sp2 sl2 b2 m src sps mid mps dst dps C1 m' C2 BM SS SM SD t p tm pm TD PD SL HT HTM x y HI cb1 cb2 P1 P2 s GM c z HC GZ.
  pose proof (converts_convertible _ _ _ _ _ _ _ C1) as T1. pose proof (converts_convertible _ _ _ _ _ _ _ C2) as T2.
  assert (HM : in_image mid x y) by (destruct HI; split; [rewrite (cv_width _ _ _ _ T2)|rewrite (cv_height _ _ _ _ T2)]; assumption).
  assert (TP : t <> TBT2100PQ) by (destruct HT as [-> | ->]; discriminate).
  assert (SL2 : same_light (im_color mid) (im_color dst) = false).
  { unfold same_light in *. rewrite TD, PD. rewrite <- SL. unfold t, p. f_equal; [destruct (ci_transfer (im_color mid)), (ci_transfer (im_color src)); reflexivity|
      destruct (ci_primaries (im_color mid)), (ci_primaries (im_color src)); reflexivity]. }
  assert (B' : bytes_ok m') by (exact (after_bytes (libm_of sp1 sl1) b1 m src sps mid mps T1 BM)).
  (* the source *)
  assert (SRC : forall c, In c comps -> exists z, given m src sps c x y = Some z /\ (0 <= z <= 255)%Z).
  { intros c' H'. assert (VS : valid_image src sps) by apply C1.
    assert (HH : has_comp (im_format src) c' = true) by (unfold has_comp; rewrite SS; cbn [In comps] in H'; intuition (subst; reflexivity)).
    destruct (given_some m src sps c' x y VS HH) as (z' & G'). exists z'. split; [exact G'|].
    assert (M : max_level (im_format src) = 255%Z) by (destruct (im_format src); try discriminate SS; reflexivity). rewrite <- M.
    refine (bytes_levels m src sps BM _ c' x y z' _ G'); [destruct (im_format src); try discriminate SS; reflexivity|].
    destruct HM. split; [rewrite (cv_width _ _ _ _ T1)|rewrite (cv_height _ _ _ _ T1)]; assumption. }
  assert (SB : forall c, In c comps -> 0 <= decoded t (s c) <= 1).
  { intros c' H'. destruct (SRC c' H') as (z' & G' & Z'). unfold s. rewrite (level_given _ _ _ _ _ _ _ G'). apply (source_kept t z' HT Z'). }
  (* the picture in the middle *)
  assert (A1 : forall c, In c comps -> exists z, stored (libm_of sp1 sl1) b1 m src mid mps c x y = Some z /\
    Rabs (decoded tm (IZR z / 255) - channel c (light_of t p pm (s CR) (s CG) (s CB))) <= steep tm * ((step cb1 + 1 / 50) / 255) + undone tm + 75 / 1000000).
  { intros c' H'. destruct (C55_recolor sp1 sl1 b1 m src sps mid mps C1 BM SS SM SL TP HTM c' x y H' HM P1) as (z' & light & ST & ZB & D & SF).
    exists z'. split; [exact ST|]. exact (mid_light cb1 tm light _ z' HTM (GM c' H') D ZB SF). }
  set (d := steep tm * ((step cb1 + 1 / 50) / 255) + undone tm + 75 / 1000000) in *.
  assert (D1 : d <= 1) by (unfold d, step; destruct tm, (rounds cb1); cbn [steep undone]; lra).
  destruct (A1 CR ltac:(cbn; auto)) as (zr & STR & AR). destruct (A1 CG ltac:(cbn; auto)) as (zg & STG & AG). destruct (A1 CB ltac:(cbn; auto)) as (zb & STB & AB).
  assert (LVL : forall c z, stored (libm_of sp1 sl1) b1 m src mid mps c x y = Some z -> level m' (im_format mid) mps c x y = IZR z).
  { intros c' z' E. apply (level_given m' mid). exact E. }
  pose proof (spread_ok p pm (decoded t (s CR)) (decoded t (s CG)) (decoded t (s CB)) (decoded tm (IZR zr / 255)) (decoded tm (IZR zg / 255)) (decoded tm (IZR zb / 255)) d
    (SB CR ltac:(cbn; auto)) (SB CG ltac:(cbn; auto)) (SB CB ltac:(cbn; auto))) as SPR.
  unfold light_of in AR, AG, AB. destruct (from_xyz pm (to_xyz p (decoded t (s CR), decoded t (s CG), decoded t (s CB)))) as ((r0, g0), b0).
  specialize (SPR (conj AR (conj AG AB)) D1).
  (* the way back *)
  destruct (C55_recolor sp2 sl2 b2 m' mid mps dst dps C2 B' SM SD SL2 HTM ltac:(rewrite TD; exact TP) c x y HC HI P2) as (z' & light & ST & ZB & D & SF).
  exists z'. split; [exact ST|]. rewrite (LVL _ _ STR), (LVL _ _ STG), (LVL _ _ STB), PD in D. fold tm pm in D. rewrite TD in SF. unfold light_of in D.
  assert (DL : Rabs (light - decoded t (s c)) <= loss p pm tm cb1).
  { unfold loss. fold d. destruct (from_xyz p (to_xyz pm (decoded tm (IZR zr / 255), decoded tm (IZR zg / 255), decoded tm (IZR zb / 255)))) as ((r2, g2), b2').
    destruct SPR as (S1 & S2 & S3). apply Rabs_le_inv in D. cbn [In comps] in HC.
    destruct HC as [<- |[<- |[<- |[]]]]; unfold channel, fst3, snd3, thd3 in D; cbn [fst snd] in D;
      [apply Rabs_le_inv in S1|apply Rabs_le_inv in S2|apply Rabs_le_inv in S3]; apply Rabs_le; lra. }
  destruct (SRC c HC) as (z0 & G0 & Z0). rewrite GZ in G0. injection G0 as <-.
  unfold s in DL. rewrite (level_given _ _ _ _ _ _ _ GZ) in DL. destruct (source_kept t z HT Z0) as (K1 & K2). set (v := decoded t (IZR z / 255)) in *.
  assert (GT : gentle t) by (unfold gentle; tauto).
  pose proof (encodings_apart t light v ((light + v) / 2) (loss p pm tm cb1 / 2) GT) as EA.
  apply Rabs_le_inv in DL. specialize (EA ltac:(apply Rabs_le; lra) ltac:(apply Rabs_le; lra)).
  replace (2 * (loss p pm tm cb1 / 2)) with (loss p pm tm cb1) in EA by field.
  rewrite (Rmax_right 0 v) in EA by lra. rewrite K2 in EA.
  assert (ZR : 0 <= IZR z <= 255) by (split; apply IZR_le; lia).
  assert (CZ : clamp 255 (255 * (IZR z / 255)) = IZR z).
  { unfold clamp. replace (255 * (IZR z / 255)) with (IZR z) by field. rewrite Rmin_right, Rmax_right by lra. reflexivity. }
  rewrite CZ in EA. apply Rabs_le_inv in EA. unfold step.
  fold cb2 in SF. destruct cb2; cbn [stored_for rounds] in *; unfold truncated, rounded in SF; try (apply Rabs_le_inv in SF); apply Rabs_le; lra.
Qed.
Print Assumptions C85_there_and_back.

(** To primaries whose gamut is at least as wide every color comes back *)
Theorem C85_wider_gamut : forall sp1 sl1 b1 sp2 sl2 b2 m src sps mid mps dst dps,
  converts (libm_of sp1 sl1) b1 m src sps mid mps ->
  let m' := apply_all m (fst (convert (libm_of sp1 sl1) b1 m src mid)) in
  converts (libm_of sp2 sl2) b2 m' mid mps dst dps -> bytes_ok m ->
  sampling_of (im_format src) = SRGB -> sampling_of (im_format mid) = SRGB -> sampling_of (im_format dst) = SRGB ->
  let t := ci_transfer (im_color src) in let p := ci_primaries (im_color src) in
  let tm := ci_transfer (im_color mid) in let pm := ci_primaries (im_color mid) in
  ci_transfer (im_color dst) = t -> ci_primaries (im_color dst) = p ->
  same_light (im_color src) (im_color mid) = false ->
  t = TLinear \/ t = TSRGB -> tm <> TBT2100PQ -> gamut_within p pm ->
  forall x y, in_image dst x y ->
  let cb1 := column_backend b1 (im_width mid) x in let cb2 := column_backend b2 (im_width dst) x in
  platform_pow sp1 sl1 cb1 -> platform_pow sp2 sl2 cb2 ->
  forall c z, In c comps -> given m src sps c x y = Some z ->
  exists z', stored (libm_of sp2 sl2) b2 m' mid dst dps c x y = Some z' /\
    Rabs (IZR z' - IZR z) <= step cb2 + 1 / 500 + 255 * magnified t (loss p pm tm cb1).
Proof.
  intros sp1 sl1 b1 sp2 sl2 b2 m src sps mid mps dst dps C1 m' C2 BM SS SM SD t p tm pm TD PD SL HT HTM GW x y HI cb1 cb2 P1 P2 c z HC GZ.
  pose proof (converts_convertible _ _ _ _ _ _ _ C2) as T2.
  assert (HM : in_image mid x y) by (destruct HI; split; [rewrite (cv_width _ _ _ _ T2)|rewrite (cv_height _ _ _ _ T2)]; assumption).
  assert (SB : forall c, In c comps -> 0 <= level m (im_format src) sps c x y / 255 <= 1).
  { intros c' H'. exact (source_unit _ _ _ _ _ _ _ C1 BM SS c' x y H' HM). }
  refine (C85_there_and_back sp1 sl1 b1 sp2 sl2 b2 m src sps mid mps dst dps C1 C2 BM SS SM SD TD PD SL HT HTM x y HI P1 P2 _ c z HC GZ).
  apply gamut_kept; [fold t; tauto|exact GW|apply SB; cbn; auto..].
Qed.
Print Assumptions C85_wider_gamut.

(** Linear RGB to linear RGB with a wider gamut and back: at most one level with
    back ends that round, three with those that truncate.  To sRGB with the same
    primaries: two and four. *)
Theorem C85_linear_levels : forall sp1 sl1 b1 sp2 sl2 b2 m src sps mid mps dst dps,
  converts (libm_of sp1 sl1) b1 m src sps mid mps ->
  let m' := apply_all m (fst (convert (libm_of sp1 sl1) b1 m src mid)) in
  converts (libm_of sp2 sl2) b2 m' mid mps dst dps -> bytes_ok m ->
  sampling_of (im_format src) = SRGB -> sampling_of (im_format mid) = SRGB -> sampling_of (im_format dst) = SRGB ->
  let p := ci_primaries (im_color src) in let tm := ci_transfer (im_color mid) in let pm := ci_primaries (im_color mid) in
  ci_transfer (im_color src) = TLinear -> ci_transfer (im_color dst) = TLinear -> ci_primaries (im_color dst) = p ->
  (tm = TLinear /\ p <> pm /\ gamut_within p pm) \/ (tm = TSRGB /\ p = pm) ->
  forall x y, in_image dst x y ->
  let cb1 := column_backend b1 (im_width mid) x in let cb2 := column_backend b2 (im_width dst) x in
  platform_pow sp1 sl1 cb1 -> platform_pow sp2 sl2 cb2 ->
  forall c z, In c comps -> given m src sps c x y = Some z ->
  exists z', stored (libm_of sp2 sl2) b2 m' mid dst dps c x y = Some z' /\
    (Z.abs (z' - z) <= match tm with TLinear => if rounds cb1 && rounds cb2 then 1 else 3 | _ => if rounds cb1 && rounds cb2 then 2 else 4 end)%Z.
Proof.
  intros sp1 sl1 b1 sp2 sl2 b2 m src sps mid mps dst dps C1 m' C2 BM SS SM SD p tm pm TS TD PD CASES x y HI cb1 cb2 P1 P2 c z HC GZ.
  assert (SL : same_light (im_color src) (im_color mid) = false).
  { unfold same_light. rewrite TS. fold tm p pm. destruct CASES as [(-> & N & _)|(-> & _)]; [|reflexivity]. cbn [color_transfer_eqb andb].
    destruct p, pm; try reflexivity; congruence. }
  assert (GW : gamut_within p pm) by (destruct CASES as [(_ & _ & G)|(_ & E)]; [exact G|left; exact E]).
  assert (HT : ci_transfer (im_color src) = TLinear \/ ci_transfer (im_color src) = TSRGB) by (left; exact TS).
  assert (HTM : tm <> TBT2100PQ) by (destruct CASES as [(-> & _)|(-> & _)]; discriminate).
  destruct (C85_wider_gamut sp1 sl1 b1 sp2 sl2 b2 m src sps mid mps dst dps C1 C2 BM SS SM SD ltac:(congruence) PD SL HT HTM GW x y HI P1 P2 c z HC GZ) as (z' & ST & D).
  exists z'. split; [exact ST|]. rewrite TS in D. cbn [magnified] in D. fold p tm pm cb1 cb2 in D. rewrite <- minus_IZR, <- abs_IZR in D.
  assert (B : IZR (Z.abs (z' - z)) < IZR (match tm with TLinear => if rounds cb1 && rounds cb2 then 1 else 3 | _ => if rounds cb1 && rounds cb2 then 2 else 4 end + 1)).
  { eapply Rle_lt_trans; [exact D|]. clear - CASES. unfold loss, step.
    assert (S : 1 <= spread pm p <= 256 / 100) by (destruct pm, p; cbn [spread]; lra).
    destruct CASES as [(-> & _)|(-> & ->)]; [|assert (S1 : spread pm pm = 1) by (destruct pm; reflexivity); rewrite S1];
      destruct (rounds cb1), (rounds cb2); cbn [steep undone andb Z.add Pos.add Pos.succ]; lra. }
  apply lt_IZR in B. lia.
Qed.
Print Assumptions C85_linear_levels.

(** A picture from BT.709 to BT.2020 and back, linear RGB *)
Definition back_src : image := ex_image RGBA 2 2 (CRGB TLinear PrBT709) (ex_rgba_planes 0).
Definition back_mid : image := ex_image RGBA 2 2 (CRGB TLinear PrBT2020) (ex_rgba_planes 1).
Definition back_dst : image := ex_image RGBA 2 2 (CRGB TLinear PrBT709) (ex_rgba_planes 2).

Example C85_example : forall b, let lm := libm_of avx_pow avx_log in
  let m' := apply_all ex_mem (fst (convert lm b ex_mem back_src back_mid)) in
  converts lm b ex_mem back_src (ex_rgba_planes 0) back_mid (ex_rgba_planes 1) /\ converts lm b m' back_mid (ex_rgba_planes 1) back_dst (ex_rgba_planes 2) /\
  bytes_ok ex_mem /\ gamut_within PrBT709 PrBT2020 /\ (forall cb, platform_pow avx_pow avx_log cb) /\
  map (fun c => given ex_mem back_src (ex_rgba_planes 0) c 1 1) comps = [Some 84; Some 91; Some 98]%Z /\
  map (fun c => stored lm b ex_mem back_src back_mid (ex_rgba_planes 1) c 1 1) comps = [Some 86; Some 90; Some 97]%Z /\
  map (fun c => stored lm b m' back_mid back_dst (ex_rgba_planes 2) c 1 1) comps = [Some 82; Some 90; Some 97]%Z.
Proof.
  intros b lm m'. split; [unfold lm; ex_converts b|]. split; [unfold lm, m'; ex_converts b|].
  split; [apply ex_mem_bytes|]. split; [right; reflexivity|].
  split; [intros cb _; split; [exact avx_pow_ok|split; [exact (log_contract avx_log avx_log_ok)|exact avx_pow_negative]]|].
  split; [reflexivity|].
  destruct b; vm_compute; repeat split; reflexivity.
Qed.

(** Colors outside of the gamut of the picture in the middle do not come back: the
    green of BT.2020 by way of BT.709 *)
Definition green_mem : mem := fun _ i => if (i mod 4 =? 1)%nat then 255%Z else 0%Z.
Definition green_src : image := ex_image RGBA 2 2 (CRGB TLinear PrBT2020) (ex_rgba_planes 0).
Definition green_mid : image := ex_image RGBA 2 2 (CRGB TLinear PrBT709) (ex_rgba_planes 1).
Definition green_dst : image := ex_image RGBA 2 2 (CRGB TLinear PrBT2020) (ex_rgba_planes 2).

Theorem C85_gamut_refuted : forall sp sl b, let lm := libm_of sp sl in
  let m' := apply_all green_mem (fst (convert lm b green_mem green_src green_mid)) in
  converts lm b green_mem green_src (ex_rgba_planes 0) green_mid (ex_rgba_planes 1) /\ converts lm b m' green_mid (ex_rgba_planes 1) green_dst (ex_rgba_planes 2) /\
  bytes_ok green_mem /\
  map (fun c => given green_mem green_src (ex_rgba_planes 0) c 1 1) comps = [Some 0; Some 255; Some 0]%Z /\
  map (fun c => stored lm b m' green_mid green_dst (ex_rgba_planes 2) c 1 1) comps = [Some 83; Some 234; Some 22]%Z.
Proof.
  intros sp sl b lm m'. split; [unfold lm; ex_converts b|]. split; [unfold lm, m'; ex_converts b|].
  split; [intros bb i; unfold green_mem; destruct (i mod 4 =? 1)%nat; lia|]. split; [reflexivity|].
  destruct b; vm_compute; reflexivity.
Qed.
Print Assumptions C85_gamut_refuted.
