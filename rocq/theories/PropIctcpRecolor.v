(** C77 for ICtCp images with the PQ curve, converted to RGB with another
    transfer function or other primaries. *)

From Coq Require Import List ZArith Bool Arith Reals Lia Lra Psatz.
From Coq Require Import Floats.SpecFloat.
From Flocq Require Import Core.
From Verif Require Import Base Types Planes ImageM F32 Vector Simd SpecVector SimdProofs QuantProofs SpecGeom GeomProofs
  SpecColor SpecConvert SpecRun Formats Visit Convert VisitProofs ColorProofs ConvertProofs ExactProofs PropConvert PropFidelity
  SpecReal FloatProofs AccProofs TargetProofs PropColor ColorR SpecTransfer PowerProofs MathProofs SpecMath LaneProofs PropTransfer TransferProofs
  Math NegProofs RecolorProofs PropRecolor GamutProofs PropGamut GrayProofs PropGray PropDrift PropBT2020 PropOut PropToPQ IctcpProofs
  WideProofs PropWide PqProofs PropFromPQ PqEncProofs PropPQ PropIctcpAcc PropIctcpDec PropIctcpPq PropIctcpPqDec PropIctcpGray.
From Verif Require SpecIctcp PropIctcp.
Import SpecIctcp (ictcp_pq).
Import PropIctcp (cones).
Import ListNotations.
Local Open Scope R_scope.

(** * The PQ curve: decoding codes that are 1/4000 apart *)

Lemma pq_ge0 : forall x, 0 <= pq_decode x.
Proof. intros x. rewrite pq_decode_eq. pose proof (power_ge0 (pq_inner (power x (1 / m2))) (1 / m1)). lra. Qed.

Lemma pq_steps : forall n a b, 0 <= a <= b -> b <= a + INR n * (19 / 1000000) -> b <= 1 + 1 / 20000 ->
  pq_decode a <= pq_decode b /\ 1 + pq_decode b <= (1 + 1 / 1000) ^ n * (1 + pq_decode a).
Proof.
  induction n; intros a b AB S B.
  - cbn in S. assert (a = b) by lra. subst b. cbn. lra.
  - rewrite S_INR in S. destruct (Rle_lt_dec b (a + INR n * (19 / 1000000))) as [C|C].
    + destruct (IHn a b AB C B) as (I1 & I2). split; [exact I1|]. eapply Rle_trans; [exact I2|]. apply Rmult_le_compat_r; [pose proof (pq_ge0 a); lra|].
      cbn. pose proof (pow_lt (1 + 1 / 1000) n ltac:(lra)). lra.
    + pose proof (pos_INR n) as P. destruct (IHn a (a + INR n * (19 / 1000000)) ltac:(lra) ltac:(lra) ltac:(lra)) as (I1 & I2).
      pose proof (pq_close (a + INR n * (19 / 1000000)) b ltac:(lra) ltac:(lra) ltac:(lra)) as K. cbn [pow]. split; [lra|]. nra.
Qed.

Lemma pq_apart : forall a b, 0 <= a <= b -> b <= a + 1 / 4000 -> b <= 1 + 1 / 20000 ->
  pq_decode a <= pq_decode b /\ 1 + pq_decode b <= 10141 / 10000 * (1 + pq_decode a).
Proof.
  intros a b AB S B. destruct (pq_steps 14 a b AB) as (I1 & I2); [cbn; lra|exact B|]. split; [exact I1|]. eapply Rle_trans; [exact I2|].
  apply Rmult_le_compat_r; [pose proof (pq_ge0 a); lra|]. cbn. lra.
Qed.

Lemma pq_one : 9990 <= pq_decode 1.
Proof.
  rewrite pq_decode_eq. rewrite power_1. unfold pq_inner. set (w := Rmax (1 - c1) 0 / (c2 - c3 * 1)).
  assert (W : 99999 / 100000 <= w <= 1) by (unfold w; rewrite Rmax_left by (unfold c1; lra); unfold c1, c2, c3; lra).
  assert (P : power w 7 <= power w (1 / m1)).
  { rewrite !power_pos by lra. unfold Rpower. apply exp_le. assert (ln w <= 0) by (rewrite <- ln_1; apply ln_le; lra). unfold m1. nra. }
  assert (Q : power (99999 / 100000) 7 <= power w 7) by (apply power_le; lra).
  replace 7 with (INR 7) in Q at 1 by (cbn; lra). rewrite power_whole in Q by lra. cbn in Q. lra.
Qed.

(** Light of up to 9800 cd/m2 has a code of less than 1 - 1/4000 *)
Lemma pq_below : forall v, 0 <= v <= 9800 -> pq_encode v <= 1 - 1 / 4000.
Proof.
  intros v V. destruct (pq_apart (1 - 1 / 4000) 1 ltac:(lra) ltac:(lra) ltac:(lra)) as (_ & H). pose proof pq_one as O1.
  pose proof (pq_black 0 ltac:(lra)) as B0.
  destruct (C35_pq_inverse (1 - 1 / 4000) ltac:(lra)) as (_ & I). rewrite decode_pq in I by lra. rewrite !encode_pq in I by (try apply pq_ge0; lra).
  rewrite <- I by lra. apply pq_mono. lra.
Qed.

Lemma pq_round : forall v, 0 <= v -> pq_decode (pq_encode v) = v.
Proof.
  intros v V. destruct (C35_pq_inverse v V) as (H & _). rewrite encode_pq in H by exact V. rewrite decode_pq in H by (unfold pq_encode; cbv zeta; apply power_ge0). exact H.
Qed.

(** Light that is encoded and decoded again by a back end *)
Lemma pq_again : forall L q, accurate L -> is_num q -> fval q <= 9800 ->
  approx (eotf L TBT2100PQ (oetf L TBT2100PQ q)) (Rmax (fval q) 0) (149 / 10000 * (1 + Rmax (fval q) 0)).
Proof.
  intros L q A N B. destruct (pq_enc_far L q A N ltac:(lra)) as ((NP & EP) & PB). set (v := Rmax (fval q) 0) in *.
  assert (V : 0 <= v <= 9800) by (split; [apply Rmax_r|apply Rmax_lub; lra]).
  pose proof (pq_below v V) as TOP. set (o := oetf L TBT2100PQ q) in *. apply Rabs_le_inv in EP.
  destruct (pq_dec_rel L o A NP ltac:(lra)) as (D & _).
  assert (NR : Rabs (pq_decode (fval o) - v) <= 141 / 10000 * (1 + v)).
  { rewrite <- (pq_round v) at 1 2 by lra. rewrite (pq_decode_max (fval o)). set (a := Rmax (fval o) 0). set (b := pq_encode v) in *.
    assert (AB : 0 <= a <= 1 /\ 0 <= b <= 1 /\ - (1 / 4000) <= a - b <= 1 / 4000).
    { unfold a, Rmax. destruct (Rle_dec (fval o) 0); repeat split; lra. }
    pose proof (pq_ge0 a). pose proof (pq_ge0 b). apply Rabs_le. destruct (Rle_lt_dec a b) as [C|C].
    - pose proof (pq_apart a b ltac:(lra) ltac:(lra) ltac:(lra)). lra.
    - pose proof (pq_apart b a ltac:(lra) ltac:(lra) ltac:(lra)). lra. }
  assert (DV : pq_decode (fval o) <= v + 141 / 10000 * (1 + v)) by (apply Rabs_le_inv in NR; lra).
  eapply approx_weaken; [exact D|]. lra.
Qed.

(** * The light of an ICtCp pixel in other primaries *)

(** Accuracy of the light that is stored, if no cone response and no channel is
    above [T] and the given light has the cone responses of the pixel up to [d] *)
Definition recolor_error (T d : R) : R := (8 + 11 * T) / 100 + 37 * d.

(** The light [red], [green], [blue] in other primaries.  Negative light is cut
    off first, because PQ has no codes for it. *)
Definition moved_light (ps pd : color_primaries) (red green blue : R) : R * R * R :=
  from_xyz pd (to_xyz ps (Rmax 0 red, Rmax 0 green, Rmax 0 blue)).

Lemma max_lip : forall a b e, Rabs (a - b) <= e -> Rabs (Rmax a 0 - Rmax 0 b) <= e.
Proof.
  intros a b e H. apply Rabs_le_inv in H. apply Rabs_le. unfold Rmax. destruct (Rle_dec a 0), (Rle_dec 0 b); lra.
Qed.

Lemma light_again : forall L ps pd v red green blue T d, accurate L -> 0 <= T <= 8000 -> 0 <= d <= 100 ->
  Rabs red <= T -> Rabs green <= T -> Rabs blue <= T ->
  approx3 v (red, green, blue) (14 * (11 / 10000 + 18 / 10000 * T) + 14 * d + 4 / 100000 * (1 + T)) ->
  approx3 (from_xyz pd (to_xyz ps (map3 (eotf L TBT2100PQ) (map3 (oetf L TBT2100PQ) v)))) (moved_light ps pd red green blue) (recolor_error T d - 1 / 1000) /\
  between3 (- (79 / 100) * T) (179 / 100 * T) (moved_light ps pd red green blue).
Proof.
  intros L ps pd ((q1, q2), q3) red green blue T d A HT D RR RG RB ((N1 & E1) & (N2 & E2) & (N3 & E3)).
  set (E := 14 * (11 / 10000 + 18 / 10000 * T) + 14 * d + 4 / 100000 * (1 + T)) in *.
  assert (EB : 0 <= E <= 155 / 10000 + 2525 / 100000 * T + 14 * d) by (unfold E; lra). clearbody E.
  pose proof (max_lip _ _ _ E1) as M1. pose proof (max_lip _ _ _ E2) as M2. pose proof (max_lip _ _ _ E3) as M3.
  apply Rabs_le_inv in RR. apply Rabs_le_inv in RG. apply Rabs_le_inv in RB. apply Rabs_le_inv in E1. apply Rabs_le_inv in E2. apply Rabs_le_inv in E3.
  pose proof (pq_again L q1 A N1 ltac:(lra)) as A1. pose proof (pq_again L q2 A N2 ltac:(lra)) as A2. pose proof (pq_again L q3 A N3 ltac:(lra)) as A3.
  set (P := T + E).
  assert (B : forall q c, is_num q -> - E <= fval q - c <= E -> - T <= c <= T -> 0 <= Rmax (fval q) 0 <= P)
    by (intros q c _ EQ BC; split; [apply Rmax_r|apply Rmax_lub; unfold P; lra]).
  pose proof (B q1 red N1 E1 RR) as B1. pose proof (B q2 green N2 E2 RG) as B2. pose proof (B q3 blue N3 E3 RB) as B3. clear B.
  assert (PT : 0 <= P <= 9700) by (unfold P; lra).
  pose proof (light_scaled (3 / 2 * (1 + P)) ps pd (map3 (eotf L TBT2100PQ) (map3 (oetf L TBT2100PQ) (q1, q2, q3))) (Rmax (fval q1) 0, Rmax (fval q2) 0, Rmax (fval q3) 0)
    (149 / 10000 * (1 + P)) ltac:(lra)
    ltac:(cbn [map3]; split; [|split]; (eapply approx_le; [eassumption|lra])) ltac:(split; [|split]; lra) ltac:(lra)) as F1.
  pose proof (light_lip ps pd (Rmax (fval q1) 0, Rmax (fval q2) 0, Rmax (fval q3) 0) (Rmax 0 red, Rmax 0 green, Rmax 0 blue) E
    ltac:(split; [exact M1|split; [exact M2|exact M3]])) as F2.
  assert (W : between3 0 T (Rmax 0 red, Rmax 0 green, Rmax 0 blue)) by (split; [|split]; (split; [apply Rmax_l|apply Rmax_lub; lra])).
  pose proof (linear_wide ps pd 0 T _ ltac:(lra) ltac:(lra) W) as F3.
  unfold moved_light, recolor_error. unfold P in F1.
  destruct (from_xyz pd (to_xyz ps (map3 (eotf L TBT2100PQ) (map3 (oetf L TBT2100PQ) (q1, q2, q3))))) as ((x1, x2), x3).
  destruct (from_xyz pd (to_xyz ps (Rmax (fval q1) 0, Rmax (fval q2) 0, Rmax (fval q3) 0))) as ((y1, y2), y3).
  destruct (from_xyz pd (to_xyz ps (Rmax 0 red, Rmax 0 green, Rmax 0 blue))) as ((z1, z2), z3).
  destruct F1 as (G1 & G2 & G3). destruct F2 as (K1 & K2 & K3). destruct F3 as (J1 & J2 & J3). clear - G1 G2 G3 K1 K2 K3 J1 J2 J3 HT D EB.
  split; [|split; [|split]; lra]. split; [|split]; (eapply approx_weaken; [eassumption|]); lra.
Qed.

(** * C77 *)

(** ICtCp with the PQ curve to RGB with another transfer function: if no encoded
    cone response of a pixel is above 1, what is stored is the encoding of the
    linear light with these cone responses, in the primaries of the destination,
    up to 11/100 of the brightest light [T] and 8/100 cd/m2.
    Missing: responses above 1; YUV destinations; linear destinations where the
    light reaches 128, as in C81; light above 8000 cd/m2. *)
Theorem C77_pq_to_other_rgb_partial : forall sp sl b m src sps dst dps i,
  converts (libm_of sp sl) b m src sps dst dps -> levels_ok m src sps ->
  sampling_of (im_format src) <> SRGB -> sampling_of (im_format dst) = SRGB ->
  im_color src = CYUV i -> yc_space i = SpICtCpPQ ->
  let td := ci_transfer (im_color dst) in
  ci_transfer (im_color src) = TBT2100PQ -> td <> TBT2100PQ ->
  forall c x y, In c comps -> in_image dst x y ->
  let cb := column_backend b (im_width dst) x in
  platform_pow sp sl cb ->
  forall l' m' n' red green blue T d, l' <= 1 -> m' <= 1 -> n' <= 1 ->
  ictcp_pq l' m' n' = (y_at m src sps i x y, u_at m src sps i x y, v_at m src sps i x y) ->
  T <= 8000 -> pq_decode l' <= T -> pq_decode m' <= T -> pq_decode n' <= T ->
  Rabs red <= T -> Rabs green <= T -> Rabs blue <= T -> 0 <= d <= 100 ->
  SpecIctcp.within3 d (pq_decode l', pq_decode m', pq_decode n') (cones (ci_primaries (im_color src)) red green blue) ->
  let exact := channel c (moved_light (ci_primaries (im_color src)) (ci_primaries (im_color dst)) red green blue) in
  (td = TLinear -> exact + recolor_error T d <= 128) -> recolor_error T d <= 2000 ->
  exists z light, stored (libm_of sp sl) b m src dst dps c x y = Some z /\ (0 <= z <= 255)%Z /\
    Rabs (light - exact) <= recolor_error T d /\
    stored_for cb (255 * (6 / 1000000)) (clamp 255 (255 * encoded td (Rmax 0 light))) z.
Proof.
  intros sp sl b m src sps dst dps i CVT LV FS FD CI S td TS TD c x y HC HI cb PL l' m' n' red green blue T d HL HM HN MX T1 TL TM TN GR GG GB D CN exact LI RE.
  pose proof (accurate_lane sp sl cb PL) as A. set (L := lane_of (libm_of sp sl) cb) in *.
  assert (VS : valid_image src sps) by apply CVT. pose proof (converts_convertible _ _ _ _ _ _ _ CVT) as CT.
  assert (SL : same_light (im_color src) (im_color dst) = false).
  { unfold same_light. rewrite TS. fold td. destruct td; try reflexivity. congruence. }
  pose proof (light_kind _ _ SL) as SK.
  assert (HD : has_comp (im_format dst) c = true) by (unfold has_comp; rewrite FD; cbn [In comps] in HC; intuition (subst; reflexivity)).
  assert (ICT : ictcp_chroma420 (im_format dst) (im_color dst) c = false) by (unfold ictcp_chroma420; rewrite FD; reflexivity).
  assert (HS : in_image src x y) by (unfold in_image in *; rewrite (cv_width _ _ _ _ CT), (cv_height _ _ _ _ CT); exact HI).
  destruct (source_light_pq L m src sps i x y A VS LV FS CI S TS HS l' m' n' red green blue T d HL HM HN MX ltac:(lra) TL TM TN GR GG GB D CN) as (T0 & v & EP & F3).
  rewrite (stored_expected _ _ _ _ _ _ _ CVT c x y HD HI ICT). fold cb. fold L.
  assert (PN : pow_negative (l_pow L)) by (apply lane_negative; intros E; apply PL, E).
  destruct (light_again L (ci_primaries (im_color src)) (ci_primaries (im_color dst)) v red green blue T d A ltac:(lra) D GR GG GB F3) as (F & FB).
  unfold expected_value. rewrite SK. unfold target. rewrite FD. unfold recolored. rewrite SL, EP, TS. cbn [fst snd]. unfold recolor. fold td.
  destruct (from_xyz (ci_primaries (im_color dst)) (to_xyz (ci_primaries (im_color src)) (map3 (eotf L TBT2100PQ) (map3 (oetf L TBT2100PQ) v)))) as ((q1, q2), q3).
  unfold exact in *. clear exact. destruct (moved_light (ci_primaries (im_color src)) (ci_primaries (im_color dst)) red green blue) as ((p1, p2), p3).
  assert (END : forall q w, approx q w (recolor_error T d - 1 / 1000) -> - (79 / 100) * T <= w <= 179 / 100 * T -> (td = TLinear -> w + recolor_error T d <= 128) ->
    exists z light, Some (quantise (quant_of cb) (im_format dst) (oetf L td q)) = Some z /\ (0 <= z <= 255)%Z /\
      Rabs (light - w) <= recolor_error T d /\ stored_for cb (255 * (6 / 1000000)) (clamp 255 (255 * encoded td (Rmax 0 light))) z).
  { intros q w (NQ & EQ) BW LW. apply Rabs_le_inv in EQ.
    destruct (store_far L cb (im_format dst) td q A PN TD FD NQ ltac:(lra)) as (X & EX & ST & ZB).
    { intros EL. specialize (LW EL). lra. }
    exists (quantise (quant_of cb) (im_format dst) (oetf L td q)), X. split; [reflexivity|]. split; [exact ZB|]. apply Rabs_le_inv in EX.
    split; [apply Rabs_le; lra|]. eapply stored_for_weaken; [exact ST|lra]. }
  destruct F as (Q1 & Q2 & Q3). destruct FB as (P1 & P2 & P3). cbn [map3 fst3 snd3 thd3].
  cbn [In comps] in HC. destruct HC as [<- |[<- |[<- |[]]]]; cbn [channel fst3 snd3 thd3 fst snd] in *; apply END; assumption.
Qed.
Print Assumptions C77_pq_to_other_rgb_partial.

(** ICtCp with the PQ curve to RGB in PQ with other primaries *)
Theorem C77_pq_to_other_gamut_partial : forall sp sl b m src sps dst dps i,
  converts (libm_of sp sl) b m src sps dst dps -> levels_ok m src sps ->
  sampling_of (im_format src) <> SRGB -> sampling_of (im_format dst) = SRGB ->
  im_color src = CYUV i -> yc_space i = SpICtCpPQ ->
  ci_transfer (im_color src) = TBT2100PQ -> ci_transfer (im_color dst) = TBT2100PQ ->
  ci_primaries (im_color src) <> ci_primaries (im_color dst) ->
  forall c x y, In c comps -> in_image dst x y ->
  let cb := column_backend b (im_width dst) x in
  platform_pow sp sl cb ->
  forall l' m' n' red green blue T d, l' <= 1 -> m' <= 1 -> n' <= 1 ->
  ictcp_pq l' m' n' = (y_at m src sps i x y, u_at m src sps i x y, v_at m src sps i x y) ->
  T <= 8000 -> pq_decode l' <= T -> pq_decode m' <= T -> pq_decode n' <= T ->
  Rabs red <= T -> Rabs green <= T -> Rabs blue <= T -> 0 <= d <= 100 ->
  SpecIctcp.within3 d (pq_decode l', pq_decode m', pq_decode n') (cones (ci_primaries (im_color src)) red green blue) ->
  let exact := channel c (moved_light (ci_primaries (im_color src)) (ci_primaries (im_color dst)) red green blue) in
  recolor_error T d <= 2000 ->
  exists z light, stored (libm_of sp sl) b m src dst dps c x y = Some z /\ (0 <= z <= 255)%Z /\
    Rabs (light - exact) <= recolor_error T d /\
    stored_for cb (1 / 15) (clamp 255 (255 * pq_code light)) z.
Proof.
  intros sp sl b m src sps dst dps i CVT LV FS FD CI S TS TD PD c x y HC HI cb PL l' m' n' red green blue T d HL HM HN MX T1 TL TM TN GR GG GB D CN exact RE.
  pose proof (accurate_lane sp sl cb PL) as A. set (L := lane_of (libm_of sp sl) cb) in *.
  assert (VS : valid_image src sps) by apply CVT. pose proof (converts_convertible _ _ _ _ _ _ _ CVT) as CT.
  assert (SL : same_light (im_color src) (im_color dst) = false).
  { unfold same_light. apply andb_false_iff. right. destruct (ci_primaries (im_color src)), (ci_primaries (im_color dst)); try reflexivity; congruence. }
  pose proof (light_kind _ _ SL) as SK.
  assert (HD : has_comp (im_format dst) c = true) by (unfold has_comp; rewrite FD; cbn [In comps] in HC; intuition (subst; reflexivity)).
  assert (ICT : ictcp_chroma420 (im_format dst) (im_color dst) c = false) by (unfold ictcp_chroma420; rewrite FD; reflexivity).
  assert (HS : in_image src x y) by (unfold in_image in *; rewrite (cv_width _ _ _ _ CT), (cv_height _ _ _ _ CT); exact HI).
  destruct (source_light_pq L m src sps i x y A VS LV FS CI S TS HS l' m' n' red green blue T d HL HM HN MX ltac:(lra) TL TM TN GR GG GB D CN) as (T0 & v & EP & F3).
  rewrite (stored_expected _ _ _ _ _ _ _ CVT c x y HD HI ICT). fold cb. fold L.
  destruct (light_again L (ci_primaries (im_color src)) (ci_primaries (im_color dst)) v red green blue T d A ltac:(lra) D GR GG GB F3) as (F & FB).
  unfold expected_value. rewrite SK. unfold target. rewrite FD. unfold recolored. rewrite SL, EP, TS, TD. cbn [fst snd]. unfold recolor.
  destruct (from_xyz (ci_primaries (im_color dst)) (to_xyz (ci_primaries (im_color src)) (map3 (eotf L TBT2100PQ) (map3 (oetf L TBT2100PQ) v)))) as ((q1, q2), q3).
  unfold exact in *. clear exact. destruct (moved_light (ci_primaries (im_color src)) (ci_primaries (im_color dst)) red green blue) as ((p1, p2), p3).
  assert (MF : max_level (im_format dst) = 255%Z) by (destruct (im_format dst); try discriminate FD; reflexivity).
  assert (TF : top (im_format dst) = 255%Z) by (destruct (im_format dst); try discriminate FD; reflexivity).
  assert (END : forall q w, approx q w (recolor_error T d - 1 / 1000) -> - (79 / 100) * T <= w <= 179 / 100 * T ->
    exists z light, Some (quantise (quant_of cb) (im_format dst) (oetf L TBT2100PQ q)) = Some z /\ (0 <= z <= 255)%Z /\
      Rabs (light - w) <= recolor_error T d /\ stored_for cb (1 / 15) (clamp 255 (255 * pq_code light)) z).
  { intros q w (NQ & EQ') V. clear - A NQ EQ' V T1 D FD MF TF T0 RE. pose proof EQ' as EQ''. apply Rabs_le_inv in EQ''.
    destruct (pq_enc_far L q A NQ ltac:(lra)) as ((NP & EP) & PB). fold (pq_code (fval q)) in EP, PB.
    set (o := oetf L TBT2100PQ q) in *.
    destruct (acc_store cb (im_format dst) o (fval o) 0 (exact_approx _ NP) ltac:(apply Rabs_le_inv in EP; apply Rabs_le; lra) ltac:(lra) ltac:(left; exact FD)) as (S1 & S0).
    rewrite MF, TF in S1. exists (quantise (quant_of cb) (im_format dst) o), (fval q). split; [reflexivity|].
    assert (DD : Rabs (255 * fval o - 255 * pq_code (fval q)) <= 255 / 4000).
    { replace (255 * fval o - 255 * pq_code (fval q)) with (255 * (fval o - pq_code (fval q))) by ring. rewrite Rabs_mult, (Rabs_pos_eq 255) by lra. lra. }
    pose proof (clamp_near 255 _ _ _ ltac:(lra) DD) as CN. apply Rabs_le_inv in CN.
    assert (CB : 0 <= clamp 255 (255 * fval o) <= 255) by (destruct (clamp_cases 255 (255 * fval o) ltac:(lra)) as [(? & ->)|[(? & ->)|(? & ->)]]; lra).
    split; [split; [exact S0|]|split; [eapply Rle_trans; [exact EQ'|lra]|]].
    - assert (H : IZR (quantise (quant_of cb) (im_format dst) o) < 256); [|apply lt_IZR in H; lia].
      unfold u7 in S1. destruct cb; cbn [stored_for] in S1; unfold truncated, rounded in S1; try (apply Rabs_le_inv in S1); lra.
    - unfold u7 in S1. destruct cb; cbn [stored_for] in *; unfold truncated, rounded in *; try lra; apply Rabs_le_inv in S1; apply Rabs_le; lra. }
  destruct F as (Q1 & Q2 & Q3). destruct FB as (P1 & P2 & P3). cbn [map3 fst3 snd3 thd3].
  cbn [In comps] in HC. destruct HC as [<- |[<- |[<- |[]]]]; cbn [channel fst3 snd3 thd3 fst snd] in *; apply END; assumption.
Qed.
Print Assumptions C77_pq_to_other_gamut_partial.

(** A gray of half a cd/m2 in ICtCp, converted to sRGB and to PQ with the
    primaries of BT.709 *)
Definition dusk_mem : mem := fun b i => if (i <? 4)%nat then 40%Z else 128%Z.
Definition srgb_709 : image := ex_image RGBA 2 2 (CRGB TSRGB PrBT709) (ex_rgba_planes 0).
Definition pq_709 : image := ex_image RGBA 2 2 (CRGB TBT2100PQ PrBT709) (ex_rgba_planes 0).

Lemma pq_dusk : 0 <= pq_decode (24 / 219) <= 1.
Proof.
  assert (X : approx (fdiv (f32_of_Z 28) (f32_of_Z 255)) (28 / 255) (1 / 10000000)) by const_approx. destruct X as (N & E). apply Rabs_le_inv in E.
  set (d := fdiv (f32_of_Z 28) (f32_of_Z 255)) in *.
  destruct (pq_dec_rel _ _ avx_lane_ok N ltac:(lra)) as ((_ & E1) & B1).
  assert (A1 : approx (eotf avx_lane TBT2100PQ d) (1 / 2) (1 / 4)) by const_approx. destruct A1 as (_ & A1).
  apply Rabs_le_inv in E1. apply Rabs_le_inv in A1.
  pose proof (pq_decode_mono (24 / 219) (fval d) ltac:(lra) ltac:(lra)) as MO.
  split; [apply pq_ge0|lra].
Qed.

Example C77_recolor_example : forall b,
  let l := 24 / 219 in
  let light := pq_decode l in
  converts (libm_of avx_pow avx_log) b dusk_mem gray_ictcp_pq i444_planes srgb_709 (ex_rgba_planes 0) /\
  converts (libm_of avx_pow avx_log) b dusk_mem gray_ictcp_pq i444_planes pq_709 (ex_rgba_planes 0) /\
  levels_ok dusk_mem gray_ictcp_pq i444_planes /\
  (forall cb, platform_pow avx_pow avx_log cb) /\
  ictcp_pq l l l = (y_at dusk_mem gray_ictcp_pq i444_planes gray_pq_ci 1 1, u_at dusk_mem gray_ictcp_pq i444_planes gray_pq_ci 1 1, v_at dusk_mem gray_ictcp_pq i444_planes gray_pq_ci 1 1) /\
  l <= 1 /\ 0 <= light <= 1 /\ recolor_error 1 (1 / 7000) <= 1 / 5 /\
  SpecIctcp.within3 (1 / 7000) (pq_decode l, pq_decode l, pq_decode l) (cones PrBT2020 light light light) /\
  map (fun c => stored (libm_of avx_pow avx_log) b dusk_mem gray_ictcp_pq srgb_709 (ex_rgba_planes 0) c 1 1) [CR; CG; CB] = [Some 172; Some 172; Some 172]%Z /\
  map (fun c => stored (libm_of avx_pow avx_log) b dusk_mem gray_ictcp_pq pq_709 (ex_rgba_planes 0) c 1 1) [CR; CG; CB] = [Some 27; Some 27; Some 27]%Z.
Proof.
  intros b l light.
  assert (CV1 : forall b, converts (libm_of avx_pow avx_log) b dusk_mem gray_ictcp_pq i444_planes srgb_709 (ex_rgba_planes 0)).
  { intros b'. apply runs; [| |apply single_disjoint|exact i444_strides|vm_compute; reflexivity];
      (split; [reflexivity|split; [repeat constructor; cbn; unfold usize; cbn; lia|reflexivity]]). }
  assert (CV2 : forall b, converts (libm_of avx_pow avx_log) b dusk_mem gray_ictcp_pq i444_planes pq_709 (ex_rgba_planes 0)).
  { intros b'. apply runs; [| |apply single_disjoint|exact i444_strides|vm_compute; reflexivity];
      (split; [reflexivity|split; [repeat constructor; cbn; unfold usize; cbn; lia|reflexivity]]). }
  split; [apply CV1|]. split; [apply CV2|]. split; [apply bytes_levels; [|reflexivity]; intros b' i; unfold dusk_mem; destruct (i <? 4)%nat; lia|].
  split; [intros cb _; split; [exact avx_pow_ok|split; [exact (log_contract avx_log avx_log_ok)|exact avx_pow_negative]]|].
  split.
  { unfold y_at, u_at, v_at, level_y, level_c, gray_pq_ci, yc_full_range, SpecIctcp.ictcp_pq.
    change (level dusk_mem (im_format gray_ictcp_pq) i444_planes CY 1 1) with 40.
    change (level dusk_mem (im_format gray_ictcp_pq) i444_planes CU 1 1) with 128.
    change (level dusk_mem (im_format gray_ictcp_pq) i444_planes CV 1 1) with 128.
    change (IZR (max_level (im_format gray_ictcp_pq))) with 255. unfold l. apply f_equal2; [apply f_equal2|]; lra. }
  split; [unfold l; lra|]. split; [apply pq_dusk|]. split; [unfold recolor_error; lra|].
  split.
  { pose proof pq_dusk as G. fold l in G. fold light in G |- *. clearbody light. unfold SpecIctcp.within3, cones. PropIctcp.run_matrix. repeat split; apply Rabs_le; lra. }
  split.
  - cbn [map]; rewrite !(fun c => narrow_expected _ b dusk_mem gray_ictcp_pq i444_planes srgb_709 (ex_rgba_planes 0) c 1 1 (CV1 b)) by
      (first [reflexivity | split; cbn; lia]).
    vm_compute. reflexivity.
  - cbn [map]; rewrite !(fun c => narrow_expected _ b dusk_mem gray_ictcp_pq i444_planes pq_709 (ex_rgba_planes 0) c 1 1 (CV2 b)) by
      (first [reflexivity | split; cbn; lia]).
    vm_compute. reflexivity.
Qed.
