(** C66: gray stays gray when it is converted to or from the PQ curve. *)

From Coq Require Import List ZArith Bool Arith Reals Lia Lra Psatz.
From Coq Require Import Floats.SpecFloat.
From Flocq Require Import Core.
From Verif Require Import Base Types Planes ImageM F32 Vector Simd SpecVector SimdProofs QuantProofs SpecGeom GeomProofs
  SpecColor SpecConvert SpecRun Formats Visit Convert VisitProofs ColorProofs ConvertProofs ExactProofs PropConvert PropFidelity
  SpecReal FloatProofs AccProofs TargetProofs PropColor ColorR SpecTransfer PowerProofs MathProofs SpecMath LaneProofs TransferProofs
  Math NegProofs RecolorProofs PropRecolor GamutProofs PropGamut GrayProofs PropGray PropDrift PropBT2020 PropOut PropToPQ IctcpProofs
  WideProofs PropWide PqProofs PropFromPQ PqEncProofs PropPQ HlgProofs PropNeutral PropIctcpAcc PropIctcpDec PropIctcpPq PropIctcpPqDec PropIctcpGray
  PropGrayIctcp.
From Verif Require PropTransfer.
Import ListNotations.
Local Open Scope R_scope.

(** * The light of a gray pixel in the primaries of the destination *)

Lemma gray_any : forall L t z, accurate L -> (0 <= z <= 255)%Z ->
  is_num (gray_value L t z) /\ Rabs (fval (gray_value L t z)) <= 10010.
Proof. intros L t z A Z. exact (gray_light_bound L SpICtCpPQ t z A Z (or_introl eq_refl)). Qed.

Lemma gray_component : forall ps pd d c, is_num d -> Rabs (fval d) <= 10010 -> In c [CR; CG; CB] ->
  approx (component_of c (from_xyz pd (to_xyz ps (d, d, d)))) (fval d) (11 / 1000000 * Rabs (fval d) + 1 / 1000000000000).
Proof.
  intros ps pd d c N B HC. pose proof (gray_acc ps pd d N B) as GA.
  destruct (from_xyz pd (to_xyz ps (d, d, d))) as ((q1, q2), q3). destruct GA as (G1 & G2 & G3). cbn [In] in HC.
  destruct HC as [<- |[<- |[<- |[]]]]; assumption.
Qed.

(** Codes of two lights that are about the same *)
Lemma pq_alike : forall d x1 x2, Rabs d <= 10010 ->
  Rabs (x1 - d) <= 11 / 1000000 * Rabs d + 1 / 1000000000000 -> Rabs (x2 - d) <= 11 / 1000000 * Rabs d + 1 / 1000000000000 ->
  Rabs (pq_encode (Rmax x1 0) - pq_encode (Rmax x2 0)) <= 2 / 10000.
Proof.
  assert (H : forall d x1 x2, Rabs d <= 10010 ->
    Rabs (x1 - d) <= 11 / 1000000 * Rabs d + 1 / 1000000000000 -> Rabs (x2 - d) <= 11 / 1000000 * Rabs d + 1 / 1000000000000 ->
    x1 <= x2 -> Rabs (pq_encode (Rmax x1 0) - pq_encode (Rmax x2 0)) <= 2 / 10000).
  { intros d x1 x2 D E1 E2 O. apply Rabs_le_inv in E1. apply Rabs_le_inv in E2.
    assert (AD : (0 <= d /\ Rabs d = d) \/ (d < 0 /\ Rabs d = - d)) by (unfold Rabs; destruct (Rcase_abs d); [right|left]; split; lra).
    pose proof (pq_near (23 / 1000000) (Rmax x1 0) (Rmax x2 0) ltac:(lra)) as P.
    assert (M : 0 <= Rmax x1 0 <= Rmax x2 0) by (split; [apply Rmax_r|apply Rle_max_compat_r, O]).
    assert (U : Rmax x2 0 <= 18000) by (apply Rmax_lub; destruct AD as [(? & AD)|(? & AD)]; rewrite AD in *; lra).
    assert (S : Rmax x2 0 - Rmax x1 0 <= 23 / 1000000 * Rmax x1 0 + 3 / 1000000000000).
    { unfold Rmax. destruct AD as [(? & AD)|(? & AD)]; rewrite AD in *; destruct (Rle_dec x1 0), (Rle_dec x2 0); lra. }
    specialize (P M U S). apply Rabs_le. lra. }
  intros d x1 x2 D E1 E2. destruct (Rle_dec x1 x2) as [O|O]; [apply (H d); assumption|]. rewrite Rabs_minus_sym. apply (H d); try assumption. lra.
Qed.

Lemma store_pq : forall L cb f q, accurate L -> sampling_of f = SRGB -> is_num q -> fval q <= 18000 ->
  stored_for cb (3 / 40) (clamp 255 (255 * pq_encode (Rmax (fval q) 0))) (quantise (quant_of cb) f (oetf L TBT2100PQ q)) /\
  (0 <= quantise (quant_of cb) f (oetf L TBT2100PQ q) <= 255)%Z.
Proof.
  intros L cb f q A S N B. destruct (pq_enc_far L q A N B) as ((NV & EV) & PB). apply Rabs_le_inv in EV.
  destruct (store_exact cb f _ S NV ltac:(apply Rabs_le; lra)) as (ST & Z0). set (v := oetf L TBT2100PQ q) in *. set (z := quantise _ _ _) in *.
  assert (CN : Rabs (clamp 255 (255 * fval v) - clamp 255 (255 * pq_encode (Rmax (fval q) 0))) <= 255 / 4000) by (apply clamp_near; [lra|apply Rabs_le; lra]).
  assert (CB : clamp 255 (255 * fval v) <= 255) by (unfold clamp; apply Rmin_l || (destruct (clamp_cases 255 (255 * fval v) ltac:(lra)) as [(? & C)|[(? & C)|(? & C)]]; unfold clamp in C; rewrite C; lra)).
  apply Rabs_le_inv in CN. split; [|split; [exact Z0|]].
  - destruct cb; cbn [stored_for] in *; unfold truncated, rounded in *; try (apply Rabs_le_inv in ST; apply Rabs_le); lra.
  - assert (Z1 : IZR z < 256) by (destruct cb; cbn [stored_for] in *; unfold truncated, rounded in *; try (apply Rabs_le_inv in ST); lra).
    apply lt_IZR in Z1. lia.
Qed.

Lemma stored_pair : forall cb e t1 t2 z1 z2, 0 <= e <= 1 / 10 -> Rabs (t1 - t2) <= 7 / 10 -> stored_for cb e t1 z1 -> stored_for cb e t2 z2 ->
  (- 1 <= z1 - z2 <= 1)%Z.
Proof.
  intros cb e t1 t2 z1 z2 E T S1 S2. apply Rabs_le_inv in T.
  assert (D : -2 < IZR z1 - IZR z2 < 2).
  { destruct cb; cbn [stored_for] in *; unfold truncated, rounded in *; try (apply Rabs_le_inv in S1; apply Rabs_le_inv in S2); lra. }
  rewrite <- minus_IZR in D. destruct D as (D1 & D2). apply lt_IZR in D1. apply lt_IZR in D2. lia.
Qed.

(** * To PQ *)

Theorem C66_gray_to_pq : forall sp sl b m src sps dst dps,
  converts (libm_of sp sl) b m src sps dst dps -> bytes_ok m ->
  sampling_of (im_format src) = SRGB -> sampling_of (im_format dst) = SRGB ->
  same_light (im_color src) (im_color dst) = false -> ci_transfer (im_color dst) = TBT2100PQ ->
  forall x y z, in_image dst x y -> gray m src sps x y z -> platform_pow sp sl (column_backend b (im_width dst) x) ->
  exists r g bl,
    stored (libm_of sp sl) b m src dst dps CR x y = Some r /\ stored (libm_of sp sl) b m src dst dps CG x y = Some g /\
    stored (libm_of sp sl) b m src dst dps CB x y = Some bl /\
    (0 <= r <= 255 /\ 0 <= g <= 255 /\ 0 <= bl <= 255 /\ -1 <= r - g <= 1 /\ -1 <= g - bl <= 1 /\ -1 <= r - bl <= 1)%Z.
Proof.
  intros sp sl b m src sps dst dps CV B FS FD SL TD x y z HI G PL.
  pose proof (gray_level _ _ _ _ _ _ B FS G) as ZB. pose proof (accurate_lane sp sl _ PL) as A.
  pose proof (fun c HC => gray_stored _ _ _ _ _ _ _ CV FS FD SL c x y z HC HI G) as ST. cbv zeta in ST.
  set (cb := column_backend b (im_width dst) x) in *. set (L := lane_of (libm_of sp sl) cb) in *.
  rewrite TD in ST. destruct (gray_any L (ci_transfer (im_color src)) z A ZB) as (N & BD). set (d := gray_value L (ci_transfer (im_color src)) z) in *.
  pose proof (fun c HC => gray_component (ci_primaries (im_color src)) (ci_primaries (im_color dst)) d c N BD HC) as GC.
  set (t := from_xyz (ci_primaries (im_color dst)) (to_xyz (ci_primaries (im_color src)) (d, d, d))) in *.
  assert (Q : forall c, In c [CR; CG; CB] -> stored_for cb (3 / 40) (clamp 255 (255 * pq_encode (Rmax (fval (component_of c t)) 0)))
      (quantise (quant_of cb) (im_format dst) (oetf L TBT2100PQ (component_of c t))) /\
    (0 <= quantise (quant_of cb) (im_format dst) (oetf L TBT2100PQ (component_of c t)) <= 255)%Z).
  { intros c HC. destruct (GC c HC) as (NC & EC). apply Rabs_le_inv in EC. apply Rabs_le_inv in BD as BD'. apply store_pq; try assumption. lra. }
  assert (AL : forall c c', In c [CR; CG; CB] -> In c' [CR; CG; CB] ->
    (-1 <= quantise (quant_of cb) (im_format dst) (oetf L TBT2100PQ (component_of c t)) - quantise (quant_of cb) (im_format dst) (oetf L TBT2100PQ (component_of c' t)) <= 1)%Z).
  { intros c c' HC HC'. destruct (Q c HC) as (S1 & _). destruct (Q c' HC') as (S2 & _). refine (stored_pair cb (3 / 40) _ _ _ _ ltac:(lra) _ S1 S2).
    destruct (GC c HC) as (_ & E1). destruct (GC c' HC') as (_ & E2). pose proof (pq_alike (fval d) _ _ BD E1 E2) as P.
    apply clamp_near; [lra|]. apply Rabs_le_inv in P. apply Rabs_le. lra. }
  assert (I1 : In CR [CR; CG; CB]) by (cbn; auto). assert (I2 : In CG [CR; CG; CB]) by (cbn; auto). assert (I3 : In CB [CR; CG; CB]) by (cbn; auto).
  eexists _, _, _. split; [apply (ST CR I1)|]. split; [apply (ST CG I2)|]. split; [apply (ST CB I3)|].
  split; [apply (Q CR I1)|]. split; [apply (Q CG I2)|]. split; [apply (Q CB I3)|].
  split; [apply (AL _ _ I1 I2)|]. split; [apply (AL _ _ I2 I3)|apply (AL _ _ I1 I3)].
Qed.
Print Assumptions C66_gray_to_pq.

(** * From PQ *)

Lemma far_alike : forall t d x1 x2, t <> TBT2100PQ -> Rabs d <= 10010 ->
  Rabs (x1 - d) <= 11 / 1000000 * Rabs d + 10001 / 1000000000000 -> Rabs (x2 - d) <= 11 / 1000000 * Rabs d + 10001 / 1000000000000 ->
  Rabs (clamp 255 (255 * encoded t (Rmax 0 x1)) - clamp 255 (255 * encoded t (Rmax 0 x2))) <= 9 / 10.
Proof.
  intros t d x1 x2 T B E1 E2. destruct (Rle_dec (Rabs d) (19 / 10)) as [C|C].
  { apply clamp_near; [lra|]. apply (gray_close t d); assumption. }
  assert (AD : (0 <= d /\ Rabs d = d) \/ (d < 0 /\ Rabs d = - d)) by (unfold Rabs; destruct (Rcase_abs d); [right|left]; split; lra).
  apply Rabs_le_inv in E1. apply Rabs_le_inv in E2. destruct AD as [(D & AD)|(D & AD)]; rewrite AD in *.
  - assert (W : forall x, 1 <= x -> 254 < clamp 255 (255 * encoded t (Rmax 0 x)) <= 255).
    { intros x X. rewrite Rmax_right by lra. pose proof (encoded_white t x T ltac:(lra)) as E.
      destruct (clamp_cases 255 (255 * encoded t x) ltac:(lra)) as [(? & K)|[(? & K)|(? & K)]]; rewrite K; lra. }
    assert (W' : forall x, 1 <= x -> 2546 / 10 <= clamp 255 (255 * encoded t (Rmax 0 x)) <= 255).
    { intros x X. rewrite Rmax_right by lra. pose proof (encoded_white t x T ltac:(lra)) as E.
      destruct (clamp_cases 255 (255 * encoded t x) ltac:(lra)) as [(? & K)|[(? & K)|(? & K)]]; rewrite K; lra. }
    pose proof (W' x1 ltac:(lra)). pose proof (W' x2 ltac:(lra)). apply Rabs_le. lra.
  - rewrite !Rmax_left by lra. rewrite Rminus_diag_eq, Rabs_R0 by reflexivity. lra.
Qed.

(** Linear destinations only where the light is below 127 (from 128 on, the code
    stores 0 with AVX2 and AVX-512: C66_pq_linear_refuted) *)
Theorem C66_gray_from_pq : forall sp sl b m src sps dst dps,
  converts (libm_of sp sl) b m src sps dst dps -> bytes_ok m ->
  sampling_of (im_format src) = SRGB -> sampling_of (im_format dst) = SRGB ->
  ci_transfer (im_color src) = TBT2100PQ -> ci_transfer (im_color dst) <> TBT2100PQ ->
  forall x y z, in_image dst x y -> gray m src sps x y z -> platform_pow sp sl (column_backend b (im_width dst) x) ->
  (ci_transfer (im_color dst) = TLinear -> pq_decode (IZR z / 255) <= 127) ->
  exists r g bl,
    stored (libm_of sp sl) b m src dst dps CR x y = Some r /\ stored (libm_of sp sl) b m src dst dps CG x y = Some g /\
    stored (libm_of sp sl) b m src dst dps CB x y = Some bl /\
    (0 <= r <= 255 /\ 0 <= g <= 255 /\ 0 <= bl <= 255 /\ -1 <= r - g <= 1 /\ -1 <= g - bl <= 1 /\ -1 <= r - bl <= 1)%Z.
Proof.
  intros sp sl b m src sps dst dps CV B FS FD TS TD x y z HI G PL LI.
  assert (SL : same_light (im_color src) (im_color dst) = false).
  { unfold same_light. rewrite TS. destruct (ci_transfer (im_color dst)); try reflexivity. congruence. }
  pose proof (gray_level _ _ _ _ _ _ B FS G) as ZB. pose proof (accurate_lane sp sl _ PL) as A.
  pose proof (fun c HC => gray_stored _ _ _ _ _ _ _ CV FS FD SL c x y z HC HI G) as ST. cbv zeta in ST.
  set (cb := column_backend b (im_width dst) x) in *. set (L := lane_of (libm_of sp sl) cb) in *.
  assert (PN : pow_negative (l_pow L)) by (apply lane_negative; intros E; apply PL, E).
  rewrite TS in ST. destruct (gray_any L TBT2100PQ z A ZB) as (N & BD).
  assert (D128 : ci_transfer (im_color dst) = TLinear -> fval (gray_value L TBT2100PQ z) <= 1278 / 10).
  { intros E. specialize (LI E). unfold gray_value. destruct (level_num z ZB) as (NX & BX & EX). set (w := fdiv (f32_of_Z z) (f32_of_Z 255)) in *.
    assert (ZR : 0 <= IZR z <= 255) by (split; apply IZR_le; lia).
    destruct (pq_dec_color L w (IZR z / 255) A) as ((_ & ED) & P0); [split; [exact NX|eapply Rle_trans; [exact EX|unfold u7; lra]]|lra|].
    apply Rabs_le_inv in ED. lra. }
  assert (D0 : -1 <= fval (gray_value L TBT2100PQ z)).
  { unfold gray_value. destruct (level_num z ZB) as (NX & BX & _). destruct (pq_dec_rel L _ A NX ltac:(lra)) as ((_ & ED) & P0). apply Rabs_le_inv in ED. lra. }
  set (d := gray_value L TBT2100PQ z) in *.
  pose proof (fun c HC => gray_component (ci_primaries (im_color src)) (ci_primaries (im_color dst)) d c N BD HC) as GC.
  set (t := from_xyz (ci_primaries (im_color dst)) (to_xyz (ci_primaries (im_color src)) (d, d, d))) in *.
  set (td := ci_transfer (im_color dst)) in *.
  assert (Q : forall c, In c [CR; CG; CB] ->
    exists X, Rabs (X - fval d) <= 11 / 1000000 * Rabs (fval d) + 10001 / 1000000000000 /\
      stored_for cb (255 * (56 / 10000000)) (clamp 255 (255 * encoded td (Rmax 0 X))) (quantise (quant_of cb) (im_format dst) (oetf L td (component_of c t))) /\
      (0 <= quantise (quant_of cb) (im_format dst) (oetf L td (component_of c t)) <= 255)%Z).
  { intros c HC. destruct (GC c HC) as (NC & EC). apply Rabs_le_inv in EC. apply Rabs_le_inv in BD as BD'.
    destruct (store_far L cb (im_format dst) td (component_of c t) A PN TD FD NC ltac:(lra)) as (X & EX & SX & RX).
    { intros E. specialize (D128 E).
      assert (AD : Rabs (fval d) = fval d \/ fval d <= 0) by (unfold Rabs; destruct (Rcase_abs (fval d)); [right; lra|left; reflexivity]).
      destruct AD as [AD|AD]; [rewrite AD in EC; lra|lra]. }
    exists X. split; [|split; [exact SX|exact RX]]. apply Rabs_le_inv in EX. apply Rabs_le. lra. }
  assert (I1 : In CR [CR; CG; CB]) by (cbn; auto). assert (I2 : In CG [CR; CG; CB]) by (cbn; auto). assert (I3 : In CB [CR; CG; CB]) by (cbn; auto).
  destruct (Q CR I1) as (X1 & E1 & S1 & R1). destruct (Q CG I2) as (X2 & E2 & S2 & R2). destruct (Q CB I3) as (X3 & E3 & S3 & R3).
  eexists _, _, _. split; [apply (ST CR I1)|]. split; [apply (ST CG I2)|]. split; [apply (ST CB I3)|].
  split; [exact R1|]. split; [exact R2|]. split; [exact R3|].
  split; [exact (stored_near cb (255 * (56 / 10000000)) _ _ _ _ ltac:(lra) (far_alike td _ _ _ TD BD E1 E2) S1 S2)|].
  split; [exact (stored_near cb (255 * (56 / 10000000)) _ _ _ _ ltac:(lra) (far_alike td _ _ _ TD BD E2 E3) S2 S3)|].
  exact (stored_near cb (255 * (56 / 10000000)) _ _ _ _ ltac:(lra) (far_alike td _ _ _ TD BD E1 E3) S1 S3).
Qed.
Print Assumptions C66_gray_from_pq.

(** * PQ with other primaries *)

(** Level 1 of PQ is about 0.00043 cd/m2 *)
Lemma pq_first : forall v, 392 / 100000 <= v <= 1 -> 42 / 100000 <= pq_decode v.
Proof.
  intros v V. assert (CX : approx (f32_lit 3919 6) (3919 / 1000000) (1 / 1000000000)) by const_approx. destruct CX as (NX & EX). apply Rabs_le_inv in EX.
  destruct (pq_dec_rel avx_lane (f32_lit 3919 6) avx_lane_ok NX ltac:(lra)) as ((_ & E) & P).
  assert (C : approx (eotf avx_lane TBT2100PQ (f32_lit 3919 6)) (4333 / 10000000) (2 / 1000000)) by const_approx.
  destruct C as (_ & C). apply Rabs_le_inv in C. apply Rabs_le_inv in E.
  pose proof (pq_decode_mono (fval (f32_lit 3919 6)) v ltac:(lra) ltac:(lra)) as M. lra.
Qed.

Lemma pq_code_back : forall v, 392 / 100000 <= v <= 1 -> pq_encode (pq_decode v) = v.
Proof.
  intros v V. destruct (PropTransfer.C35_pq_inverse v ltac:(lra)) as (_ & I).
  assert (D0 : 0 <= pq_decode v) by (pose proof (pq_first v V); lra).
  rewrite (PropTransfer.encode_pq 0), (PropTransfer.decode_pq v), (PropTransfer.encode_pq _ D0) in I by lra. apply I.
  pose proof (pq_black 0 ltac:(lra)). lra.
Qed.

(** A gray pixel of PQ keeps its level when the primaries change, up to the
    truncation of scalar and NEON code *)
Theorem C66_pq_gray_close : forall sp sl b m src sps dst dps,
  converts (libm_of sp sl) b m src sps dst dps -> bytes_ok m ->
  sampling_of (im_format src) = SRGB -> sampling_of (im_format dst) = SRGB ->
  ci_transfer (im_color src) = TBT2100PQ -> ci_transfer (im_color dst) = TBT2100PQ -> ci_primaries (im_color src) <> ci_primaries (im_color dst) ->
  forall c x y z, In c [CR; CG; CB] -> in_image dst x y -> gray m src sps x y z ->
  let cb := column_backend b (im_width dst) x in
  platform_pow sp sl cb ->
  stored (libm_of sp sl) b m src dst dps c x y = Some z \/
  ((cb = Scalar \/ cb = NEON) /\ stored (libm_of sp sl) b m src dst dps c x y = Some (z - 1)%Z).
Proof.
  intros sp sl b m src sps dst dps CV B FS FD TS TD PP c x y z HC HI G cb PL.
  assert (SL : same_light (im_color src) (im_color dst) = false).
  { unfold same_light. rewrite TS, TD. destruct (ci_primaries (im_color src)), (ci_primaries (im_color dst)); try reflexivity; congruence. }
  pose proof (gray_level _ _ _ _ _ _ B FS G) as ZB. pose proof (accurate_lane sp sl _ PL) as A.
  rewrite (gray_stored _ _ _ _ _ _ _ CV FS FD SL c x y z HC HI G). fold cb. set (L := lane_of (libm_of sp sl) cb) in *.
  rewrite TS, TD. destruct (gray_any L TBT2100PQ z A ZB) as (N & BD).
  destruct (level_num z ZB) as (NX & BX & EX).
  destruct (pq_dec_rel L _ A NX ltac:(lra)) as ((_ & ED) & P0). fold (gray_value L TBT2100PQ z) in ED. set (d := gray_value L TBT2100PQ z) in *.
  set (s := fval (fdiv (f32_of_Z z) (f32_of_Z 255))) in *. set (a := pq_decode s) in *. apply Rabs_le_inv in ED. apply Rabs_le_inv in EX.
  destruct (gray_component (ci_primaries (im_color src)) (ci_primaries (im_color dst)) d c N BD HC) as (NQ & EQ).
  set (q := component_of c _) in *. apply Rabs_le_inv in EQ. apply Rabs_le_inv in BD as BD'.
  destruct (store_pq L cb (im_format dst) q A FD NQ ltac:(lra)) as (ST & ZQ). set (v := quantise _ _ _) in *. clearbody v.
  assert (AD : (0 <= fval d /\ Rabs (fval d) = fval d) \/ (fval d < 0 /\ Rabs (fval d) = - fval d)) by (unfold Rabs; destruct (Rcase_abs (fval d)); [right|left]; split; lra).
  assert (CODE : Rabs (pq_encode (Rmax (fval q) 0) - IZR z / 255) <= 8 / 10000).
  { assert (ZC : z = 0%Z \/ (1 <= z)%Z) by lia. destruct ZC as [-> |ZC].
    - assert (S0 : s = 0) by (unfold s; replace (fdiv (f32_of_Z 0) (f32_of_Z 255)) with (S754_zero false) by (vm_compute; reflexivity); reflexivity).
      assert (A0 : a = 0). { unfold a, pq_decode. rewrite S0. cbv zeta. rewrite power_0, Rmax_right by (unfold c1; lra). unfold Rdiv at 1. rewrite Rmult_0_l, power_0. ring. }
      pose proof (pq_black (Rmax (fval q) 0)) as PB. assert (QB : 0 <= Rmax (fval q) 0 <= 102 / 1000000000).
      { split; [apply Rmax_r|]. apply Rmax_lub; destruct AD as [(? & AD)|(? & AD)]; rewrite AD in *; lra. }
      specialize (PB QB). assert (0 <= pq_encode (Rmax (fval q) 0)) by (unfold pq_encode; cbv zeta; apply power_ge0). apply Rabs_le. lra.
    - apply IZR_le in ZC. assert (ZR : IZR z <= 255) by (apply IZR_le; lia). unfold u7 in *.
      assert (SB : 392 / 100000 <= s <= 1) by lra. pose proof (pq_first s SB) as PF. fold a in PF. pose proof (pq_code_back s SB) as PC. fold a in PC.
      destruct AD as [(D0 & AD)|(D0 & AD)]; [|lra]. rewrite AD in EQ.
      rewrite Rmax_left by lra.
      destruct (Rle_dec a (fval q)) as [O|O].
      + pose proof (pq_near (96 / 100000) a (fval q) ltac:(lra) ltac:(lra) ltac:(lra) ltac:(lra)). apply Rabs_le. lra.
      + pose proof (pq_near (96 / 100000) (fval q) a ltac:(lra) ltac:(lra) ltac:(lra) ltac:(lra)). apply Rabs_le. lra. }
  assert (ZR : 0 <= IZR z <= 255) by (split; apply IZR_le; lia).
  assert (CL : Rabs (clamp 255 (255 * pq_encode (Rmax (fval q) 0)) - IZR z) <= 21 / 100).
  { replace (IZR z) with (clamp 255 (IZR z)) by (apply clamp_id; lra). apply clamp_near; [lra|]. apply Rabs_le_inv in CODE. apply Rabs_le. lra. }
  apply Rabs_le_inv in CL. clear AD CODE.
  destruct cb eqn:EB; cbn [stored_for] in ST; unfold truncated, rounded in ST.
  1, 2, 3, 4: idtac.
  all: try (apply Rabs_le_inv in ST; left; f_equal; assert (H1 : -1 < IZR v - IZR z < 1) by lra; rewrite <- minus_IZR in H1; destruct H1 as (H1 & H2); apply lt_IZR in H1; apply lt_IZR in H2; lia).
  all: assert (H1 : -2 < IZR v - IZR z < 1) by lra; rewrite <- minus_IZR in H1; destruct H1 as (H1 & H2); apply lt_IZR in H1; apply lt_IZR in H2;
    assert (HH : v = z \/ v = (z - 1)%Z) by lia; destruct HH as [-> | ->]; [left; reflexivity|right; split; [auto|reflexivity]].
Qed.
Print Assumptions C66_pq_gray_close.

Definition pq_709 : image := ex_image RGBA 2 2 (CRGB TBT2100PQ PrBT709) (ex_rgba_planes 1).
Example C66_gray_pq_example : forall b,
  converts (libm_of avx_pow avx_log) b PropGray.dim_mem pq_2020 (ex_rgba_planes 0) pq_709 (ex_rgba_planes 1) /\
  bytes_ok PropGray.dim_mem /\ gray PropGray.dim_mem pq_2020 (ex_rgba_planes 0) 0 1 85 /\
  same_light (im_color pq_2020) (im_color pq_709) = false /\ (forall cb, platform_pow avx_pow avx_log cb) /\
  map (fun c => stored (libm_of avx_pow avx_log) b PropGray.dim_mem pq_2020 pq_709 (ex_rgba_planes 1) c 0 1) [CR; CG; CB] = [Some 85; Some 85; Some 85]%Z.
Proof.
  intros b. split; [ex_converts b|]. split; [intros a i; unfold PropGray.dim_mem; lia|]. split; [repeat split; reflexivity|]. split; [reflexivity|].
  split; [intros cb _; split; [exact avx_pow_ok|split; [exact (log_contract avx_log avx_log_ok)|exact avx_pow_negative]]|].
  narrow b (ex_rgba_planes 0).
Qed.
