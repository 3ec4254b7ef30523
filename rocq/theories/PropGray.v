(** C66: gray, white and black when the transfer function or the primaries
    change. *)

From Coq Require Import List ZArith Bool Arith Reals Lia Lra Psatz.
From Coq Require Import Floats.SpecFloat.
From Flocq Require Import Core.
From Verif Require Import Base Types Planes ImageM F32 Vector Simd SpecVector SimdProofs QuantProofs SpecGeom GeomProofs
  SpecColor SpecConvert SpecRun Formats Visit Convert VisitProofs ColorProofs ConvertProofs ExactProofs PropConvert PropFidelity
  SpecReal FloatProofs AccProofs TargetProofs PropColor ColorR SpecTransfer PowerProofs MathProofs SpecMath LaneProofs TransferProofs
  Math NegProofs RecolorProofs PropRecolor GamutProofs PropGamut GrayProofs.
Import ListNotations.
Local Open Scope R_scope.

(** The red, green and blue samples of a pixel of the source are [z] *)
Definition gray (m : mem) (src : image) (sps : list (slice * nat)) (x y : nat) (z : Z) : Prop :=
  given m src sps CR x y = Some z /\ given m src sps CG x y = Some z /\ given m src sps CB x y = Some z.

(** The linear light of a gray level, as computed *)
Definition gray_value (L : lane_ops f32) (t : color_transfer) (z : Z) : f32 := eotf L t (fdiv (f32_of_Z z) (f32_of_Z 255)).

Definition component_of (c : comp) (q : f32 * f32 * f32) : f32 := match c with CR => fst3 q | CG => snd3 q | _ => thd3 q end.

Lemma gray_level : forall m src sps x y z, bytes_ok m -> sampling_of (im_format src) = SRGB -> gray m src sps x y z -> (0 <= z <= 255)%Z.
Proof.
  intros m src sps x y z B FS (G & _). pose proof (given_range _ _ _ _ _ _ _ B G) as R.
  assert (SB : sample_bytes (im_format src) = 1%nat) by (destruct (im_format src); try discriminate FS; reflexivity). rewrite SB in R. cbn in R. lia.
Qed.

Lemma gray_stored : forall lm b m src sps dst dps,
  converts lm b m src sps dst dps -> sampling_of (im_format src) = SRGB -> sampling_of (im_format dst) = SRGB ->
  same_light (im_color src) (im_color dst) = false ->
  forall c x y z, In c [CR; CG; CB] -> in_image dst x y -> gray m src sps x y z ->
  let cb := column_backend b (im_width dst) x in
  let L := lane_of lm cb in
  let d := gray_value L (ci_transfer (im_color src)) z in
  stored lm b m src dst dps c x y = Some (quantise (quant_of cb) (im_format dst) (oetf L (ci_transfer (im_color dst))
    (component_of c (from_xyz (ci_primaries (im_color dst)) (to_xyz (ci_primaries (im_color src)) (d, d, d)))))).
Proof.
  intros lm b m src sps dst dps CV FS FD SL c x y z HC HI (G1 & G2 & G3) cb L d.
  pose proof (light_kind _ _ SL) as SK.
  assert (HD : has_comp (im_format dst) c = true) by (unfold has_comp; rewrite FD; cbn [In] in HC; intuition (subst; reflexivity)).
  assert (ICT : ictcp_chroma420 (im_format dst) (im_color dst) c = false) by (unfold ictcp_chroma420; rewrite FD; reflexivity).
  rewrite (stored_expected _ _ _ _ _ _ _ CV c x y HD HI ICT). fold cb. fold L.
  assert (MS : max_level (im_format src) = 255%Z) by (destruct (im_format src); try discriminate FS; reflexivity).
  f_equal. f_equal. unfold expected_value. rewrite SK. unfold target. rewrite FD. unfold recolored. rewrite SL. unfold source_pixel. rewrite FS. cbn [fst snd].
  unfold recolor, norm. unfold given in G1, G2, G3. rewrite G1, G2, G3, MS. cbn [map3].
  change (eotf L (ci_transfer (im_color src)) (fdiv (f32_of_Z z) (f32_of_Z 255))) with d.
  destruct (from_xyz _ _) as ((q1, q2), q3). cbn [In] in HC. destruct HC as [<- |[<- |[<- |[]]]]; reflexivity.
Qed.

(** * Gray *)

(** Three channels that start with the same light: what is encoded differs by
    less than a level *)
Lemma gray_close : forall t d x1 x2, t <> TBT2100PQ -> Rabs d <= 19 / 10 ->
  Rabs (x1 - d) <= 11 / 1000000 * Rabs d + 10001 / 1000000000000 -> Rabs (x2 - d) <= 11 / 1000000 * Rabs d + 10001 / 1000000000000 ->
  Rabs (255 * encoded t (Rmax 0 x1) - 255 * encoded t (Rmax 0 x2)) <= 9 / 10.
Proof.
  assert (H : forall t d x1 x2, t <> TBT2100PQ -> Rabs d <= 19 / 10 ->
    Rabs (x1 - d) <= 11 / 1000000 * Rabs d + 10001 / 1000000000000 -> Rabs (x2 - d) <= 11 / 1000000 * Rabs d + 10001 / 1000000000000 ->
    x1 <= x2 -> Rabs (255 * encoded t (Rmax 0 x1) - 255 * encoded t (Rmax 0 x2)) <= 9 / 10).
  { intros t d x1 x2 T D E1 E2 O. apply Rabs_le_inv in E1. apply Rabs_le_inv in E2.
    assert (AD : (0 <= d /\ Rabs d = d) \/ (d < 0 /\ Rabs d = - d)) by (unfold Rabs; destruct (Rcase_abs d); [right|left]; split; lra).
    assert (C : - (1 / 1000000) <= encoded t (Rmax 0 x2) - encoded t (Rmax 0 x1) <= 35 / 10000).
    { apply encoded_close; [exact T| | |].
      - split; [apply Rmax_l|]. apply Rle_max_compat_l, O.
      - apply Rmax_lub; destruct AD as [(? & AD)|(? & AD)]; rewrite AD in *; lra.
      - unfold Rmax. destruct AD as [(? & AD)|(? & AD)]; rewrite AD in *; destruct (Rle_dec 0 x1), (Rle_dec 0 x2); lra. }
    apply Rabs_le. lra. }
  intros t d x1 x2 T D E1 E2. destruct (Rle_dec x1 x2) as [O|O]; [apply (H t d); assumption|]. rewrite Rabs_minus_sym. apply (H t d); try assumption. lra.
Qed.

Lemma stored_near : forall cb e t1 t2 z1 z2, 0 <= e <= 1 / 100 -> Rabs (t1 - t2) <= 9 / 10 -> stored_for cb e t1 z1 -> stored_for cb e t2 z2 ->
  (- 1 <= z1 - z2 <= 1)%Z.
Proof.
  intros cb e t1 t2 z1 z2 E T S1 S2. apply Rabs_le_inv in T.
  assert (D : -2 < IZR z1 - IZR z2 < 2).
  { destruct cb; cbn [stored_for] in *; unfold truncated, rounded in *; try (apply Rabs_le_inv in S1; apply Rabs_le_inv in S2); lra. }
  rewrite <- minus_IZR in D. destruct D as (D1 & D2). apply lt_IZR in D1. apply lt_IZR in D2. lia.
Qed.

(** The light of a gray level in the primaries of the destination, encoded and
    stored *)
Lemma gray_channel : forall L cb f ts td ps pd z c, accurate L -> pow_negative (l_pow L) -> ts <> TBT2100PQ -> td <> TBT2100PQ ->
  sampling_of f = SRGB -> (0 <= z <= 255)%Z -> In c [CR; CG; CB] ->
  let d := gray_value L ts z in
  let v := quantise (quant_of cb) f (oetf L td (component_of c (from_xyz pd (to_xyz ps (d, d, d))))) in
  is_num d /\ Rabs (fval d) <= 19 / 10 /\ (0 <= v <= 255)%Z /\
  exists X, Rabs (X - fval d) <= 11 / 1000000 * Rabs (fval d) + 10001 / 1000000000000 /\
    stored_for cb (255 * (56 / 10000000)) (clamp 255 (255 * encoded td (Rmax 0 X))) v.
Proof.
  intros L cb f ts td ps pd z c A PN TS TD S Z HC d v.
  destruct (decode_level L ts z A TS Z) as (N & E). pose proof (decoded_range ts z TS Z) as DR. fold (gray_value L ts z) in N, E. fold d in N, E.
  apply Rabs_le_inv in E. assert (B : Rabs (fval d) <= 19 / 10) by (apply Rabs_le; lra).
  split; [exact N|]. split; [exact B|].
  pose proof (gray_acc ps pd d N ltac:(lra)) as GA.
  assert (Q : exists q, component_of c (from_xyz pd (to_xyz ps (d, d, d))) = q /\ approx q (fval d) (11 / 1000000 * Rabs (fval d) + 1 / 1000000000000)).
  { destruct (from_xyz pd (to_xyz ps (d, d, d))) as ((q1, q2), q3). destruct GA as (G1 & G2 & G3). cbn [In] in HC.
    destruct HC as [<- |[<- |[<- |[]]]]; eexists; (split; [reflexivity|]); assumption. }
  destruct Q as (q & EQ & NQ & AQ). unfold v. rewrite EQ. clear v EQ GA. apply Rabs_le_inv in AQ.
  destruct (encode_store L cb f td q A PN TD S NQ) as (X & EX & ST & ZB).
  { apply Rabs_le. pose proof (Rabs_pos (fval d)). apply Rabs_le_inv in B as B'. lra. }
  split; [exact ZB|]. exists X. split; [|exact ST]. apply Rabs_le_inv in EX. apply Rabs_le. lra.
Qed.

(** Gray pixels stay gray up to one level: the rounding errors of the matrices
    and the curves are not visible as a tint beyond that *)
Theorem C66_gray : forall sp sl b m src sps dst dps,
  converts (libm_of sp sl) b m src sps dst dps -> bytes_ok m ->
  sampling_of (im_format src) = SRGB -> sampling_of (im_format dst) = SRGB ->
  same_light (im_color src) (im_color dst) = false ->
  ci_transfer (im_color src) <> TBT2100PQ -> ci_transfer (im_color dst) <> TBT2100PQ ->
  forall x y z, in_image dst x y -> gray m src sps x y z -> platform_pow sp sl (column_backend b (im_width dst) x) ->
  exists r g bl,
    stored (libm_of sp sl) b m src dst dps CR x y = Some r /\ stored (libm_of sp sl) b m src dst dps CG x y = Some g /\
    stored (libm_of sp sl) b m src dst dps CB x y = Some bl /\
    (0 <= r <= 255 /\ 0 <= g <= 255 /\ 0 <= bl <= 255 /\ -1 <= r - g <= 1 /\ -1 <= g - bl <= 1 /\ -1 <= r - bl <= 1)%Z.
Proof.
  intros sp sl b m src sps dst dps CV B FS FD SL TS TD x y z HI G PL.
  pose proof (gray_level _ _ _ _ _ _ B FS G) as ZB.
  set (cb := column_backend b (im_width dst) x) in *. set (L := lane_of (libm_of sp sl) cb).
  assert (A : accurate L) by (apply lane_accurate; intros E; destruct (PL E) as (? & ? & ?); auto).
  assert (PN : pow_negative (l_pow L)) by (apply lane_negative; intros E; apply PL, E).
  pose proof (fun c HC => gray_stored _ _ _ _ _ _ _ CV FS FD SL c x y z HC HI G) as ST.
  pose proof (fun c HC => gray_channel L cb (im_format dst) _ _ (ci_primaries (im_color src)) (ci_primaries (im_color dst)) z c A PN TS TD FD ZB HC) as GC.
  destruct (GC CR ltac:(cbn; auto)) as (_ & BD & R1 & X1 & E1 & S1). destruct (GC CG ltac:(cbn; auto)) as (_ & _ & R2 & X2 & E2 & S2).
  destruct (GC CB ltac:(cbn; auto)) as (_ & _ & R3 & X3 & E3 & S3). clear GC.
  eexists _, _, _. split; [apply (ST CR); cbn; auto|]. split; [apply (ST CG); cbn; auto|]. split; [apply (ST CB); cbn; auto|].
  fold cb. fold L. split; [exact R1|]. split; [exact R2|]. split; [exact R3|].
  assert (N : forall X Y, Rabs (X - fval (gray_value L (ci_transfer (im_color src)) z)) <= 11 / 1000000 * Rabs (fval (gray_value L (ci_transfer (im_color src)) z)) + 10001 / 1000000000000 ->
    Rabs (Y - fval (gray_value L (ci_transfer (im_color src)) z)) <= 11 / 1000000 * Rabs (fval (gray_value L (ci_transfer (im_color src)) z)) + 10001 / 1000000000000 ->
    Rabs (clamp 255 (255 * encoded (ci_transfer (im_color dst)) (Rmax 0 X)) - clamp 255 (255 * encoded (ci_transfer (im_color dst)) (Rmax 0 Y))) <= 9 / 10).
  { intros X Y EX EY. apply clamp_near; [lra|]. apply (gray_close _ _ _ _ TD BD EX EY). }
  split; [exact (stored_near cb (255 * (56 / 10000000)) _ _ _ _ ltac:(lra) (N X1 X2 E1 E2) S1 S2)|]. split; [exact (stored_near cb (255 * (56 / 10000000)) _ _ _ _ ltac:(lra) (N X2 X3 E2 E3) S2 S3)|].
  exact (stored_near cb (255 * (56 / 10000000)) _ _ _ _ ltac:(lra) (N X1 X3 E1 E3) S1 S3).
Qed.
Print Assumptions C66_gray.

(** * White and black *)

Lemma decoded_1 : forall t, t <> TBT2100PQ -> 99998 / 100000 <= decoded t 1 <= 10008 / 10000.
Proof.
  intros t T. destruct t; try congruence; cbn [decoded]; rewrite ?power_1; try lra.
  - unfold srgb_decode. destruct (Rle_dec 1 _); [lra|]. replace ((1 + 55 / 1000) / (1055 / 1000)) with 1 by field. rewrite power_1. lra.
  - unfold sdr_decode. destruct (Rlt_dec 1 _); [lra|].
    assert (power 1 (20 / 9) <= power ((1 + 993 / 10000) / (1099 / 1000)) (20 / 9)) by (apply power_le; lra).
    assert (power ((1 + 993 / 10000) / (1099 / 1000)) (20 / 9) < 10008 / 10000) by (apply (power_below _ _ _ 20 9); simpl; lra). rewrite power_1 in *. lra.
  - assert (A : accurate (lane_of (libm_of avx_pow avx_log) AVX2)) by (apply lane_accurate; discriminate).
    assert (C1 : approx (f32_of_Z 1) 1 0) by const_approx. apply const_val in C1. destruct C1 as (V1 & N1 & _).
    pose proof (hlg_dec_ok _ _ A N1 ltac:(lra)) as (_ & E). rewrite V1 in E.
    assert (C : approx (eotf (lane_of (libm_of avx_pow avx_log) AVX2) TBT2100HLG (f32_of_Z 1)) 1 (1 / 100000)) by const_approx.
    destruct C as (_ & C). apply Rabs_le_inv in C. apply Rabs_le_inv in E. lra.
Qed.

(** White is stored as 255 by AVX2 and AVX-512 and as 254 or 255 by NEON and
    scalar code, which truncate *)
Theorem C66_white : forall sp sl b m src sps dst dps,
  converts (libm_of sp sl) b m src sps dst dps -> bytes_ok m ->
  sampling_of (im_format src) = SRGB -> sampling_of (im_format dst) = SRGB ->
  same_light (im_color src) (im_color dst) = false ->
  ci_transfer (im_color src) <> TBT2100PQ -> ci_transfer (im_color dst) <> TBT2100PQ ->
  forall x y, in_image dst x y -> gray m src sps x y 255 ->
  let cb := column_backend b (im_width dst) x in platform_pow sp sl cb ->
  forall c, In c [CR; CG; CB] ->
  exists v, stored (libm_of sp sl) b m src dst dps c x y = Some v /\ (254 <= v <= 255)%Z /\ (avx cb -> v = 255%Z).
Proof.
  intros sp sl b m src sps dst dps CV B FS FD SL TS TD x y HI G cb PL c HC.
  set (L := lane_of (libm_of sp sl) cb).
  assert (A : accurate L) by (apply lane_accurate; intros E; destruct (PL E) as (? & ? & ?); auto).
  assert (PN : pow_negative (l_pow L)) by (apply lane_negative; intros E; apply PL, E).
  rewrite (gray_stored _ _ _ _ _ _ _ CV FS FD SL c x y 255 HC HI G). fold cb. fold L.
  destruct (decode_level L _ 255 A TS ltac:(lia)) as (_ & E).
  destruct (gray_channel L cb (im_format dst) _ _ (ci_primaries (im_color src)) (ci_primaries (im_color dst)) 255 c A PN TS TD FD ltac:(lia) HC) as (_ & BD & R & X & EX & S).
  cbv zeta in S, R. fold (gray_value L (ci_transfer (im_color src)) 255) in E. set (d := gray_value L (ci_transfer (im_color src)) 255) in *.
  set (v := quantise _ _ _) in *. clearbody v. exists v. split; [reflexivity|].
  pose proof (decoded_1 _ TS) as D1. replace (255 / 255) with 1 in E by field. apply Rabs_le_inv in E. apply Rabs_le_inv in EX.
  assert (DX : 9999 / 10000 <= X) by lra.
  pose proof (encoded_white _ X TD DX) as T. rewrite Rmax_right in S by lra.
  set (t := 255 * encoded (ci_transfer (im_color dst)) X) in *.
  assert (CT : 2546 / 10 <= clamp 255 t <= 255) by (destruct (clamp_cases 255 t ltac:(lra)) as [(? & ->)|[(? & ->)|(? & ->)]]; unfold t in *; lra).
  assert (V : 253 < IZR v) by (destruct cb; cbn [stored_for] in S; unfold truncated, rounded in S; try apply Rabs_le_inv in S; lra).
  apply lt_IZR in V. split; [lia|]. intros AV.
  assert (V2 : 254 < IZR v) by (destruct AV as [EB|EB]; rewrite EB in S; cbn [stored_for] in S; unfold rounded in S; apply Rabs_le_inv in S; lra).
  apply lt_IZR in V2. lia.
Qed.
Print Assumptions C66_white.

Lemma pow_zero : forall p x y, pow_accurate p -> is_num x -> fval x = 0 -> is_num y -> 2 <= fval y <= 3 ->
  is_num (p x y) /\ 0 <= fval (p x y) <= 1 / 1000000000000000.
Proof.
  intros p x y P NX X NY Y. destruct (P x y NX NY ltac:(lra) ltac:(rewrite Rabs_pos_eq; lra)) as (_ & _ & P3).
  pose proof tiny_pos as TP. destruct (P3 ltac:(lra) ltac:(lra)) as (N & B). split; [exact N|].
  assert (T1 : Rpower tiny (fval y) <= bpow radix2 (-60)).
  { unfold Rpower. rewrite ln_tiny, exp_bpow. apply exp_le. pose proof ln_2. nra. }
  assert (T2 : bpow radix2 (-122) <= bpow radix2 (-60)) by (apply bpow_le; lia).
  assert (T3 : bpow radix2 (-60) <= 1 / 10000000000000000) by (change (bpow radix2 (-60)) with (/ 1152921504606846976); lra). lra.
Qed.

Lemma black_light : forall L t, accurate L -> t <> TBT2100PQ -> is_num (gray_value L t 0) /\ Rabs (fval (gray_value L t 0)) <= 1 / 1000000000000.
Proof.
  intros L t A T. unfold gray_value. change (fdiv (f32_of_Z 0) (f32_of_Z 255)) with (S754_zero false : f32).
  set (o := S754_zero false : f32). assert (N0 : is_num o) by (split; reflexivity). assert (V0 : fval o = 0) by reflexivity.
  assert (Z0 : is_num o /\ Rabs (fval o) <= 1 / 1000000000000) by (split; [exact N0|rewrite V0, Rabs_R0; lra]).
  assert (P : forall y, is_num y -> 2 <= fval y <= 3 -> is_num (l_pow L o y) /\ Rabs (fval (l_pow L o y)) <= 1 / 1000000000000).
  { intros y NY Y. destruct (pow_zero _ o y (acc_pow _ A) N0 V0 NY Y) as (N & B). split; [exact N|]. rewrite Rabs_pos_eq; lra. }
  destruct t; try congruence; run_f32.
  - exact Z0.
  - assert (C : approx (f32_div (f32_lit 22 0) (f32_lit 10 0)) (22 / 10) (2 / 10000000)) by const_approx. destruct C as (NC & EC). apply Rabs_le_inv in EC. apply P; [exact NC|lra].
  - assert (C : approx (f32_div (f32_lit 28 0) (f32_lit 10 0)) (28 / 10) (2 / 10000000)) by const_approx. destruct C as (NC & EC). apply Rabs_le_inv in EC. apply P; [exact NC|lra].
  - assert (CT : approx (f32_lit 4045 5) (10858214 / 268435456) 0) by const_approx. apply const_val in CT. destruct CT as (VT & NT & _).
    pose proof (acc_le _ A o _ N0 NT ltac:(lra) ltac:(lra)) as CMP. rewrite VT, V0 in CMP.
    destruct (l_le L o _); [exact Z0|]. assert (F : false = true) by (apply CMP; lra). discriminate F.
  - assert (CT : approx (f32_lit 81490956 9) (10937531 / 134217728) 0) by const_approx. apply const_val in CT. destruct CT as (VT & NT & _).
    pose proof (acc_lt _ A o _ N0 NT ltac:(lra) ltac:(lra)) as CMP. rewrite VT, V0 in CMP.
    destruct (l_lt L o _); [exact Z0|]. assert (F : false = true) by (apply CMP; lra). discriminate F.
  - assert (NZ : is_num (f32_lit 0 0)) by (split; reflexivity). assert (VZ : fval (f32_lit 0 0) = 0) by reflexivity.
    destruct (acc_max _ A o (f32_lit 0 0) N0 NZ) as (NM & VM). rewrite V0, VZ, Rmax_left in VM by lra. set (e := l_max L o _) in *.
    assert (CT : approx (f32_lit 5 1) (1 / 2) 0) by const_approx. apply const_val in CT. destruct CT as (VT & NT & _).
    pose proof (acc_le _ A e _ NM NT ltac:(lra) ltac:(lra)) as CMP. rewrite VT, VM in CMP.
    destruct (l_le L e _); [|assert (F : false = true) by (apply CMP; lra); discriminate F].
    assert (C2 : approx (f32_lit 2 0) 2 0) by const_approx. apply const_val in C2. destruct C2 as (V2 & N2 & _).
    destruct (pow_zero _ e _ (acc_pow _ A) NM VM N2 ltac:(lra)) as (NP & BP).
    assert (C3 : approx (f32_lit 3 0) 3 0) by const_approx. apply const_val in C3. destruct C3 as (V3 & N3 & _).
    set (q := l_pow L e _) in *.
    assert (QB : Rabs (fval q / 3) <= 1 / 1000000000000000) by (rewrite Rabs_pos_eq; lra).
    destruct (f32_div_num q (f32_lit 3 0) NP N3) as (N & V); [lra|rewrite V3; apply big_bound; lra|]. rewrite V3 in V.
    split; [exact N|]. rewrite V. pose proof (rnd_half _ _ QB) as RH. unfold half_ulp in RH. apply Rabs_le_inv in RH. apply Rabs_le. apply Rabs_le_inv in QB. lra.
Qed.

(** Black stays black *)
Theorem C66_black : forall sp sl b m src sps dst dps,
  converts (libm_of sp sl) b m src sps dst dps -> bytes_ok m ->
  sampling_of (im_format src) = SRGB -> sampling_of (im_format dst) = SRGB ->
  same_light (im_color src) (im_color dst) = false ->
  ci_transfer (im_color src) <> TBT2100PQ -> ci_transfer (im_color dst) <> TBT2100PQ ->
  forall x y, in_image dst x y -> gray m src sps x y 0 ->
  platform_pow sp sl (column_backend b (im_width dst) x) ->
  forall c, In c [CR; CG; CB] -> stored (libm_of sp sl) b m src dst dps c x y = Some 0%Z.
Proof.
  intros sp sl b m src sps dst dps CV B FS FD SL TS TD x y HI G PL c HC. set (cb := column_backend b (im_width dst) x) in *.
  set (L := lane_of (libm_of sp sl) cb).
  assert (A : accurate L) by (apply lane_accurate; intros E; destruct (PL E) as (? & ? & ?); auto).
  assert (PN : pow_negative (l_pow L)) by (apply lane_negative; intros E; apply PL, E).
  rewrite (gray_stored _ _ _ _ _ _ _ CV FS FD SL c x y 0 HC HI G). fold cb. fold L.
  destruct (black_light L _ A TS) as (_ & E).
  destruct (gray_channel L cb (im_format dst) _ _ (ci_primaries (im_color src)) (ci_primaries (im_color dst)) 0 c A PN TS TD FD ltac:(lia) HC) as (_ & _ & R & X & EX & S).
  cbv zeta in S, R. set (d := gray_value L (ci_transfer (im_color src)) 0) in *.
  set (v := quantise _ _ _) in *. clearbody v. f_equal.
  apply Rabs_le_inv in EX. assert (DX : 0 <= Rmax 0 X <= 11 / 1000000000).
  { split; [apply Rmax_l|]. apply Rabs_le_inv in E as E'. apply Rmax_lub; lra. }
  pose proof (encoded_black _ _ TD DX) as T. set (t := 255 * encoded (ci_transfer (im_color dst)) (Rmax 0 X)) in *.
  assert (CT : 0 <= clamp 255 t <= 4 / 10) by (destruct (clamp_cases 255 t ltac:(lra)) as [(? & ->)|[(? & ->)|(? & ->)]]; lra).
  assert (V : IZR v < 1) by (destruct cb; cbn [stored_for] in S; unfold truncated, rounded in S; try apply Rabs_le_inv in S; lra).
  apply lt_IZR in V. lia.
Qed.
Print Assumptions C66_black.

(** White pixels: a picture of white and black columns *)
Definition white_mem : mem := fun b i => if (i mod 8 <? 4)%nat then 255%Z else 0%Z.
Lemma white_bytes : bytes_ok white_mem.
Proof. intros b j. unfold white_mem. destruct (_ <? _)%nat; lia. Qed.

Example C66_example : forall b,
  converts (libm_of avx_pow avx_log) b white_mem srgb22 (ex_rgba_planes 0) hlg22 (ex_rgba_planes 1) /\
  converts (libm_of avx_pow avx_log) b white_mem srgb22 (ex_rgba_planes 0) linear22 (ex_rgba_planes 1) /\
  gray white_mem srgb22 (ex_rgba_planes 0) 0 1 255 /\ gray white_mem srgb22 (ex_rgba_planes 0) 1 1 0 /\
  map (fun c => stored (libm_of avx_pow avx_log) b white_mem srgb22 hlg22 (ex_rgba_planes 1) c 0 1) [CR; CG; CB] = [Some 255; Some 254; Some 255]%Z /\
  map (fun c => stored (libm_of avx_pow avx_log) b white_mem srgb22 hlg22 (ex_rgba_planes 1) c 1 1) [CR; CG; CB] = [Some 0; Some 0; Some 0]%Z.
Proof.
  intros b. split; [ex_converts b|]. split; [ex_converts b|]. split; [repeat split; reflexivity|]. split; [repeat split; reflexivity|].
  split; narrow b (ex_rgba_planes 0).
Qed.

(** * PQ: the reference white is not the same *)

(** Only PQ measures light in cd/m2; the other curves have 1 for white.  The
    code converts between them without scaling, so that the white of all other
    curves is 1 cd/m2 *)

Definition avx_lane : lane_ops f32 := lane_of (libm_of avx_pow avx_log) AVX2.
Lemma avx_lane_ok : accurate avx_lane.
Proof. apply lane_accurate; discriminate. Qed.

Lemma pq_mono : forall x y, 0 <= x <= y -> pq_encode x <= pq_encode y.
Proof.
  intros x y H. unfold pq_encode. cbv zeta.
  assert (P : power (x / 10000) m1 <= power (y / 10000) m1) by (apply power_le; unfold m1; lra).
  pose proof (power_ge0 (x / 10000) m1) as A0. set (a := power (x / 10000) m1) in *. set (b := power (y / 10000) m1) in *.
  apply power_le; [unfold m2; lra|].
  assert (D : (c1 + c2 * b) / (1 + c3 * b) - (c1 + c2 * a) / (1 + c3 * a) = (c2 - c1 * c3) * (b - a) / ((1 + c3 * a) * (1 + c3 * b))) by (unfold c3; field; lra).
  assert (0 < (1 + c3 * a) * (1 + c3 * b)) by (unfold c3; apply Rmult_lt_0_compat; lra).
  assert (0 <= (c2 - c1 * c3) * (b - a) / ((1 + c3 * a) * (1 + c3 * b))).
  { apply Rmult_le_pos; [apply Rmult_le_pos; unfold c1, c2, c3; lra|left; apply Rinv_0_lt_compat; assumption]. }
  split; [|lra]. apply Rmult_le_pos; [unfold c1, c2; lra|left; apply Rinv_0_lt_compat; unfold c3; lra].
Qed.

(** PQ of 0.999, 1.001 and 3.2 cd/m2 *)
Lemma pq_points : 1496 / 10000 <= pq_encode (999 / 1000) /\ pq_encode (1001 / 1000) <= 1503 / 10000 /\ pq_encode (32 / 10) <= 2178 / 10000.
Proof.
  assert (H : forall x lo hi, is_num x -> 0 <= fval x <= 4 -> lo <= fval (oetf avx_lane TBT2100PQ x) <= hi -> lo - 1 / 4000 <= pq_encode (fval x) <= hi + 1 / 4000).
  { intros x lo hi N B O. destruct (pq_enc_ok avx_lane x avx_lane_ok N B) as (_ & E). apply Rabs_le_inv in E. lra. }
  assert (PT : forall x v e w, approx x v e -> 0 <= v - e -> v + e <= 4 -> approx (oetf avx_lane TBT2100PQ x) w (1 / 100000) ->
    exists y, Rabs (y - v) <= e /\ 0 <= y /\ w - 1 / 100000 - 1 / 4000 <= pq_encode y <= w + 1 / 100000 + 1 / 4000).
  { intros x v e w (N & E) B1 B2 (_ & O). exists (fval x). split; [exact E|]. apply Rabs_le_inv in E. apply Rabs_le_inv in O. split; [lra|]. apply H; [exact N|lra|lra]. }
  destruct (PT (f32_lit 99899 5) (99899 / 100000) (1 / 1000000) (14989 / 100000)) as (y1 & E1 & _ & P1); [const_approx|lra|lra|const_approx|].
  destruct (PT (f32_lit 100101 5) (100101 / 100000) (1 / 1000000) (14999 / 100000)) as (y2 & E2 & Y2 & P2); [const_approx|lra|lra|const_approx|].
  destruct (PT (f32_lit 320001 5) (320001 / 100000) (1 / 1000000) (21751 / 100000)) as (y3 & E3 & Y3 & P3); [const_approx|lra|lra|const_approx|].
  apply Rabs_le_inv in E1. apply Rabs_le_inv in E2. apply Rabs_le_inv in E3.
  split; [|split].
  - pose proof (pq_mono y1 (999 / 1000) ltac:(lra)). lra.
  - pose proof (pq_mono (1001 / 1000) y2 ltac:(lra)). lra.
  - pose proof (pq_mono (32 / 10) y3 ltac:(lra)). lra.
Qed.

Lemma store_exact : forall cb f v, sampling_of f = SRGB -> is_num v -> Rabs (fval v) <= 4 ->
  stored_for cb (1 / 10000) (clamp 255 (255 * fval v)) (quantise (quant_of cb) f v) /\ (0 <= quantise (quant_of cb) f v)%Z.
Proof.
  intros cb f v S N B.
  assert (MF : max_level f = 255%Z) by (destruct f; try discriminate S; reflexivity).
  assert (TF : top f = 255%Z) by (destruct f; try discriminate S; reflexivity).
  destruct (acc_store cb f v (fval v) 0 (exact_approx v N) B ltac:(lra) ltac:(left; exact S)) as (Q1 & Q0). rewrite MF, TF in Q1.
  split; [|exact Q0]. eapply stored_for_weaken; [exact Q1|unfold u7; lra].
Qed.

(** White becomes level 38 of PQ, on every back end; white has level 255 in all
    other curves, and graphics white in PQ is 203 cd/m2, level 148 *)
Theorem C66_pq_white_refuted : forall sp sl b m src sps dst dps,
  converts (libm_of sp sl) b m src sps dst dps -> bytes_ok m ->
  sampling_of (im_format src) = SRGB -> sampling_of (im_format dst) = SRGB ->
  ci_transfer (im_color src) <> TBT2100PQ -> ci_transfer (im_color dst) = TBT2100PQ ->
  forall x y, in_image dst x y -> gray m src sps x y 255 ->
  platform_pow sp sl (column_backend b (im_width dst) x) ->
  forall c, In c [CR; CG; CB] -> stored (libm_of sp sl) b m src dst dps c x y = Some 38%Z.
Proof.
  intros sp sl b m src sps dst dps CV B FS FD TS TD x y HI G PL c HC. set (cb := column_backend b (im_width dst) x) in *.
  assert (SL : same_light (im_color src) (im_color dst) = false).
  { unfold same_light. rewrite TD. destruct (ci_transfer (im_color src)); try reflexivity. congruence. }
  set (L := lane_of (libm_of sp sl) cb).
  assert (A : accurate L) by (apply lane_accurate; intros E; destruct (PL E) as (? & ? & ?); auto).
  rewrite (gray_stored _ _ _ _ _ _ _ CV FS FD SL c x y 255 HC HI G). fold cb. fold L. rewrite TD.
  destruct (decode_level L _ 255 A TS ltac:(lia)) as (N & E). pose proof (decoded_1 _ TS) as D1.
  fold (gray_value L (ci_transfer (im_color src)) 255) in N, E. set (d := gray_value L (ci_transfer (im_color src)) 255) in *.
  replace (255 / 255) with 1 in E by field. apply Rabs_le_inv in E.
  pose proof (gray_acc (ci_primaries (im_color src)) (ci_primaries (im_color dst)) d N ltac:(rewrite Rabs_pos_eq; lra)) as GA. rewrite Rabs_pos_eq in GA by lra.
  assert (Q : exists q, component_of c (from_xyz (ci_primaries (im_color dst)) (to_xyz (ci_primaries (im_color src)) (d, d, d))) = q /\ approx q (fval d) (11 / 1000000 * fval d + 1 / 1000000000000)).
  { destruct (from_xyz _ (to_xyz _ (d, d, d))) as ((q1, q2), q3). destruct GA as (G1 & G2 & G3). cbn [In] in HC.
    destruct HC as [<- |[<- |[<- |[]]]]; eexists; (split; [reflexivity|]); assumption. }
  destruct Q as (q & EQ & NQ & AQ). rewrite EQ. clear EQ GA. apply Rabs_le_inv in AQ.
  assert (QB : 999 / 1000 <= fval q <= 1001 / 1000) by lra.
  destruct (pq_enc_ok L q A NQ ltac:(lra)) as (NV & EV). apply Rabs_le_inv in EV.
  destruct pq_points as (P1 & P2 & _). pose proof (pq_mono (999 / 1000) (fval q) ltac:(lra)). pose proof (pq_mono (fval q) (1001 / 1000) ltac:(lra)).
  set (v := oetf L TBT2100PQ q) in *. destruct (store_exact cb (im_format dst) v FD NV ltac:(apply Rabs_le; lra)) as (S & _).
  rewrite clamp_id in S by lra. f_equal. set (z := quantise _ _ _) in *. clearbody z.
  assert (V : 37 < IZR z < 39) by (destruct cb; cbn [stored_for] in S; unfold truncated, rounded in S; try apply Rabs_le_inv in S; lra).
  destruct V as (V1 & V2). apply lt_IZR in V1. apply lt_IZR in V2. lia.
Qed.
Print Assumptions C66_pq_white_refuted.

(** Nothing that comes from another curve is brighter than level 56 of PQ
    (3.2 cd/m2) *)
Theorem C66_pq_dim : forall sp sl b m src sps dst dps,
  converts (libm_of sp sl) b m src sps dst dps -> bytes_ok m ->
  sampling_of (im_format src) = SRGB -> sampling_of (im_format dst) = SRGB ->
  ci_transfer (im_color src) <> TBT2100PQ -> ci_transfer (im_color dst) = TBT2100PQ ->
  forall c x y, In c [CR; CG; CB] -> in_image dst x y -> platform_pow sp sl (column_backend b (im_width dst) x) ->
  exists z, stored (libm_of sp sl) b m src dst dps c x y = Some z /\ (0 <= z <= 56)%Z.
Proof.
  intros sp sl b m src sps dst dps CV B FS FD TS TD c x y HC HI PL. set (cb := column_backend b (im_width dst) x) in *.
  assert (SL : same_light (im_color src) (im_color dst) = false).
  { unfold same_light. rewrite TD. destruct (ci_transfer (im_color src)); try reflexivity. congruence. }
  pose proof (light_kind _ _ SL) as SK.
  assert (HD : has_comp (im_format dst) c = true) by (unfold has_comp; rewrite FD; cbn [In] in HC; intuition (subst; reflexivity)).
  assert (ICT : ictcp_chroma420 (im_format dst) (im_color dst) c = false) by (unfold ictcp_chroma420; rewrite FD; reflexivity).
  rewrite (stored_expected _ _ _ _ _ _ _ CV c x y HD HI ICT). fold cb.
  set (L := lane_of (libm_of sp sl) cb).
  assert (A : accurate L) by (apply lane_accurate; intros E; destruct (PL E) as (? & ? & ?); auto).
  assert (V : valid_image src sps) by apply CV.
  pose proof (rgb_light L m src sps x y A V B FS TS) as RL. cbv zeta in RL. destruct RL as (D3 & WB).
  set (w := (_, _, _)) in D3, WB.
  assert (E3 : exists q, expected_value L m src sps dst c x y = oetf L TBT2100PQ q /\ is_num q /\ fval q <= 32 / 10).
  { unfold expected_value. rewrite SK. unfold target. rewrite FD. unfold recolored. rewrite SL. unfold recolor. rewrite TD.
    destruct (source_pixel L m (im_format src) (im_color src) sps x y) as (px, al). cbn [fst snd] in *.
    set (v := map3 (eotf L (ci_transfer (im_color src))) px) in *.
    destruct (to_xyz_acc (ci_primaries (im_color src)) v w _ D3 WB ltac:(lra)) as (X3 & XB).
    pose proof (from_xyz_acc (ci_primaries (im_color dst)) _ _ _ X3 XB ltac:(lra)) as F3.
    pose proof (linear_bound (ci_primaries (im_color src)) (ci_primaries (im_color dst)) w WB) as FB.
    destruct (from_xyz (ci_primaries (im_color dst)) (to_xyz (ci_primaries (im_color src)) v)) as ((q1, q2), q3).
    destruct (from_xyz (ci_primaries (im_color dst)) (to_xyz (ci_primaries (im_color src)) w)) as ((p1, p2), p3).
    destruct F3 as ((N1 & Q1) & (N2 & Q2) & (N3 & Q3)). destruct FB as (P1 & P2 & P3).
    apply Rabs_le_inv in Q1. apply Rabs_le_inv in Q2. apply Rabs_le_inv in Q3. apply Rabs_le_inv in P1. apply Rabs_le_inv in P2. apply Rabs_le_inv in P3.
    cbn [In] in HC. destruct HC as [<- |[<- |[<- |[]]]]; eexists; (split; [reflexivity|]); (split; [assumption|lra]). }
  destruct E3 as (q & -> & NQ & QB). eexists. split; [reflexivity|].
  destruct (pq_enc_max L q A NQ ltac:(lra)) as (NV & EV). apply Rabs_le_inv in EV.
  destruct pq_points as (_ & _ & P3). pose proof (Rmax_r (fval q) 0) as R0.
  assert (R1 : Rmax (fval q) 0 <= 32 / 10) by (apply Rmax_lub; lra). pose proof (pq_mono _ _ (conj R0 R1)) as PM.
  assert (P0 : 0 <= pq_encode (Rmax (fval q) 0)) by (unfold pq_encode; cbv zeta; apply power_ge0).
  set (v := oetf L TBT2100PQ q) in *. destruct (store_exact cb (im_format dst) v FD NV ltac:(apply Rabs_le; lra)) as (S & Z0).
  split; [exact Z0|]. set (z := quantise _ _ _) in *. clearbody z.
  assert (CT : clamp 255 (255 * fval v) <= 557 / 10) by (destruct (clamp_cases 255 (255 * fval v) ltac:(lra)) as [(? & ->)|[(? & ->)|(? & ->)]]; lra).
  assert (VZ : IZR z < 57) by (destruct cb; cbn [stored_for] in S; unfold truncated, rounded in S; try apply Rabs_le_inv in S; lra).
  apply lt_IZR in VZ. lia.
Qed.
Print Assumptions C66_pq_dim.

Definition pq22 : image := ex_image RGBA 2 2 (CRGB TBT2100PQ PrBT2020) (ex_rgba_planes 1).
Example C66_pq_example : forall b,
  converts (libm_of avx_pow avx_log) b white_mem srgb22 (ex_rgba_planes 0) pq22 (ex_rgba_planes 1) /\
  gray white_mem srgb22 (ex_rgba_planes 0) 0 1 255 /\
  map (fun c => stored (libm_of avx_pow avx_log) b white_mem srgb22 pq22 (ex_rgba_planes 1) c 0 1) [CR; CG; CB] = [Some 38; Some 38; Some 38]%Z.
Proof. intros b. split; [ex_converts b|]. split; [repeat split; reflexivity|]. narrow b (ex_rgba_planes 0). Qed.

(** * From PQ *)

Lemma pq_decode_mono : forall x y, 0 <= x <= y -> y <= 1 -> pq_decode x <= pq_decode y.
Proof.
  intros x y H Y. unfold pq_decode. cbv zeta.
  assert (P : power x (1 / m2) <= power y (1 / m2)) by (apply power_le; unfold m2; lra).
  pose proof (power_ge0 x (1 / m2)) as A0. assert (B1 : power y (1 / m2) <= 1) by (apply power_le_1; unfold m2; lra).
  set (a := power x (1 / m2)) in *. set (b := power y (1 / m2)) in *.
  apply Rmult_le_compat_l; [lra|]. apply power_le; [unfold m1; lra|].
  assert (DA : 0 < c2 - c3 * a) by (unfold c2, c3; lra). assert (DB : 0 < c2 - c3 * b) by (unfold c2, c3; lra).
  split; [apply Rmult_le_pos; [apply Rmax_r|left; apply Rinv_0_lt_compat; exact DA]|].
  unfold Rdiv. apply Rmult_le_compat; [apply Rmax_r|left; apply Rinv_0_lt_compat; exact DA| |apply Rinv_le_contravar; [exact DB|unfold c3; lra]].
  apply Rle_max_compat_r. lra.
Qed.

(** Level 85 of PQ is above 8 cd/m2; no level is above 10010 *)
Lemma pq_light : forall L z, accurate L -> (85 <= z <= 255)%Z -> is_num (gray_value L TBT2100PQ z) /\ 21 / 10 <= fval (gray_value L TBT2100PQ z) <= 10010.
Proof.
  intros L z A Z. unfold gray_value.
  assert (LN : forall k, (0 <= k <= 255)%Z -> is_num (fdiv (f32_of_Z k) (f32_of_Z 255)) /\ 0 <= fval (fdiv (f32_of_Z k) (f32_of_Z 255)) <= 1 /\
    Rabs (fval (fdiv (f32_of_Z k) (f32_of_Z 255)) - IZR k / 255) <= u7) by (intros k K; pose proof (level_num k K) as H; cbv zeta in H; tauto).
  destruct (LN 85%Z ltac:(lia)) as (N85 & B85 & _). destruct (LN z ltac:(lia)) as (NZ & BZ & EZ).
  assert (O : fval (fdiv (f32_of_Z 85) (f32_of_Z 255)) <= fval (fdiv (f32_of_Z z) (f32_of_Z 255))).
  { destruct (LN 85%Z ltac:(lia)) as (_ & _ & E1). assert (C1 : z = 85%Z \/ (86 <= z)%Z) by lia. unfold u7 in *.
    apply Rabs_le_inv in E1. apply Rabs_le_inv in EZ. destruct C1 as [-> |C1]; [lra|]. apply IZR_le in C1. lra. }
  destruct (pq_dec_ok L _ A NZ BZ) as (ND & ED). apply Rabs_le_inv in ED. split; [exact ND|].
  destruct (pq_dec_ok _ _ avx_lane_ok N85 B85) as (_ & E1).
  assert (A1 : approx (eotf avx_lane TBT2100PQ (fdiv (f32_of_Z 85) (f32_of_Z 255))) 15 (2 / 10)) by const_approx.
  assert (A2 : pq_decode 1 <= 10000).
  { unfold pq_decode. cbv zeta. rewrite power_1, Rmax_left by (unfold c1; lra).
    assert (power ((1 - c1) / (c2 - c3 * 1)) (1 / m1) <= 1) by (apply power_le_1; unfold c1, c2, c3, m1; lra). lra. }
  destruct A1 as (_ & A1). apply Rabs_le_inv in A1. apply Rabs_le_inv in E1.
  pose proof (pq_decode_mono _ _ (conj (proj1 B85) O) (proj2 BZ)). pose proof (pq_decode_mono _ 1 BZ ltac:(lra)). lra.
Qed.

Lemma store_bright : forall cb f v, sampling_of f = SRGB -> is_num v -> 101 / 100 <= fval v <= 100 -> quantise (quant_of cb) f v = 255%Z.
Proof.
  intros cb f v S N B.
  assert (MF : max_level f = 255%Z) by (destruct f; try discriminate S; reflexivity).
  assert (TF : top f = 255%Z) by (destruct f; try discriminate S; reflexivity).
  destruct (f32_of_Z_num 255 ltac:(lia)) as (N2 & V2).
  destruct (f32_mul_num v (f32_of_Z 255) N N2 ltac:(rewrite V2; apply big_bound, Rabs_le; lra)) as (NX & VX). rewrite V2 in VX.
  assert (XB : 257 <= fval (f32_mul v (f32_of_Z 255)) <= 25501).
  { rewrite VX. replace 257 with (IZR 257 * bpow radix2 0) by (simpl; lra). replace 25501 with (IZR 25501 * bpow radix2 0) by (simpl; lra). rewrite <- (rnd_exact 257 0), <- (rnd_exact 25501 0) by lia. split; apply rnd_mono; simpl; lra. }
  pose proof (quantise_val cb f v) as Q. cbv zeta in Q. rewrite MF, TF in Q.
  specialize (Q NX ltac:(apply Rabs_lt; lra) ltac:(left; exact S)).
  destruct (clamp_cases 255 (fval (f32_mul v (f32_of_Z 255))) ltac:(lra)) as [(? & C)|[(? & C)|(? & C)]]; try lra. rewrite C in Q.
  set (z := quantise _ _ _) in *. clearbody z.
  assert (ZB : 254 < IZR z < 256) by (destruct cb; cbn [stored_for] in Q; unfold truncated, rounded in Q; try apply Rabs_le_inv in Q; lra).
  destruct ZB as (Z1 & Z2). apply lt_IZR in Z1. apply lt_IZR in Z2. lia.
Qed.

(** Every gray of PQ from level 85 (15 cd/m2) on becomes white: 255 in every
    channel, for every destination curve but PQ itself and linear light *)
Theorem C66_pq_bright_refuted : forall sp sl b m src sps dst dps,
  converts (libm_of sp sl) b m src sps dst dps -> bytes_ok m ->
  sampling_of (im_format src) = SRGB -> sampling_of (im_format dst) = SRGB ->
  ci_transfer (im_color src) = TBT2100PQ -> ci_transfer (im_color dst) <> TBT2100PQ -> ci_transfer (im_color dst) <> TLinear ->
  forall c x y z, In c [CR; CG; CB] -> in_image dst x y -> gray m src sps x y z -> (85 <= z)%Z ->
  platform_pow sp sl (column_backend b (im_width dst) x) ->
  stored (libm_of sp sl) b m src dst dps c x y = Some 255%Z.
Proof.
  intros sp sl b m src sps dst dps CV B FS FD TS TD TL c x y z HC HI G Z PL.
  pose proof (gray_level _ _ _ _ _ _ B FS G) as ZB.
  assert (SL : same_light (im_color src) (im_color dst) = false).
  { unfold same_light. rewrite TS. destruct (ci_transfer (im_color dst)); try reflexivity. congruence. }
  rewrite (gray_stored _ _ _ _ _ _ _ CV FS FD SL c x y z HC HI G). f_equal.
  set (cb := column_backend b (im_width dst) x) in *. set (L := lane_of (libm_of sp sl) cb).
  assert (A : accurate L) by (apply lane_accurate; intros E; destruct (PL E) as (? & ? & ?); auto). rewrite TS.
  destruct (pq_light L z A ltac:(lia)) as (ND & DB). set (d := gray_value L TBT2100PQ z) in *.
  pose proof (gray_acc (ci_primaries (im_color src)) (ci_primaries (im_color dst)) d ND ltac:(apply Rabs_le; lra)) as GA.
  set (t := from_xyz _ _) in *. rewrite (Rabs_pos_eq (fval d)) in GA by lra.
  assert (QC : is_num (component_of c t) /\ 2 <= fval (component_of c t) <= 10020).
  { destruct t as ((q1, q2), q3). destruct GA as ((N1 & Q1) & (N2 & Q2) & (N3 & Q3)).
    apply Rabs_le_inv in Q1. apply Rabs_le_inv in Q2. apply Rabs_le_inv in Q3.
    cbn [In] in HC. destruct HC as [<- |[<- |[<- |[]]]]; cbn [component_of fst3 snd3 thd3 fst snd]; clearbody d; (split; [assumption|lra]). }
  destruct QC as (NQ & QB). destruct (encode_bright L _ _ A TD TL NQ QB) as (NV & VB). apply store_bright; assumption.
Qed.
Print Assumptions C66_pq_bright_refuted.

Definition dim_mem : mem := fun _ _ => 85%Z.
Example C66_pq_bright_example : forall b,
  converts (libm_of avx_pow avx_log) b dim_mem pq22 (ex_rgba_planes 1) srgb22 (ex_rgba_planes 0) /\
  bytes_ok dim_mem /\ gray dim_mem pq22 (ex_rgba_planes 1) 0 1 85 /\
  stored (libm_of avx_pow avx_log) b dim_mem pq22 srgb22 (ex_rgba_planes 0) CG 0 1 = Some 255%Z.
Proof. intros b. split; [ex_converts b|]. split; [intros a i; unfold dim_mem; lia|]. split; [repeat split; reflexivity|]. narrow b (ex_rgba_planes 1). Qed.

(** * Bright light wraps to black on AVX2 and AVX-512 *)

Definition avx_backend (b : backend) : Prop := b = AVX2 \/ b = AVX512.
Definition prims : list color_primaries := [PrST240M; PrBT709; PrBT2020].
Lemma prims_all : forall p, In p prims. Proof. intros []; cbn; auto. Qed.

(** What AVX2 and AVX-512 store for the gray z of PQ *)
Definition pq_cell (td : color_transfer) (ps pd : color_primaries) (z : Z) (c : comp) : Z :=
  let d := gray_value avx_lane TBT2100PQ z in
  quantise (quant_of AVX2) RGBA (oetf avx_lane td (component_of c (from_xyz pd (to_xyz ps (d, d, d))))).
(** A check of all of them, computing what they share only once *)
Definition f32_eq_dec : forall a b : f32, {a = b} + {a <> b}.
Proof. repeat decide equality. Defined.
Definition lights (ok : color_primaries -> color_primaries -> bool) (z : Z) : list f32 :=
  let d := gray_value avx_lane TBT2100PQ z in
  flat_map (fun ps => let t := to_xyz ps (d, d, d) in
    flat_map (fun pd => if ok ps pd then let q := from_xyz pd t in map (fun c => component_of c q) [CR; CG; CB] else []) prims) prims.
Definition check_cells (td : color_transfer) (ok : color_primaries -> color_primaries -> bool) (P : Z -> Z -> bool) (z : Z) : bool :=
  forallb (fun v => P z (quantise (quant_of AVX2) RGBA (oetf avx_lane td v))) (nodup f32_eq_dec (lights ok z)).

Definition levels256 : list Z := map Z.of_nat (seq 0 256).
Lemma levels256_all : forall z, (0 <= z <= 255)%Z -> In z levels256.
Proof. intros z Z0. apply in_map_iff. exists (Z.to_nat z). split; [lia|]. apply in_seq. lia. Qed.

Lemma check_cells_sound : forall td ok P, forallb (check_cells td ok P) levels256 = true ->
  forall ps pd z c, ok ps pd = true -> (0 <= z <= 255)%Z -> In c [CR; CG; CB] -> P z (pq_cell td ps pd z c) = true.
Proof.
  intros td ok P H ps pd z c O Z HC. rewrite forallb_forall in H. specialize (H z (levels256_all z Z)). unfold check_cells in H.
  rewrite forallb_forall in H. apply (H (component_of c (from_xyz pd (to_xyz ps (gray_value avx_lane TBT2100PQ z, gray_value avx_lane TBT2100PQ z, gray_value avx_lane TBT2100PQ z))))).
  apply nodup_In. unfold lights. cbv zeta. apply in_flat_map. exists ps. split; [apply prims_all|].
  apply in_flat_map. exists pd. split; [apply prims_all|]. rewrite O. apply in_map_iff. exists c. split; [reflexivity|exact HC].
Qed.

Definition wraps (z v : Z) : bool := (if 39 <=? z then (if z <=? 136 then v =? 255 else v =? 0) else true)%Z.
Lemma linear_cells : forallb (check_cells TLinear (fun _ _ => true) wraps) levels256 = true.
Proof. vm_compute. reflexivity. Qed.

Definition differ (p q : color_primaries) : bool := match p, q with PrST240M, PrST240M | PrBT709, PrBT709 | PrBT2020, PrBT2020 => false | _, _ => true end.
Lemma pq_cells : forallb (check_cells TBT2100PQ differ Z.eqb) levels256 = true.
Proof. vm_compute. reflexivity. Qed.

Lemma avx2_is : forall sp sl, lane_of (libm_of sp sl) AVX2 = avx_lane.
Proof. intros. unfold avx_lane, lane_of. cbv beta iota delta [vi_lane impl_of avx2_impl avx2_lane lm_pow lm_ln libm_of]. reflexivity. Qed.
Lemma avx512_is : forall sp sl, lane_of (libm_of sp sl) AVX512 = avx_lane.
Proof. intros. unfold avx_lane, lane_of. cbv beta iota delta [vi_lane impl_of avx2_impl avx2_lane avx512_impl avx512_lane lm_pow lm_ln libm_of]. reflexivity. Qed.

Lemma avx_cell : forall sp sl b m src sps dst dps,
  converts (libm_of sp sl) b m src sps dst dps -> sampling_of (im_format src) = SRGB -> sampling_of (im_format dst) = SRGB ->
  same_light (im_color src) (im_color dst) = false -> ci_transfer (im_color src) = TBT2100PQ ->
  forall c x y z, In c [CR; CG; CB] -> in_image dst x y -> gray m src sps x y z -> avx_backend (column_backend b (im_width dst) x) ->
  stored (libm_of sp sl) b m src dst dps c x y = Some (pq_cell (ci_transfer (im_color dst)) (ci_primaries (im_color src)) (ci_primaries (im_color dst)) z c).
Proof.
  intros sp sl b m src sps dst dps CV FS FD SL TS c x y z HC HI G AB.
  rewrite (gray_stored _ _ _ _ _ _ _ CV FS FD SL c x y z HC HI G). f_equal. rewrite TS. unfold pq_cell.
  assert (QF : forall v, quantise (quant_of AVX2) (im_format dst) v = quantise (quant_of AVX2) RGBA v /\ quantise (quant_of AVX512) (im_format dst) v = quantise (quant_of AVX2) RGBA v)
    by (intros v; destruct (im_format dst); try discriminate FD; split; reflexivity).
  rewrite <- (avx2_is sp sl). pose proof (avx512_is sp sl) as L5. rewrite <- (avx2_is sp sl) in L5.
  destruct AB as [-> | ->]; [rewrite (proj1 (QF _))|rewrite (proj2 (QF _)), L5]; reflexivity.
Qed.

(** Converting PQ to linear light on AVX2 and AVX-512: gray levels 39 to 136
    become white, and the brighter ones, from 137 (129 cd/m2) on, black; NEON
    and scalar code store 255 for them *)
Theorem C66_pq_linear_refuted : forall sp sl b m src sps dst dps,
  converts (libm_of sp sl) b m src sps dst dps -> bytes_ok m ->
  sampling_of (im_format src) = SRGB -> sampling_of (im_format dst) = SRGB ->
  ci_transfer (im_color src) = TBT2100PQ -> ci_transfer (im_color dst) = TLinear ->
  forall c x y z, In c [CR; CG; CB] -> in_image dst x y -> gray m src sps x y z -> avx_backend (column_backend b (im_width dst) x) ->
  ((39 <= z <= 136)%Z -> stored (libm_of sp sl) b m src dst dps c x y = Some 255%Z) /\
  ((137 <= z)%Z -> stored (libm_of sp sl) b m src dst dps c x y = Some 0%Z).
Proof.
  intros sp sl b m src sps dst dps CV B FS FD TS TD c x y z HC HI G AB.
  pose proof (gray_level _ _ _ _ _ _ B FS G) as ZB.
  assert (SL : same_light (im_color src) (im_color dst) = false) by (unfold same_light; rewrite TS, TD; reflexivity).
  rewrite (avx_cell _ _ _ _ _ _ _ _ CV FS FD SL TS c x y z HC HI G AB), TD.
  pose proof (check_cells_sound _ _ _ linear_cells (ci_primaries (im_color src)) (ci_primaries (im_color dst)) z c eq_refl ZB HC) as LC. unfold wraps in LC.
  set (v := pq_cell _ _ _ _ _) in *. clearbody v.
  split; intros Z; f_equal; destruct (Z.leb_spec 39 z); try lia; destruct (Z.leb_spec z 136); try lia; apply Z.eqb_eq in LC; exact LC.
Qed.
Print Assumptions C66_pq_linear_refuted.

(** Between PQ images with different primaries AVX2 and AVX-512 keep every
    gray exactly *)
Theorem C66_pq_gray : forall sp sl b m src sps dst dps,
  converts (libm_of sp sl) b m src sps dst dps -> bytes_ok m ->
  sampling_of (im_format src) = SRGB -> sampling_of (im_format dst) = SRGB ->
  ci_transfer (im_color src) = TBT2100PQ -> ci_transfer (im_color dst) = TBT2100PQ -> ci_primaries (im_color src) <> ci_primaries (im_color dst) ->
  forall c x y z, In c [CR; CG; CB] -> in_image dst x y -> gray m src sps x y z -> avx_backend (column_backend b (im_width dst) x) ->
  stored (libm_of sp sl) b m src dst dps c x y = Some z.
Proof.
  intros sp sl b m src sps dst dps CV B FS FD TS TD PP c x y z HC HI G AB.
  pose proof (gray_level _ _ _ _ _ _ B FS G) as ZB.
  assert (SL : same_light (im_color src) (im_color dst) = false).
  { unfold same_light. rewrite TS, TD. destruct (ci_primaries (im_color src)), (ci_primaries (im_color dst)); try reflexivity; congruence. }
  rewrite (avx_cell _ _ _ _ _ _ _ _ CV FS FD SL TS c x y z HC HI G AB), TD. f_equal.
  assert (O : differ (ci_primaries (im_color src)) (ci_primaries (im_color dst)) = true) by (destruct (ci_primaries (im_color src)), (ci_primaries (im_color dst)); try reflexivity; congruence).
  pose proof (check_cells_sound _ _ _ pq_cells _ _ z c O ZB HC) as LC. apply Z.eqb_eq in LC. symmetry. exact LC.
Qed.
Print Assumptions C66_pq_gray.

(** Wide enough for two AVX2 vectors: two rows of 16 pixels *)
Definition wide_planes (b : nat) : list (slice * nat) := [(Slice b 0 128, 64)]%nat.
Definition wide (t : color_transfer) (p : color_primaries) (b : nat) : image := ex_image RGBA 16 2 (CRGB t p) (wide_planes b).
Definition row_mem : mem := fun b i => Z.of_nat (i mod 64 / 4 * 13).
Example C66_pq_linear_example :
  let lm := libm_of avx_pow avx_log in let src := wide TBT2100PQ PrBT2020 0 in let dst := wide TLinear PrBT709 1 in let pq := wide TBT2100PQ PrBT709 1 in
  converts lm AVX2 row_mem src (wide_planes 0) dst (wide_planes 1) /\ converts lm AVX2 row_mem src (wide_planes 0) pq (wide_planes 1) /\ bytes_ok row_mem /\
  Forall (fun x => column_backend AVX2 16 x = AVX2) [0; 10; 15]%nat /\
  gray row_mem src (wide_planes 0) 10 1 130 /\ gray row_mem src (wide_planes 0) 15 1 195 /\
  stored lm AVX2 row_mem src dst (wide_planes 1) CG 10 1 = Some 255%Z /\ stored lm AVX2 row_mem src dst (wide_planes 1) CG 15 1 = Some 0%Z /\
  stored lm AVX2 row_mem src pq (wide_planes 1) CG 15 1 = Some 195%Z.
Proof.
  cbv zeta. assert (B : bytes_ok row_mem) by (intros a i; unfold row_mem; pose proof (Nat.mod_upper_bound i 64); pose proof (Nat.div_lt_upper_bound (i mod 64) 4 16); lia).
  assert (C1 : converts (libm_of avx_pow avx_log) AVX2 row_mem (wide TBT2100PQ PrBT2020 0) (wide_planes 0) (wide TLinear PrBT709 1) (wide_planes 1)) by ex_converts AVX2.
  assert (C2 : converts (libm_of avx_pow avx_log) AVX2 row_mem (wide TBT2100PQ PrBT2020 0) (wide_planes 0) (wide TBT2100PQ PrBT709 1) (wide_planes 1)) by ex_converts AVX2.
  assert (G1 : gray row_mem (wide TBT2100PQ PrBT2020 0) (wide_planes 0) 10 1 130) by (repeat split; reflexivity).
  assert (G2 : gray row_mem (wide TBT2100PQ PrBT2020 0) (wide_planes 0) 15 1 195) by (repeat split; reflexivity).
  split; [exact C1|]. split; [exact C2|]. split; [exact B|]. split; [repeat constructor|]. split; [exact G1|]. split; [exact G2|].
  split; [|split].
  - apply (C66_pq_linear_refuted _ _ _ _ _ _ _ _ C1 B eq_refl eq_refl eq_refl eq_refl CG 10%nat 1%nat 130); [cbn; auto|split; cbn; lia|exact G1|left; reflexivity|lia].
  - apply (C66_pq_linear_refuted _ _ _ _ _ _ _ _ C1 B eq_refl eq_refl eq_refl eq_refl CG 15%nat 1%nat 195); [cbn; auto|split; cbn; lia|exact G2|left; reflexivity|lia].
  - apply (C66_pq_gray _ _ _ _ _ _ _ _ C2 B eq_refl eq_refl eq_refl eq_refl ltac:(discriminate) CG 15%nat 1%nat 195); [cbn; auto|split; cbn; lia|exact G2|left; reflexivity].
Qed.

(** * White is not always neutral *)

(** NEON and scalar code, which truncate, store (255, 254, 255) for white when
    converting linear light from BT.709 to BT.2020 primaries: the matrices'
    product has rows that do not add up to exactly one *)
Theorem C66_white_neutral_refuted : forall lm b m src sps dst dps,
  converts lm b m src sps dst dps -> sampling_of (im_format src) = SRGB -> sampling_of (im_format dst) = SRGB ->
  ci_transfer (im_color src) = TLinear -> ci_transfer (im_color dst) = TLinear ->
  ci_primaries (im_color src) = PrBT709 -> ci_primaries (im_color dst) = PrBT2020 ->
  forall x y, in_image dst x y -> gray m src sps x y 255 ->
  column_backend b (im_width dst) x = Scalar \/ column_backend b (im_width dst) x = NEON ->
  stored lm b m src dst dps CR x y = Some 255%Z /\ stored lm b m src dst dps CG x y = Some 254%Z /\ stored lm b m src dst dps CB x y = Some 255%Z.
Proof.
  intros lm b m src sps dst dps CV FS FD TS TD PS PD x y HI G CB.
  assert (SL : same_light (im_color src) (im_color dst) = false) by (unfold same_light; rewrite TS, TD, PS, PD; reflexivity).
  pose proof (fun c HC => gray_stored _ _ _ _ _ _ _ CV FS FD SL c x y 255 HC HI G) as ST. cbv zeta in ST. rewrite TS, TD, PS, PD in ST.
  rewrite (ST CR), (ST CG), (ST SpecGeom.CB) by (cbn; auto).
  assert (QF : forall v, quantise (quant_of Scalar) (im_format dst) v = quantise (quant_of Scalar) RGBA v /\ quantise (quant_of NEON) (im_format dst) v = quantise (quant_of NEON) RGBA v)
    by (intros v; destruct (im_format dst); try discriminate FD; split; reflexivity).
  destruct CB as [-> | ->]; rewrite ?(proj1 (QF _)), ?(proj2 (QF _)); vm_compute; auto.
Qed.
Print Assumptions C66_white_neutral_refuted.
