(** C75: what convert does to images in BT.2020. *)

From Coq Require Import List ZArith Bool Arith Reals Lia Lra Psatz.
From Flocq Require Import Core.
From Verif Require Import Base Types Planes ImageM F32 Vector Simd SpecVector SimdProofs QuantProofs SpecGeom GeomProofs
  SpecColor SpecConvert SpecRun Formats Visit Convert VisitProofs ColorProofs ConvertProofs ExactProofs PropConvert PropFidelity
  SpecReal FloatProofs AccProofs TargetProofs PropColor PropRound.
Import ListNotations.
Local Open Scope R_scope.

(** The code takes 0.322 for the weight of green.  BT.2020 says 0.678 = 1 - 0.2627 - 0.0593. *)
Definition code_weight : R := 322 / 1000.

(** ** Encoding *)

(** Scaling green by 0.322 / 0.678 *)
Definition dark (g : R) : R := code_weight / w_g bt2020 * g.

Lemma encoder_2020 : forall L i, yc_space i = SpBT2020 ->
  encoder L i (fun r g b => luma bt2020 r (dark g) b) (fun r g b => cb bt2020 r (dark g) b) (fun r g b => cr bt2020 r (dark g) b).
Proof.
  intros L i S. unfold dark, code_weight. split; [|split].
  - intros p e r g b E ((PR & PG & PB) & BR & BG & BB). cbv zeta. unfold rgb_yuv. rewrite S.
    rewrite <- (triple_eta (fst p)). set (pr := fst3 (fst p)) in *. set (pg := snd3 (fst p)) in *. set (pb := thd3 (fst p)) in *.
    clearbody pr pg pb. unfold weights_to_yuv, luma_weights, fst3, snd3, thd3; cbn [fst snd]. split; [|split].
    + eapply approx_le; [eapply approx_eq; [eapply (acc_dot _ _ _ (2627 / 10000) (322 / 1000) (593 / 10000) pr pg pb r g b e (2627 / 10000) (322 / 1000) (593 / 10000));
        try assumption; try (unfold u7; const_approx); try (apply abs_bound; lra); lra|unfold_k; field]|unfold u7; lra].
    + eapply approx_le; [eapply approx_eq; [eapply (acc_dot _ _ _ (- (2627 / 18814)) (- (3220 / 18814)) (1 / 2) pr pg pb r g b e (140 / 1000) (172 / 1000) (1 / 2));
        try assumption; try (unfold u7; const_approx); try (apply abs_bound; lra); lra|unfold_k; field]|unfold u7; lra].
    + eapply approx_le; [eapply approx_eq; [eapply (acc_dot _ _ _ (1 / 2) (- (3220 / 14746)) (- (593 / 14746)) pr pg pb r g b e (1 / 2) (219 / 1000) (41 / 1000));
        try assumption; try (unfold u7; const_approx); try (apply abs_bound; lra); lra|unfold_k; field]|unfold u7; lra].
  - intros r g b R G B. apply Rabs_le_inv in R, G, B. unfold_k; (split; [|split]); apply Rabs_le; lra.
  - intros. unfold_k. split; field.
Qed.

(** RGB to BT.2020: what is stored is the image with green scaled by 0.322 / 0.678,
    for every color, format, range and back end; up to 1/80000 of full scale *)
Theorem C75_encode : forall lm b m src sps dst dps i,
  converts lm b m src sps dst dps -> bytes_ok m ->
  sampling_of (im_format src) = SRGB -> sampling_of (im_format dst) <> SRGB ->
  im_color dst = CYUV i -> yc_space i = SpBT2020 -> same_light (im_color src) (im_color dst) = true ->
  let sample c x y := level m (im_format src) sps c x y / 255 in
  let M := IZR (max_level (im_format dst)) in
  forall c x y, has_comp (im_format dst) c = true -> in_image dst x y ->
  exists z, stored lm b m src dst dps c x y = Some z /\
    stored_for (column_backend b (im_width dst) x) (M / 80000)
      (ideal_level bt2020 (yc_full_range i) (im_format dst) (sample CR) (fun x y => 322 / 678 * sample CG x y) (sample CB) c x y) z /\
    (0 <= z <= max_level (im_format dst))%Z.
Proof.
  intros lm b m src sps dst dps i CV BM SS SD CI S20 SL sample M c x y HC HI.
  pose proof (converts_convertible _ _ _ _ _ _ _ CV) as CT.
  assert (VS : valid_image src sps) by apply CV.
  assert (SK : same_image_kind src dst = false).
  { unfold same_image_kind. apply andb_false_iff; left. destruct (im_format src), (im_format dst); try reflexivity; cbn in SS, SD; congruence. }
  assert (II : forall x y, in_image dst x y -> in_image src x y).
  { intros x' y' (A & B). unfold in_image. rewrite (cv_width _ _ _ _ CT), (cv_height _ _ _ _ CT). auto. }
  assert (UN : forall c x y, has_comp (im_format src) c = true -> in_image dst x y -> 0 <= sample c x y <= 1).
  { intros c' x' y' HC' HI'. unfold sample.
    assert (M255 : max_level (im_format src) = 255%Z) by (destruct (im_format src); try discriminate SS; reflexivity).
    pose proof (norm_acc m src sps c' x' y' VS) as A. rewrite M255 in A. apply A; auto.
    apply bytes_levels; [exact BM|]. destruct (im_format src); try discriminate SS; reflexivity. }
  assert (HCS : forall c, c = CR \/ c = CG \/ c = CB -> has_comp (im_format src) c = true)
    by (intros c' [-> |[-> | ->]]; unfold has_comp; rewrite SS; reflexivity).
  set (dg := fun x y => 322 / 678 * sample CG x y).
  assert (RG : let t := ideal_level bt2020 (yc_full_range i) (im_format dst) (sample CR) dg (sample CB) c x y in 0 <= t <= M).
  { cbv zeta. pose proof (ideal_range3 bt2020 (yc_full_range i) (im_format dst) (sample CR) dg (sample CB) c x y (or_intror (or_intror eq_refl))) as A.
    cbv zeta in A. pose proof (range_levels c (yc_full_range i) M ltac:(apply max_level_R)) as A2. cbv zeta in A2. fold M in A.
    enough (P : forall p, In p ((x, y) :: chroma_block (sampling_of (im_format dst)) x y) ->
      0 <= sample CR (fst p) (snd p) <= 1 /\ 0 <= dg (fst p) (snd p) <= 1 /\ 0 <= sample CB (fst p) (snd p) <= 1) by (specialize (A P); lra).
    intros p HP. assert (HI' : in_image dst (fst p) (snd p)) by (eapply block_in_image; [apply CT|apply CT|exact HI|exact HP]).
    pose proof (UN CG _ _ (HCS _ ltac:(auto)) HI'). unfold dg.
    split; [|split]; try (apply UN; auto; apply HCS; auto). lra. }
  cbv zeta in RG.
  assert (TM : M <= IZR (top (im_format dst))) by (apply IZR_le, top_max).
  pose proof (to_yuv_acc_by lm b m src sps dst dps i _ _ _ (sample CR) (sample CG) (sample CB) u7 CV (conj SK SL) SD CI
    ltac:(rewrite S20; reflexivity) (fun L => encoder_2020 L i S20) ltac:(unfold u7; lra)
    (fun L x y H => rgb_source_acc L m src sps x y VS BM SS (II x y H)) c x y HC HI) as R. cbv zeta in R.
  assert (ET : level_by (fun r g b => luma bt2020 r (dark g) b) (fun r g b => cb bt2020 r (dark g) b) (fun r g b => cr bt2020 r (dark g) b)
    (yc_full_range i) (im_format dst) (sample CR) (sample CG) (sample CB) c x y
    = ideal_level bt2020 (yc_full_range i) (im_format dst) (sample CR) dg (sample CB) c x y).
  { unfold level_by, ideal_level. cbv zeta.
    assert (DK : forall g, dark g = 322 / 678 * g) by (intros; unfold dark, code_weight, w_g, bt2020; cbn [w_r w_b]; field).
    assert (CM : chroma_mean (sampling_of (im_format dst)) dg x y = dark (chroma_mean (sampling_of (im_format dst)) (sample CG) x y)).
    { rewrite DK. unfold dg, chroma_mean, mean. destruct (sampling_of (im_format dst)); unfold chroma_block; cbn [map fold_right length fst snd]; simpl INR; field. }
    rewrite CM. destruct c; rewrite ?DK; reflexivity. }
  rewrite ET in R. set (t := ideal_level _ _ _ _ _ _ _ _ _) in *.
  destruct R as (z & ST & SF & Z0); [lra|].
  fold M in SF. rewrite clamp_id in SF by lra.
  pose proof (max_level_R (im_format dst)) as MR. fold M in MR.
  assert (SF' : stored_for (column_backend b (im_width dst) x) (M / 80000) t z).
  { eapply stored_for_weaken; [exact SF|]. unfold u7. lra. }
  exists z. split; [exact ST|split; [exact SF'|]]. split; [exact Z0|].
  assert (ZM : IZR z < M + 1).
  { destruct (column_backend b (im_width dst) x); cbn [stored_for] in SF'; unfold truncated, rounded in SF'; try lra; apply Rabs_le_inv in SF'; lra. }
  unfold M in ZM. rewrite <- plus_IZR in ZM. apply lt_IZR in ZM. lia.
Qed.
Print Assumptions C75_encode.

(** ** Decoding *)

(** Green is moved away from luma by the factor 0.678 / 0.322 *)
Definition bright (y g : R) : R := y + w_g bt2020 / code_weight * (g - y).

Lemma decoder_2020 : forall i, yc_space i = SpBT2020 ->
  decoder i (red bt2020) (fun y u v => bright y (green bt2020 y u v)) (blue bt2020).
Proof.
  intros i S. unfold bright, code_weight. split.
  - intros y u v vy vu vv e HY HU HV VY VU VV E rgb.
    assert (R : forall c C, approx c C u7 -> Rabs C <= 2 -> forall t vt, approx t vt e -> Rabs vt <= 1 ->
      approx (f32_add y (f32_mul t c)) (vy + vt * C) (3 * e + 40 * u7)).
    { intros c C HC BC t vt HT BT. pose proof (acc_mulc t vt e c C 2 HT ltac:(lra) HC BC ltac:(lra) ltac:(lra)) as P.
      assert (T : Rabs (vt * C) <= 2) by (rewrite Rabs_mult; replace 2 with (1 * 2) by lra; apply Rmult_le_compat; try apply Rabs_pos; assumption).
      unfold u7 in *. eapply approx_le; [eapply (approx_add _ _ _ _ _ _ 7 HY P); [|lra]|unfold half_ulp; lra].
      pose proof (Rabs_triang vy (vt * C)). lra. }
    assert (G : forall c C d D, approx c C (4 * u7) -> Rabs C <= 5 / 4 -> approx d D u7 -> Rabs D <= 3 / 4 ->
      approx (f32_add y (f32_add (f32_mul v c) (f32_mul u d))) (vy + (vv * C + vu * D)) (3 * e + 60 * u7)).
    { intros c C d D HC BC HD BD.
      assert (P1 : approx (f32_mul v c) (vv * C) (5 / 4 * e + 10 * u7)).
      { unfold u7 in *. eapply approx_le; [eapply (approx_mul v vv e c C _ 1 (5 / 4) 2 HV HC VV BC); lra|unfold half_ulp; lra]. }
      pose proof (acc_mulc u vu e d D (3 / 4) HU ltac:(lra) HD BD ltac:(lra) ltac:(lra)) as P2.
      assert (T1 : Rabs (vv * C) <= 5 / 4) by (rewrite Rabs_mult; replace (5 / 4) with (1 * (5 / 4)) by lra; apply Rmult_le_compat; try apply Rabs_pos; assumption).
      assert (T2 : Rabs (vu * D) <= 3 / 4) by (rewrite Rabs_mult; replace (3 / 4) with (1 * (3 / 4)) by lra; apply Rmult_le_compat; try apply Rabs_pos; assumption).
      pose proof (Rabs_triang (vv * C) (vu * D)). pose proof (Rabs_triang vy (vv * C + vu * D)).
      unfold u7 in *.
      pose proof (approx_add _ _ _ _ _ _ 3 P1 P2 ltac:(lra) ltac:(lra)) as P3. unfold half_ulp in P3.
      eapply approx_le; [eapply (approx_add _ _ _ _ _ _ 7 HY P3); [|lra]|unfold half_ulp; lra]. lra. }
    unfold rgb. rewrite S. unfold weights_to_rgb, luma_weights, fst3, snd3, thd3; cbv zeta; cbn [fst snd];
      cbn [fadd fmul f32_ops] in *; (split; [|split]).
    + eapply approx_eq; [eapply (R _ (14746 / 10000)); [unfold u7; const_approx|apply abs_bound; lra|exact HV|exact VV]|unfold_k; field].
    + eapply approx_eq; [eapply (G _ (- (2627 * 14746) / 32200000) _ (- (593 * 18814) / 32200000));
        try (unfold u7; const_approx); apply abs_bound; lra|unfold_k; field].
    + eapply approx_eq; [eapply (R _ (18814 / 10000)); [unfold u7; const_approx|apply abs_bound; lra|exact HU|exact VU]|unfold_k; field].
  - intros L [[y u] v]. unfold yuv_rgb. rewrite S. reflexivity.
Qed.

Lemma bound_2020 : forall vy vu vv, Rabs vy <= 6 / 5 -> Rabs vu <= 3 / 5 -> Rabs vv <= 3 / 5 ->
  Rabs (red bt2020 vy vu vv) <= 3 /\ Rabs (bright vy (green bt2020 vy vu vv)) <= 3 /\ Rabs (blue bt2020 vy vu vv) <= 3.
Proof.
  intros vy vu vv BY BU BV. apply Rabs_le_inv in BY, BU, BV. unfold bright, code_weight.
  unfold_k; (split; [|split]); apply Rabs_le; lra.
Qed.

(** BT.2020 to RGB: red and blue are what BT.2020 says, green is moved away from
    luma by the factor 0.678 / 0.322; up to 1/50000 of full scale *)
Theorem C75_decode : forall lm b m src sps dst dps i,
  converts lm b m src sps dst dps -> levels_ok m src sps ->
  sampling_of (im_format src) <> SRGB -> sampling_of (im_format dst) = SRGB ->
  im_color src = CYUV i -> yc_space i = SpBT2020 -> same_light (im_color src) (im_color dst) = true ->
  forall x y, in_image dst x y ->
  let Y := level_y (yc_full_range i) (IZR (max_level (im_format src))) (level m (im_format src) sps CY x y) in
  let U := level_c (yc_full_range i) (IZR (max_level (im_format src))) (level m (im_format src) sps CU x y) in
  let V := level_c (yc_full_range i) (IZR (max_level (im_format src))) (level m (im_format src) sps CV x y) in
  forall c q, (c = CR /\ q = red bt2020 Y U V) \/ (c = CG /\ q = Y + 678 / 322 * (green bt2020 Y U V - Y)) \/ (c = CB /\ q = blue bt2020 Y U V) ->
  exists z, stored lm b m src dst dps c x y = Some z /\
    stored_for (column_backend b (im_width dst) x) (255 / 50000) (clamp 255 (255 * q)) z /\
    (0 <= z <= 255)%Z.
Proof.
  intros lm b m src sps dst dps i CV LV SS SD CI S20 SL x y HI Y U V c q HQ.
  pose proof (converts_convertible _ _ _ _ _ _ _ CV) as CT.
  assert (VS : valid_image src sps) by apply CV.
  assert (SK : same_image_kind src dst = false).
  { unfold same_image_kind. apply andb_false_iff; left. destruct (im_format src), (im_format dst); try reflexivity; cbn in SS, SD; congruence. }
  assert (II : forall x y, in_image dst x y -> in_image src x y).
  { intros x' y' (A & B). unfold in_image. rewrite (cv_width _ _ _ _ CT), (cv_height _ _ _ _ CT). auto. }
  set (gr := fun x y => bright (y_at m src sps i x y) (green_at bt2020 m src sps i x y)).
  destruct (to_rgb_acc lm b m src sps dst dps (red_at bt2020 m src sps i) gr (blue_at bt2020 m src sps i) (190 * u7)
    CV (conj SK SL) SD ltac:(unfold u7; lra) (fun L x y H => yuv_source_acc_by L m src sps i _ _ _ x y VS LV SS CI (decoder_2020 i S20) bound_2020 (II x y H)) c x y HI
    (match c with CR => red_at bt2020 m src sps i | CG => gr | _ => blue_at bt2020 m src sps i end)) as (z & ST & SF & Z0).
  { destruct HQ as [(-> & _)|[(-> & _)|(-> & _)]]; auto. }
  assert (E : (match c with CR => red_at bt2020 m src sps i | CG => gr | _ => blue_at bt2020 m src sps i end x y) = q).
  { destruct HQ as [(-> & ->)|[(-> & ->)|(-> & ->)]]; [reflexivity| |reflexivity].
    unfold gr, bright, code_weight, green_at, y_at, u_at, v_at. fold Y U V. unfold w_g, bt2020; cbn [w_r w_b]. field. }
  rewrite E in SF. exists z. split; [exact ST|].
  assert (SF' : stored_for (column_backend b (im_width dst) x) (255 / 50000) (clamp 255 (255 * q)) z)
    by (eapply stored_for_weaken; [exact SF|unfold u7; lra]).
  split; [exact SF'|]. split; [exact Z0|].
  assert (ZM : IZR z < 256).
  { destruct (clamp_cases 255 (255 * q)) as [(? & EC)|[(? & EC)|(? & EC)]]; try lra; rewrite EC in SF';
    destruct (column_backend b (im_width dst) x); cbn [stored_for] in SF'; unfold truncated, rounded in SF'; try lra; apply Rabs_le_inv in SF'; lra. }
  apply lt_IZR in ZM. lia.
Qed.
Print Assumptions C75_decode.

(** ** YUV to YUV *)

(** Green as the code reads it, and as it writes it *)
Definition read_green (s : color_space) (k : weights) (y u v : R) : R :=
  match s with SpBT2020 => y + 678 / 322 * (green k y u v - y) | _ => green k y u v end.
Definition written_green (s : color_space) (g : R) : R :=
  match s with SpBT2020 => 322 / 678 * g | _ => g end.

Lemma decoder_any : forall i k, weights_of (yc_space i) = Some k -> decoder i (red k) (read_green (yc_space i) k) (blue k).
Proof.
  intros i k W. assert (D : yc_space i = SpBT2020 \/ yc_space i <> SpBT2020) by (destruct (yc_space i); auto; right; discriminate).
  destruct D as [S|N].
  - rewrite S in *. injection W as <-. destruct (decoder_2020 i S) as (A & B). split; [|exact B].
    intros y u v vy vu vv e HY HU HV VY VU VV E rgb. destruct (A y u v vy vu vv e HY HU HV VY VU VV E) as (X & X' & X'').
    split; [exact X|split; [|exact X'']]. eapply approx_eq; [exact X'|].
    unfold bright, read_green, code_weight, w_g, bt2020; cbn [w_r w_b]. field.
  - pose proof (decoder_known i k (matrix_known _ _ W N)) as A. unfold read_green. destruct (yc_space i); try exact A. congruence.
Qed.

Lemma bound_any : forall s k vy vu vv, weights_of s = Some k -> Rabs vy <= 6 / 5 -> Rabs vu <= 3 / 5 -> Rabs vv <= 3 / 5 ->
  Rabs (red k vy vu vv) <= 3 /\ Rabs (read_green s k vy vu vv) <= 3 /\ Rabs (blue k vy vu vv) <= 3.
Proof.
  intros s k vy vu vv W BY BU BV. apply Rabs_le_inv in BY, BU, BV.
  destruct s; cbn in W; try discriminate W; injection W as <-; unfold read_green; unfold_k; (split; [|split]); apply Rabs_le; lra.
Qed.

Lemma encoder_any : forall L i k, weights_of (yc_space i) = Some k ->
  let w := written_green (yc_space i) in
  encoder L i (fun r g b => luma k r (w g) b) (fun r g b => cb k r (w g) b) (fun r g b => cr k r (w g) b).
Proof.
  intros L i k W w. assert (D : yc_space i = SpBT2020 \/ yc_space i <> SpBT2020) by (destruct (yc_space i); auto; right; discriminate).
  destruct D as [S|N].
  - rewrite S in W. injection W as <-.
    assert (E : forall g, w g = dark g) by (intros; unfold w, written_green; rewrite S; unfold dark, code_weight, w_g, bt2020; cbn [w_r w_b]; field).
    destruct (encoder_2020 L i S) as (A1 & A2 & A3). split; [|split].
    + intros. rewrite E. apply A1; assumption.
    + intros. rewrite E. apply A2; assumption.
    + intros. rewrite !E. apply A3.
  - pose proof (encoder_known L i k (matrix_known _ _ W N)) as A. unfold w, written_green. destruct (yc_space i); try exact A. congruence.
Qed.

(** Converting between YUV images in BT.601, BT.709 or BT.2020: every sample is
    the level of the colors as they are read, with green as it is written; up to
    1/30000 of full scale.  AVX-512 needs the level to be representable. *)
Theorem C75_yuv_to_yuv : forall lm b m src sps dst dps is ks id kd,
  converts lm b m src sps dst dps -> same_image_kind src dst = false -> levels_ok m src sps ->
  sampling_of (im_format src) <> SRGB -> sampling_of (im_format dst) <> SRGB ->
  im_color src = CYUV is -> weights_of (yc_space is) = Some ks ->
  im_color dst = CYUV id -> weights_of (yc_space id) = Some kd ->
  same_light (im_color src) (im_color dst) = true ->
  forall c x y, has_comp (im_format dst) c = true -> in_image dst x y ->
  let g x y := read_green (yc_space is) ks (y_at m src sps is x y) (u_at m src sps is x y) (v_at m src sps is x y) in
  let t := ideal_level kd (yc_full_range id) (im_format dst) (red_at ks m src sps is)
             (fun x y => written_green (yc_space id) (g x y)) (blue_at ks m src sps is) c x y in
  let hi := IZR (if (sample_bytes (im_format dst) =? 2)%nat then 65535 else 255) in
  (column_backend b (im_width dst) x = AVX512 -> 0 <= t <= hi) ->
  exists z, stored lm b m src dst dps c x y = Some z /\
    stored_for (column_backend b (im_width dst) x) (IZR (max_level (im_format dst)) / 30000) (clamp hi t) z.
Proof.
  intros lm b m src sps dst dps is ks id kd CV SK LV SS SD CIS WS CID WD SL c x y HC HI g t hi RG.
  pose proof (converts_convertible _ _ _ _ _ _ _ CV) as CT.
  assert (VS : valid_image src sps) by apply CV.
  assert (II : forall x y, in_image dst x y -> in_image src x y).
  { intros x' y' (A & B). unfold in_image. rewrite (cv_width _ _ _ _ CT), (cv_height _ _ _ _ CT). auto. }
  pose proof (to_yuv_acc_by lm b m src sps dst dps id _ _ _ (red_at ks m src sps is) g (blue_at ks m src sps is) (190 * u7)
    CV (conj SK SL) SD CID ltac:(destruct (yc_space id); try reflexivity; discriminate WD) (fun L => encoder_any L id kd WD) ltac:(unfold u7; lra)
    (fun L x y H => yuv_source_acc_by L m src sps is _ _ _ x y VS LV SS CIS (decoder_any is ks WS)
       (fun vy vu vv => bound_any (yc_space is) ks vy vu vv WS) (II x y H)) c x y HC HI) as R.
  cbv zeta in R.
  assert (ET : level_by (fun r g b => luma kd r (written_green (yc_space id) g) b) (fun r g b => cb kd r (written_green (yc_space id) g) b)
    (fun r g b => cr kd r (written_green (yc_space id) g) b) (yc_full_range id) (im_format dst) (red_at ks m src sps is) g (blue_at ks m src sps is) c x y = t).
  { unfold level_by, t, ideal_level. cbv zeta.
    assert (CM : chroma_mean (sampling_of (im_format dst)) (fun x y => written_green (yc_space id) (g x y)) x y
      = written_green (yc_space id) (chroma_mean (sampling_of (im_format dst)) g x y)).
    { unfold written_green. destruct (yc_space id); try reflexivity.
      unfold chroma_mean, mean. destruct (sampling_of (im_format dst)); unfold chroma_block; cbn [map fold_right length fst snd]; simpl INR; field. }
    rewrite CM. destruct c; reflexivity. }
  rewrite ET in R. clearbody t.
  destruct R as (z & ST & SF & _).
  { intros A. specialize (RG A). unfold hi in RG. fold (top (im_format dst)) in RG. lra. }
  exists z. split; [exact ST|]. eapply stored_for_weaken; [exact SF|].
  pose proof (max_level_R (im_format dst)). unfold u7. lra.
Qed.
Print Assumptions C75_yuv_to_yuv.

(** So a change of the memory layout or the range alone, between images that are
    both in BT.2020, scales luma by 0.644 and adds color to gray *)
Theorem C75_relayout_refuted : forall lm b m src sps dst dps is id,
  converts lm b m src sps dst dps -> same_image_kind src dst = false -> levels_ok m src sps ->
  sampling_of (im_format src) <> SRGB -> sampling_of (im_format dst) <> SRGB ->
  im_color src = CYUV is -> yc_space is = SpBT2020 -> im_color dst = CYUV id -> yc_space id = SpBT2020 ->
  same_light (im_color src) (im_color dst) = true ->
  forall c x y, has_comp (im_format dst) c = true -> in_image dst x y ->
  let M := IZR (max_level (im_format dst)) in
  let avg q := chroma_mean (sampling_of (im_format dst)) (q m src sps is) x y in
  let t := match c with
           | CU => c_level (yc_full_range id) M (avg u_at + 3560 / 18814 * avg y_at)
           | CV => c_level (yc_full_range id) M (avg v_at + 3560 / 14746 * avg y_at)
           | _ => y_level (yc_full_range id) M (644 / 1000 * y_at m src sps is x y)
           end in
  let hi := IZR (if (sample_bytes (im_format dst) =? 2)%nat then 65535 else 255) in
  (column_backend b (im_width dst) x = AVX512 -> 0 <= t <= hi) ->
  exists z, stored lm b m src dst dps c x y = Some z /\
    stored_for (column_backend b (im_width dst) x) (M / 30000) (clamp hi t) z.
Proof.
  intros lm b m src sps dst dps is id CVT SK LV SS SD CIS S1 CID S2 SL c x y HC HI M avg t hi RG.
  pose proof (C75_yuv_to_yuv lm b m src sps dst dps is bt2020 id bt2020 CVT SK LV SS SD CIS ltac:(rewrite S1; reflexivity) CID ltac:(rewrite S2; reflexivity)
    SL c x y HC HI) as R. cbv zeta in R. rewrite S1, S2 in R. unfold read_green, written_green in R. fold hi M in R.
  assert (ET : ideal_level bt2020 (yc_full_range id) (im_format dst) (red_at bt2020 m src sps is)
     (fun x y => 322 / 678 * (y_at m src sps is x y + 678 / 322 * (green bt2020 (y_at m src sps is x y) (u_at m src sps is x y) (v_at m src sps is x y) - y_at m src sps is x y)))
     (blue_at bt2020 m src sps is) c x y = t).
  { unfold ideal_level. fold M. unfold t, avg, red_at, blue_at.
    destruct c; try discriminate HC; try (f_equal; unfold_k; field);
      unfold chroma_mean, mean; destruct (sampling_of (im_format dst)); unfold chroma_block; cbn [map fold_right length fst snd];
      simpl INR; f_equal; unfold_k; field. }
  rewrite ET in R. exact (R RG).
Qed.
Print Assumptions C75_relayout_refuted.

(** ** Gray *)

Lemma level_is : forall m im ps c x y z, given m im ps c x y = Some z -> level m (im_format im) ps c x y = IZR z.
Proof. intros m im ps c x y z G. unfold level. unfold given in G. rewrite G. reflexivity. Qed.

(** Gray is read correctly: 8 bits per sample, limited range, chroma 128 *)
Theorem C75_gray_read : forall lm b m src sps dst dps i,
  converts lm b m src sps dst dps -> bytes_ok m -> sample_bytes (im_format src) = 1%nat ->
  sampling_of (im_format src) <> SRGB -> sampling_of (im_format dst) = SRGB ->
  im_color src = CYUV i -> yc_space i = SpBT2020 -> yc_full_range i = false -> same_light (im_color src) (im_color dst) = true ->
  forall c x y l, c = CR \/ c = CG \/ c = CB -> in_image dst x y ->
  given m src sps CY x y = Some l -> given m src sps CU x y = Some 128%Z -> given m src sps CV x y = Some 128%Z ->
  exists z, stored lm b m src dst dps c x y = Some z /\
    stored_for (column_backend b (im_width dst) x) (255 / 50000) (clamp 255 (255 * ((IZR l - 16) / 219))) z.
Proof.
  intros lm b m src sps dst dps i CVT BM S1 SS SD CI S20 FR SL c x y l HC HI GY GU GV.
  assert (M : max_level (im_format src) = 255%Z) by (destruct (im_format src); try discriminate S1; reflexivity).
  pose proof (C75_decode lm b m src sps dst dps i CVT (bytes_levels _ _ _ BM S1) SS SD CI S20 SL x y HI) as R. cbv zeta in R.
  rewrite FR, M, (level_is _ _ _ _ _ _ _ GY), (level_is _ _ _ _ _ _ _ GU), (level_is _ _ _ _ _ _ _ GV) in R. unfold level_y, level_c in R.
  assert (EQ : forall q, q = (IZR l - 16) / 219 -> (exists z, stored lm b m src dst dps c x y = Some z /\
     stored_for (column_backend b (im_width dst) x) (255 / 50000) (clamp 255 (255 * q)) z /\ (0 <= z <= 255)%Z) ->
    exists z, stored lm b m src dst dps c x y = Some z /\
     stored_for (column_backend b (im_width dst) x) (255 / 50000) (clamp 255 (255 * ((IZR l - 16) / 219))) z).
  { intros q -> (z & A & B & _). eauto. }
  destruct HC as [-> |[-> | ->]]; eapply EQ.
  2: apply R; left; split; reflexivity. 3: apply R; right; left; split; reflexivity. 4: apply R; right; right; split; reflexivity.
  all: unfold_k; field.
Qed.
Print Assumptions C75_gray_read.

(** Where all pixels of a chroma sample have the same color *)
Lemma encode_flat : forall lm b m src sps dst dps i,
  converts lm b m src sps dst dps -> bytes_ok m ->
  sampling_of (im_format src) = SRGB -> sampling_of (im_format dst) <> SRGB ->
  im_color dst = CYUV i -> yc_space i = SpBT2020 -> same_light (im_color src) (im_color dst) = true ->
  forall c x y vr vg vb, has_comp (im_format dst) c = true -> in_image dst x y ->
  flat_block m src sps (sampling_of (im_format dst)) x y ->
  given m src sps CR x y = Some vr -> given m src sps CG x y = Some vg -> given m src sps CB x y = Some vb ->
  let M := IZR (max_level (im_format dst)) in
  let r := IZR vr / 255 in
  let g := 322 / 678 * (IZR vg / 255) in
  let bl := IZR vb / 255 in
  let t := match c with
           | CU => c_level (yc_full_range i) M (cb bt2020 r g bl)
           | CV => c_level (yc_full_range i) M (cr bt2020 r g bl)
           | _ => y_level (yc_full_range i) M (luma bt2020 r g bl)
           end in
  exists z, stored lm b m src dst dps c x y = Some z /\ stored_for (column_backend b (im_width dst) x) (M / 80000) t z /\
    (0 <= z <= max_level (im_format dst))%Z.
Proof.
  intros lm b m src sps dst dps i CVT BM SS SD CI S20 SL c x y vr vg vb HC HI FL GR GG GB M r g bl t.
  destruct (C75_encode lm b m src sps dst dps i CVT BM SS SD CI S20 SL c x y HC HI) as (z & ST & SF & ZR).
  exists z. split; [exact ST|]. split; [|exact ZR]. fold M in SF.
  assert (LV : forall c' p, In p (chroma_block (sampling_of (im_format dst)) x y) ->
    level m (im_format src) sps c' (fst p) (snd p) = level m (im_format src) sps c' x y).
  { intros c' p HP. specialize (FL c' p HP). unfold given in FL. unfold level. rewrite FL. reflexivity. }
  assert (LR := level_is _ _ _ _ _ _ _ GR). assert (LG := level_is _ _ _ _ _ _ _ GG). assert (LB := level_is _ _ _ _ _ _ _ GB).
  unfold ideal_level in SF.
  rewrite (chroma_mean_const _ _ r) in SF by (intros p HP; rewrite (LV CR p HP), LR; reflexivity).
  rewrite (chroma_mean_const _ _ g) in SF by (intros p HP; rewrite (LV CG p HP), LG; reflexivity).
  rewrite (chroma_mean_const _ _ bl) in SF by (intros p HP; rewrite (LV CB p HP), LB; reflexivity).
  rewrite LR, LG, LB in SF. fold M in SF. fold r bl in SF. fold g in SF. unfold t. destruct c; try discriminate HC; exact SF.
Qed.

(** It is not written correctly: a gray of level [v] gets the luma of 0.644 [v]
    and chroma above the middle *)
Theorem C75_gray_written_refuted : forall lm b m src sps dst dps i,
  converts lm b m src sps dst dps -> bytes_ok m ->
  sampling_of (im_format src) = SRGB -> sampling_of (im_format dst) <> SRGB ->
  im_color dst = CYUV i -> yc_space i = SpBT2020 -> same_light (im_color src) (im_color dst) = true ->
  forall c x y v, has_comp (im_format dst) c = true -> in_image dst x y ->
  flat_block m src sps (sampling_of (im_format dst)) x y ->
  given m src sps CR x y = Some v -> given m src sps CG x y = Some v -> given m src sps CB x y = Some v ->
  let M := IZR (max_level (im_format dst)) in
  let w := IZR v / 255 in
  let t := match c with
           | CU => c_level (yc_full_range i) M (3560 / 18814 * w)
           | CV => c_level (yc_full_range i) M (3560 / 14746 * w)
           | _ => y_level (yc_full_range i) M (644 / 1000 * w)
           end in
  exists z, stored lm b m src dst dps c x y = Some z /\ stored_for (column_backend b (im_width dst) x) (M / 80000) t z.
Proof.
  intros lm b m src sps dst dps i CVT BM SS SD CI S20 SL c x y v HC HI FL GR GG GB M w t.
  destruct (encode_flat lm b m src sps dst dps i CVT BM SS SD CI S20 SL c x y v v v HC HI FL GR GG GB) as (z & ST & SF & _).
  exists z. split; [exact ST|]. fold M w in SF.
  assert (E : luma bt2020 w (322 / 678 * w) w = 644 / 1000 * w /\ cb bt2020 w (322 / 678 * w) w = 3560 / 18814 * w /\
              cr bt2020 w (322 / 678 * w) w = 3560 / 14746 * w) by (unfold_k; repeat split; field).
  destruct E as (E1 & E2 & E3). rewrite E1, E2, E3 in SF. exact SF.
Qed.
Print Assumptions C75_gray_written_refuted.

(** ** There and back *)

Lemma trip_real : forall full M r g0 b b1 b2 dy du dv, M = 255 \/ M = 1023 \/ M = 4095 ->
  0 <= r <= 1 -> 0 <= g0 <= 1 -> 0 <= b <= 1 ->
  let g := 322 / 678 * g0 in
  slack b1 (M / 80000) dy -> slack b1 (M / 80000) du -> slack b1 (M / 80000) dv ->
  let Y := level_y full M (y_level full M (luma bt2020 r g b) + dy) in
  let U := level_c full M (c_level full M (cb bt2020 r g b) + du) in
  let V := level_c full M (c_level full M (cr bt2020 r g b) + dv) in
  forall w q, (w = r /\ q = red bt2020 Y U V) \/
    (w = g0 - 356 / 322 * (2627 / 10000 * r + 322 / 1000 * g0 + 593 / 10000 * b) /\ q = Y + 678 / 322 * (green bt2020 Y U V - Y)) \/
    (w = b /\ q = blue bt2020 Y U V) ->
  forall d, slack b2 (255 / 50000) (d - clamp 255 (255 * q)) ->
  Rabs (d - clamp 255 (255 * w)) < 5.
Proof.
  intros full M r g0 b b1 b2 dy du dv MV R G B g SY SU SV Y U V w q Q d D.
  assert (CL : forall a c e, Rabs (a - c) <= e -> Rabs (clamp 255 a - clamp 255 c) <= e).
  { intros a c e H. apply Rabs_le_inv in H. apply Rabs_le.
    destruct (clamp_cases 255 a) as [(? & ->)|[(? & ->)|(? & ->)]]; try lra;
    destruct (clamp_cases 255 c) as [(? & ->)|[(? & ->)|(? & ->)]]; lra. }
  assert (QW : Rabs (255 * q - 255 * w) <= 39 / 10).
  { apply Rabs_le. unfold slack in SY, SU, SV.
    destruct Q as [(-> & ->)|[(-> & ->)|(-> & ->)]]; unfold Y, U, V, g, level_y, level_c, y_level, c_level; unfold_k;
      destruct MV as [-> |[-> | ->]]; destruct full; destruct (rounds b1); lra. }
  apply CL in QW. apply Rabs_le_inv in QW. unfold slack in D. apply Rabs_def1; destruct (rounds b2); lra.
Qed.

(** RGB to BT.2020 and back, for every color: red and blue return with an error
    below 5 levels; green loses 356/322 of the (wrong) luma.  White, (255, 255, 255),
    returns as (255, 73, 255). *)
Theorem C75_round_trip_refuted : forall lm1 b1 lm2 b2 m src sps mid mps dst dps i,
  converts lm1 b1 m src sps mid mps ->
  let m' := apply_all m (fst (convert lm1 b1 m src mid)) in
  converts lm2 b2 m' mid mps dst dps -> bytes_ok m ->
  sampling_of (im_format src) = SRGB -> sampling_of (im_format mid) <> SRGB -> sampling_of (im_format dst) = SRGB ->
  im_color mid = CYUV i -> yc_space i = SpBT2020 ->
  same_light (im_color src) (im_color mid) = true -> same_light (im_color mid) (im_color dst) = true ->
  forall x y zr zg zb, in_image dst x y -> flat_block m src sps (sampling_of (im_format mid)) x y ->
  given m src sps CR x y = Some zr -> given m src sps CG x y = Some zg -> given m src sps CB x y = Some zb ->
  exists zr' zg' zb',
    stored lm2 b2 m' mid dst dps CR x y = Some zr' /\ stored lm2 b2 m' mid dst dps CG x y = Some zg' /\
    stored lm2 b2 m' mid dst dps CB x y = Some zb' /\
    Rabs (IZR zr' - IZR zr) < 5 /\ Rabs (IZR zb' - IZR zb) < 5 /\
    Rabs (IZR zg' - clamp 255 (IZR zg - 356 / 322 * (2627 / 10000 * IZR zr + 322 / 1000 * IZR zg + 593 / 10000 * IZR zb))) < 5.
Proof.
  intros lm1 b1 lm2 b2 m src sps mid mps dst dps i C1 m' C2 BM SS SM SD CI S20 SL1 SL2 x y zr zg zb HI FL GR GG GB.
  pose proof (converts_convertible _ _ _ _ _ _ _ C1) as T1. pose proof (converts_convertible _ _ _ _ _ _ _ C2) as T2.
  assert (HM : forall x y, in_image dst x y <-> in_image mid x y).
  { intros x' y'. unfold in_image. rewrite (cv_width _ _ _ _ T2), (cv_height _ _ _ _ T2). tauto. }
  assert (HCM : forall c x y, given m' mid mps c x y <> None -> has_comp (im_format mid) c = true).
  { intros c' x' y'. unfold given, component. destruct (im_format mid), c'; cbn; congruence. }
  assert (LV : levels_ok m' mid mps).
  { intros c' x' y' z' HI' G'.
    destruct (C75_encode lm1 b1 m src sps mid mps i C1 BM SS SM CI S20 SL1 c' x' y') as (z'' & ST & _ & R);
      [eapply HCM; rewrite G'; discriminate|exact HI'|].
    unfold stored in ST. unfold given in G'. fold m' in ST. rewrite ST in G'. injection G' as <-. exact R. }
  assert (HC' : forall c, c = CY \/ c = CU \/ c = CV -> has_comp (im_format mid) c = true)
    by (intros c' [-> |[-> | ->]]; unfold has_comp; destruct (sampling_of (im_format mid)); congruence).
  assert (BY : forall c z, given m src sps c x y = Some z -> 0 <= IZR z / 255 <= 1).
  { intros c z G. pose proof (given_range _ _ _ _ _ _ _ BM G) as R.
    assert (Z1 : sample_bytes (im_format src) = 1%nat) by (destruct (im_format src); try discriminate SS; reflexivity).
    rewrite Z1 in R. cbn in R. assert (0 <= IZR z <= 255) by (split; apply IZR_le; lia). lra. }
  assert (HI' : in_image mid x y) by (apply HM, HI).
  pose proof (fun c H => encode_flat lm1 b1 m src sps mid mps i C1 BM SS SM CI S20 SL1 c x y zr zg zb (HC' c H) HI' FL GR GG GB) as A1.
  destruct (A1 CY ltac:(auto)) as (zy & STY & SY & _). destruct (A1 CU ltac:(auto)) as (zu & STU & SU & _).
  destruct (A1 CV ltac:(auto)) as (zv & STV & SV & _). clear A1.
  apply stored_slack in SY, SU, SV.
  assert (LVL : forall c z, stored lm1 b1 m src mid mps c x y = Some z -> level m' (im_format mid) mps c x y = IZR z).
  { intros c' z' E. unfold level. unfold stored in E. fold m' in E. rewrite E. reflexivity. }
  pose proof (C75_decode lm2 b2 m' mid mps dst dps i C2 LV SM SD CI S20 SL2 x y HI) as A2. cbv zeta in A2.
  rewrite (LVL _ _ STY), (LVL _ _ STU), (LVL _ _ STV) in A2.
  pose proof (BY _ _ GR) as R01. pose proof (BY _ _ GG) as G01. pose proof (BY _ _ GB) as B01.
  set (M := IZR (max_level (im_format mid))) in *. set (full := yc_full_range i) in *.
  assert (MV : M = 255 \/ M = 1023 \/ M = 4095) by (unfold M; destruct (im_format mid); cbn; auto).
  set (r := IZR zr / 255) in *. set (g := IZR zg / 255) in *. set (bl := IZR zb / 255) in *.
  set (dy := IZR zy - y_level full M (luma bt2020 r (322 / 678 * g) bl)) in *.
  set (du := IZR zu - c_level full M (cb bt2020 r (322 / 678 * g) bl)) in *.
  set (dv := IZR zv - c_level full M (cr bt2020 r (322 / 678 * g) bl)) in *.
  assert (EY : IZR zy = y_level full M (luma bt2020 r (322 / 678 * g) bl) + dy) by (unfold dy; ring).
  assert (EU : IZR zu = c_level full M (cb bt2020 r (322 / 678 * g) bl) + du) by (unfold du; ring).
  assert (EV : IZR zv = c_level full M (cr bt2020 r (322 / 678 * g) bl) + dv) by (unfold dv; ring).
  rewrite EY, EU, EV in A2.
  pose proof (trip_real full M r g bl (column_backend b1 (im_width mid) x) (column_backend b2 (im_width dst) x) dy du dv MV R01 G01 B01 SY SU SV) as TR.
  cbv zeta in TR.
  destruct (A2 CR _ ltac:(left; split; reflexivity)) as (zr' & STR & SR & _).
  destruct (A2 CG _ ltac:(right; left; split; reflexivity)) as (zg' & STG & SG & _).
  destruct (A2 CB _ ltac:(right; right; split; reflexivity)) as (zb' & STB & SB & _).
  apply stored_slack in SR, SG, SB.
  exists zr', zg', zb'. split; [exact STR|]. split; [exact STG|]. split; [exact STB|].
  pose proof (TR r _ ltac:(left; split; reflexivity) _ SR) as XR.
  pose proof (TR _ _ ltac:(right; left; split; reflexivity) _ SG) as XG.
  pose proof (TR bl _ ltac:(right; right; split; reflexivity) _ SB) as XB.
  rewrite clamp_id in XR by lra. rewrite clamp_id in XB by lra.
  replace (255 * r) with (IZR zr) in XR by (unfold r; field). replace (255 * bl) with (IZR zb) in XB by (unfold bl; field).
  split; [exact XR|]. split; [exact XB|].
  replace (255 * (g - 356 / 322 * (2627 / 10000 * r + 322 / 1000 * g + 593 / 10000 * bl)))
    with (IZR zg - 356 / 322 * (2627 / 10000 * IZR zr + 322 / 1000 * IZR zg + 593 / 10000 * IZR zb)) in XG by (unfold r, g, bl; field).
  exact XG.
Qed.
Print Assumptions C75_round_trip_refuted.

(** A white 2x2 RGBA image to I420 (BT.2020, full range), from there to RGBA and
    to NV12 *)
Definition yuv2020 : color_info := CYUV (YuvCI TLinear PrBT709 SpBT2020 true).
Definition white_mem : mem := fun _ _ => 255%Z.
Definition nv12_planes : list (slice * nat) := [(Slice 3 0 4, 2); (Slice 3 4 2, 2)]%nat.
Definition nv12_2020 : image := ex_image NV12 2 2 yuv2020 nv12_planes.
Definition white_i420 (b : backend) : mem := apply_all white_mem (fst (convert ex_lm b white_mem (ex_rgba22 0 TLinear) (ex_i420 1 yuv2020))).
Lemma nv12_planes_disjoint : planes_disjoint nv12_planes.
Proof.
  intros i j a c H Ha Hc k K. destruct i as [|[|i]], j as [|[|j]]; cbn in Ha, Hc; try discriminate Ha; try discriminate Hc;
      try (destruct (H eq_refl)); try (destruct i; discriminate Ha); try (destruct j; discriminate Hc);
      injection Ha as <-; injection Hc as <-; cbn in K; lia.
Qed.

Example C75_example : forall b,
  converts ex_lm b white_mem (ex_rgba22 0 TLinear) (ex_rgba_planes 0) (ex_i420 1 yuv2020) (ex_yuv_planes 1) /\ bytes_ok white_mem /\
  flat_block white_mem (ex_rgba22 0 TLinear) (ex_rgba_planes 0) S420 1 1 /\
  map (fun c => stored ex_lm b white_mem (ex_rgba22 0 TLinear) (ex_i420 1 yuv2020) (ex_yuv_planes 1) c 1 1) [CY; CU; CV]
    = [Some 164; Some 175; Some 189]%Z /\
  converts ex_lm b (white_i420 b) (ex_i420 1 yuv2020) (ex_yuv_planes 1) (ex_rgba22 2 TLinear) (ex_rgba_planes 2) /\
  map (fun c => stored ex_lm b (white_i420 b) (ex_i420 1 yuv2020) (ex_rgba22 2 TLinear) (ex_rgba_planes 2) c 1 1) [CR; CG; CB]
    = [Some 254; Some 73; Some 253]%Z /\
  converts ex_lm b (white_i420 b) (ex_i420 1 yuv2020) (ex_yuv_planes 1) nv12_2020 nv12_planes /\
  map (fun c => stored ex_lm b (white_i420 b) (ex_i420 1 yuv2020) nv12_2020 nv12_planes c 1 1) [CY; CU; CV]
    = [Some 105; Some 206; Some 228]%Z.
Proof.
  intros b. split; [ex_converts b|]. split; [intros a i; unfold white_mem; lia|].
  split; [intros c p H; destruct c; cbn in H; repeat (destruct H as [<- |H]; [reflexivity|]); contradiction|].
  split; [destruct b; vm_compute; reflexivity|]. split; [ex_converts b|]. split; [destruct b; vm_compute; reflexivity|].
  split; [|destruct b; vm_compute; reflexivity].
  apply runs; [| |apply nv12_planes_disjoint|discriminate|vm_compute; reflexivity];
    (split; [reflexivity|split; [repeat constructor; cbn; unfold usize; cbn; lia|reflexivity]]).
Qed.
