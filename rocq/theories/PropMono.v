(** C63: converting keeps the order of brightness. *)

From Coq Require Import List ZArith Bool Arith Reals Lia Lra Psatz.
From Flocq Require Import Core.
From Verif Require Import Base Types Planes ImageM F32 Vector Simd SpecVector SimdProofs QuantProofs SpecGeom GeomProofs
  SpecColor SpecConvert SpecRun Formats Visit Convert VisitProofs ColorProofs ConvertProofs PropConvert PropFidelity
  SpecReal FloatProofs AccProofs TargetProofs PropColor MonoProofs.
Import ListNotations.
Local Open Scope R_scope.

(** Both samples exist and the first is not above the second *)
Definition at_most (a b : option Z) : Prop := exists x y, a = Some x /\ b = Some y /\ (x <= y)%Z.
Definition same_sample (a b : option Z) : Prop := exists x, a = Some x /\ b = Some x.

(** * From RGB to YUV *)

Lemma yuv_rgb_kind : forall src dst, (sampling_of (im_format src) = SRGB) <> (sampling_of (im_format dst) = SRGB) -> same_image_kind src dst = false.
Proof.
  intros src dst H. unfold same_image_kind. apply andb_false_iff; left.
  destruct (pixel_format_eqb (im_format src) (im_format dst)) eqn:E; [|reflexivity]. exfalso. apply H.
  assert (Q : im_format src = im_format dst) by (destruct (im_format src), (im_format dst); cbn in E; congruence). rewrite Q. reflexivity.
Qed.

Definition unit_lo : f32 := norm_z 255 0.
Definition unit_hi : f32 := norm_z 255 255.
Definition extreme (c : comp) (up : bool) : pixel :=
  let '(ur, ug, ub) := dir c in
  let s d := if Bool.eqb d up then unit_hi else unit_lo in
  ((s ur, s ug, s ub), fone).

Lemma yuv_extremes : forall L f i c x y, sampling_of f <> SRGB -> matrix_space (yc_space i) -> In c [CY; CU; CV] ->
  let lo := target L f (CYUV i) (fun _ _ => extreme c false) c x y in
  let hi := target L f (CYUV i) (fun _ _ => extreme c true) c x y in
  scaled_in f minus_half (over_top f) lo hi = true /\ scaled_in f (f32_of_Z (-32767)) (f32_of_Z 32767) lo hi = true.
Proof.
  intros L f [t p s full] c x y SF S HC. cbn [yc_space] in S. cbn [In] in HC.
  destruct f; try (destruct (SF eq_refl)); destruct s; try discriminate S; destruct full; destruct HC as [<- |[<- |[<- |[]]]];
    vm_compute; split; reflexivity.
Qed.

Lemma unit_between : forall z, (0 <= z <= 255)%Z -> mle 0 unit_lo (norm_z 255 z) /\ mle 0 (norm_z 255 z) unit_hi.
Proof. intros z Z0. split; apply norm_mono; lia. Qed.

Lemma rgb_to_yuv_mono : forall cb lm f i pix pix' c x y,
  matrix_space (yc_space i) -> sampling_of f <> SRGB -> In c [CY; CU; CV] ->
  (forall p, In p (match c with CY => [(x, y)] | _ => chroma_block (sampling_of f) x y end) ->
     exists r g b r' g' b', (0 <= r <= 255 /\ 0 <= g <= 255 /\ 0 <= b <= 255 /\ 0 <= r' <= 255 /\ 0 <= g' <= 255 /\ 0 <= b' <= 255)%Z /\
       fst (pix (fst p) (snd p)) = (norm_z 255 r, norm_z 255 g, norm_z 255 b) /\
       fst (pix' (fst p) (snd p)) = (norm_z 255 r', norm_z 255 g', norm_z 255 b') /\
       let '(ur, ug, ub) := dir c in
       (if ur then r <= r' else r' <= r)%Z /\ (if ug then g <= g' else g' <= g)%Z /\ (if ub then b <= b' else b' <= b)%Z) ->
  let v := target (lane_of lm cb) f (CYUV i) pix c x y in
  let v' := target (lane_of lm cb) f (CYUV i) pix' c x y in
  (quantise (quant_of cb) f v <= quantise (quant_of cb) f v')%Z.
Proof.
  intros cb lm f i pix pix' c x y S SF HC P v v'. set (L := lane_of lm cb) in *.
  assert (NM : forall z z', (0 <= z <= 255)%Z -> (0 <= z' <= 255)%Z -> (z <= z')%Z -> mle 0 (norm_z 255 z) (norm_z 255 z')) by (intros; apply norm_mono; lia).
  assert (ORD : mle 6 v v').
  { apply (mono_target L f i pix pix' c x y 0 S SF HC ltac:(lia)). intros p HP.
    destruct (P p HP) as (r & g & b & r' & g' & b' & (R0 & G0 & B0 & R1 & G1 & B1) & E1 & E2 & Q).
    destruct (dir c) as [[ur ug] ub]. destruct Q as (QR & QG & QB). rewrite E1, E2. unfold mono3, fst3, snd3, thd3. cbn [fst snd].
    split; [|split]; [destruct ur|destruct ug|destruct ub]; apply NM; assumption. }
  assert (EXT : forall q, (q = pix \/ q = pix') -> mle 6 (target L f (CYUV i) (fun _ _ => extreme c false) c x y) (target L f (CYUV i) q c x y) /\
                          mle 6 (target L f (CYUV i) q c x y) (target L f (CYUV i) (fun _ _ => extreme c true) c x y)).
  { intros q HQ.
    assert (PQ : forall p, In p (match c with CY => [(x, y)] | _ => chroma_block (sampling_of f) x y end) ->
      exists r g b, (0 <= r <= 255 /\ 0 <= g <= 255 /\ 0 <= b <= 255)%Z /\ fst (q (fst p) (snd p)) = (norm_z 255 r, norm_z 255 g, norm_z 255 b)).
    { intros p HP. destruct (P p HP) as (r & g & b & r' & g' & b' & (R0 & G0 & B0 & R1 & G1 & B1) & E1 & E2 & _).
      destruct HQ as [-> | ->]; eauto 10. }
    split; apply (mono_target L f i _ _ c x y 0 S SF HC ltac:(lia)); intros p HP; destruct (PQ p HP) as (r & g & b & (R0 & G0 & B0) & E);
      unfold extreme; destruct (dir c) as [[ur ug] ub]; rewrite E; unfold mono3, fst3, snd3, thd3; cbn [fst snd];
      (split; [|split]); [destruct ur|destruct ug|destruct ub|destruct ur|destruct ug|destruct ub]; apply unit_between; assumption. }
  destruct (yuv_extremes L f i c x y SF S HC) as (X1 & X2). destruct (EXT pix (or_introl eq_refl)) as (A1 & A2). destruct (EXT pix' (or_intror eq_refl)) as (B1 & B2).
  apply (quantise_le cb f v v' 6 ltac:(lia) ORD).
  - eapply in_range_fits; [|exact X2|exact A1|exact A2]; lia.
  - eapply in_range_fits; [|exact X2|exact B1|exact B2]; lia.
  - eapply in_range_storable; [|exact X1|exact A1|exact A2]; lia.
  - eapply in_range_storable; [|exact X1|exact B1|exact B2]; lia.
Qed.

(** The color of an RGB pixel *)
Lemma rgb_pixel : forall L m src sps x y, valid_image src sps -> bytes_ok m -> sampling_of (im_format src) = SRGB ->
  exists r g b, given m src sps CR x y = Some r /\ given m src sps CG x y = Some g /\ given m src sps CB x y = Some b /\
    (0 <= r <= 255 /\ 0 <= g <= 255 /\ 0 <= b <= 255)%Z /\
    fst (source_pixel L m (im_format src) (im_color src) sps x y) = (norm_z 255 r, norm_z 255 g, norm_z 255 b).
Proof.
  intros L m src sps x y V B S.
  assert (HC : forall c, In c [CR; CG; CB] -> has_comp (im_format src) c = true)
    by (intros c H; cbn [In] in H; unfold has_comp; rewrite S; destruct H as [<- |[<- |[<- |[]]]]; reflexivity).
  destruct (given_some m src sps CR x y V (HC CR (or_introl eq_refl))) as (r & R).
  destruct (given_some m src sps CG x y V (HC CG (or_intror (or_introl eq_refl)))) as (g & G).
  destruct (given_some m src sps CB x y V (HC CB (or_intror (or_intror (or_introl eq_refl))))) as (b & BL).
  assert (SB : (sample_bytes (im_format src) =? 2)%nat = false) by (destruct (im_format src); try discriminate S; reflexivity).
  pose proof (given_range _ _ _ _ _ _ _ B R) as RR. pose proof (given_range _ _ _ _ _ _ _ B G) as RG. pose proof (given_range _ _ _ _ _ _ _ B BL) as RB.
  rewrite SB in RR, RG, RB.
  assert (M : max_level (im_format src) = 255%Z) by (destruct (im_format src); try discriminate S; reflexivity).
  exists r, g, b. repeat (split; [assumption|]). split; [auto|].
  unfold source_pixel. rewrite S. cbn [fst]. unfold given in R, G, BL. unfold norm. rewrite R, G, BL, M. reflexivity.
Qed.

(** Luma: if a pixel has at least as much red, green and blue as another one,
    in the same or in another picture, then it does not get a lower Y.  All
    YUV formats, BT.601, BT.709 and BT.2020; both pixels in vectorised columns or both
    in the columns left over (else a rounded level is compared with a truncated one, C24). *)
Theorem C63_luma : forall lm b m m' src sps dst dps i,
  converts lm b m src sps dst dps -> converts lm b m' src sps dst dps -> bytes_ok m -> bytes_ok m' ->
  sampling_of (im_format src) = SRGB -> sampling_of (im_format dst) <> SRGB ->
  im_color dst = CYUV i -> is_ictcp (yc_space i) = false -> same_light (im_color src) (im_color dst) = true ->
  forall x y x' y', in_image dst x y -> in_image dst x' y' ->
  column_backend b (im_width dst) x = column_backend b (im_width dst) x' ->
  (forall c, In c [CR; CG; CB] -> at_most (given m src sps c x y) (given m' src sps c x' y')) ->
  at_most (stored lm b m src dst dps CY x y) (stored lm b m' src dst dps CY x' y').
Proof.
  intros lm b m m' src sps dst dps i C C' BM BM' SS SD CI S SL x y x' y' HI HI' SAMEB H.
  assert (HC : has_comp (im_format dst) CY = true) by (unfold has_comp; destruct (sampling_of (im_format dst)); congruence).
  assert (ICT : ictcp_chroma420 (im_format dst) (im_color dst) CY = false)
    by (unfold ictcp_chroma420; destruct (sampling_of (im_format dst)), (im_color dst); reflexivity).
  rewrite (stored_expected _ _ _ _ _ _ _ C CY x y HC HI ICT), (stored_expected _ _ _ _ _ _ _ C' CY x' y' HC HI' ICT).
  rewrite <- SAMEB. set (cb := column_backend b (im_width dst) x).
  assert (SK : same_image_kind src dst = false) by (apply yuv_rgb_kind; intro Q; apply SD; rewrite <- Q; exact SS).
  unfold expected_value. rewrite SK, CI. do 2 eexists. split; [reflexivity|split; [reflexivity|]].
  destruct (rgb_pixel (lane_of lm cb) m src sps x y (proj1 C) BM SS) as (r & g & bl & R & G & B & RG & E).
  destruct (rgb_pixel (lane_of lm cb) m' src sps x' y' (proj1 C') BM' SS) as (r' & g' & bl' & R' & G' & B' & RG' & E').
  assert (T : forall pix x y, target (lane_of lm cb) (im_format dst) (CYUV i) pix CY x y
    = target (lane_of lm cb) (im_format dst) (CYUV i) (fun _ _ => pix x y) CY 0 0)
    by (intros; unfold target; destruct (sampling_of (im_format dst)); try reflexivity; congruence).
  rewrite (T _ x y), (T _ x' y'). apply rgb_to_yuv_mono; [exact S|exact SD|cbn; auto|].
  intros p HP. unfold recolored. rewrite <- CI, SL. exists r, g, bl, r', g', bl'.
  split; [tauto|]. split; [exact E|]. split; [exact E'|]. cbn [dir].
  assert (Q : forall c z z', In c [CR; CG; CB] -> given m src sps c x y = Some z -> given m' src sps c x' y' = Some z' -> (z <= z')%Z).
  { intros c z z' IC Z1 Z2. destruct (H c IC) as (u & u' & U1 & U2 & U3). congruence. }
  split; [|split]; [apply (Q CR)|apply (Q CG)|apply (Q CB)]; cbn; auto.
Qed.
Print Assumptions C63_luma.

(** Chroma: if no pixel that shares the chroma sample gets more red or green, or
    less blue, then U does not fall; the same for V with red and blue exchanged. *)
Theorem C63_chroma : forall lm b m m' src sps dst dps i,
  converts lm b m src sps dst dps -> converts lm b m' src sps dst dps -> bytes_ok m -> bytes_ok m' ->
  sampling_of (im_format src) = SRGB -> sampling_of (im_format dst) <> SRGB ->
  im_color dst = CYUV i -> is_ictcp (yc_space i) = false -> same_light (im_color src) (im_color dst) = true ->
  forall x y, in_image dst x y ->
  forall c up down, (c = CU /\ up = CB /\ down = CR) \/ (c = CV /\ up = CR /\ down = CB) ->
  (forall p, In p (chroma_block (sampling_of (im_format dst)) x y) ->
     at_most (given m src sps up (fst p) (snd p)) (given m' src sps up (fst p) (snd p)) /\
     at_most (given m' src sps CG (fst p) (snd p)) (given m src sps CG (fst p) (snd p)) /\
     at_most (given m' src sps down (fst p) (snd p)) (given m src sps down (fst p) (snd p))) ->
  at_most (stored lm b m src dst dps c x y) (stored lm b m' src dst dps c x y).
Proof.
  intros lm b m m' src sps dst dps i C C' BM BM' SS SD CI S SL x y HI c up down CUD H.
  assert (CC : c = CU \/ c = CV) by tauto.
  assert (HC : has_comp (im_format dst) c = true) by (unfold has_comp; destruct (sampling_of (im_format dst)), CC; subst; congruence).
  assert (ICT : ictcp_chroma420 (im_format dst) (im_color dst) c = false)
    by (unfold ictcp_chroma420; rewrite CI; destruct (sampling_of (im_format dst)), c; auto).
  rewrite (stored_expected _ _ _ _ _ _ _ C c x y HC HI ICT), (stored_expected _ _ _ _ _ _ _ C' c x y HC HI ICT).
  set (cb := column_backend b (im_width dst) x).
  assert (SK : same_image_kind src dst = false) by (apply yuv_rgb_kind; intro Q; apply SD; rewrite <- Q; exact SS).
  unfold expected_value. rewrite SK, CI. do 2 eexists. split; [reflexivity|split; [reflexivity|]].
  apply rgb_to_yuv_mono; [exact S|exact SD|cbn; destruct CC as [-> | ->]; auto|].
  intros p HP. unfold recolored. rewrite <- CI, SL.
  assert (HP' : In p (chroma_block (sampling_of (im_format dst)) x y)) by (destruct CC; subst c; exact HP).
  destruct (H p HP') as (H1 & H2 & H3).
  destruct (rgb_pixel (lane_of lm cb) m src sps (fst p) (snd p) (proj1 C) BM SS) as (r & g & bl & R & G & B & RG & E).
  destruct (rgb_pixel (lane_of lm cb) m' src sps (fst p) (snd p) (proj1 C') BM' SS) as (r' & g' & bl' & R' & G' & B' & RG' & E').
  exists r, g, bl, r', g', bl'. split; [tauto|]. split; [exact E|]. split; [exact E'|].
  destruct H1 as (a1 & a1' & U1 & U1' & L1). destruct H2 as (a2 & a2' & U2 & U2' & L2). destruct H3 as (a3 & a3' & U3 & U3' & L3).
  destruct CUD as [(-> & -> & ->)|(-> & -> & ->)]; cbn [dir]; (split; [|split]); congruence.
Qed.
Print Assumptions C63_chroma.

(** * From YUV to RGB *)

Lemma yuv_pixel : forall m src sps x y, valid_image src sps -> levels_ok m src sps -> sampling_of (im_format src) <> SRGB -> in_image src x y ->
  exists a u v, given m src sps CY x y = Some a /\ given m src sps CU x y = Some u /\ given m src sps CV x y = Some v /\
    let M := max_level (im_format src) in
    (0 <= a <= M /\ 0 <= u <= M /\ 0 <= v <= M)%Z /\
    forall L i, im_color src = CYUV i ->
      fst (source_pixel L m (im_format src) (im_color src) sps x y) = decode_yuv L i (norm_z M a) (norm_z M u) (norm_z M v).
Proof.
  intros m src sps x y V LV S HI.
  assert (HC : forall c, In c [CY; CU; CV] -> has_comp (im_format src) c = true)
    by (intros c H; cbn [In] in H; unfold has_comp; destruct (sampling_of (im_format src)); try congruence; destruct H as [<- |[<- |[<- |[]]]]; reflexivity).
  destruct (given_some m src sps CY x y V (HC CY (or_introl eq_refl))) as (a & A).
  destruct (given_some m src sps CU x y V (HC CU (or_intror (or_introl eq_refl)))) as (u & U).
  destruct (given_some m src sps CV x y V (HC CV (or_intror (or_intror (or_introl eq_refl))))) as (v & W).
  exists a, u, v. repeat (split; [assumption|]). split; [split; [|split]; eapply LV; eassumption|].
  intros L i E. unfold source_pixel. rewrite E. unfold given in A, U, W. unfold norm. rewrite A, U, W.
  destruct (sampling_of (im_format src)); try reflexivity. congruence.
Qed.

(** How red, green and blue depend on Y, U and V: [true] grows, [false] falls,
    [None] does not depend *)
Definition rgb_dir (c : comp) : option bool * option bool :=
  match c with CR => (None, Some true) | CG => (Some false, Some false) | _ => (Some true, None) end.
Definition ordered (d : option bool) (a b : option Z) : Prop :=
  match d with None => True | Some true => at_most a b | Some false => at_most b a end.

Definition pick (c : comp) (p : f32 * f32 * f32) : f32 := match c with CR => fst3 p | CG => snd3 p | _ => thd3 p end.

Definition rgb_extreme (L : lane_ops f32) (M : Z) (i : yuv_color_info) (c : comp) (up : bool) : f32 :=
  let s d := norm_z M (if Bool.eqb (match d with Some false => false | _ => true end) up then M else 0) in
  pick c (decode_yuv L i (norm_z M (if up then M else 0)) (s (fst (rgb_dir c))) (s (snd (rgb_dir c)))).

Lemma mono_pick : forall L i c M a u v a' u' v', matrix_space (yc_space i) -> In c [CR; CG; CB] -> (1 <= M <= 4095)%Z ->
  (0 <= a <= M)%Z -> (0 <= u <= M)%Z -> (0 <= v <= M)%Z -> (0 <= a' <= M)%Z -> (0 <= u' <= M)%Z -> (0 <= v' <= M)%Z ->
  (a <= a')%Z ->
  (match fst (rgb_dir c) with None => True | Some true => u <= u' | Some false => u' <= u end)%Z ->
  (match snd (rgb_dir c) with None => True | Some true => v <= v' | Some false => v' <= v end)%Z ->
  mle 7 (pick c (decode_yuv L i (norm_z M a) (norm_z M u) (norm_z M v))) (pick c (decode_yuv L i (norm_z M a') (norm_z M u') (norm_z M v'))).
Proof.
  intros L i c M a u v a' u' v' S HC HM A U V A' U' V' LA LU LV.
  assert (NM : forall z z', (0 <= z <= M)%Z -> (0 <= z' <= M)%Z -> (z <= z')%Z -> mle 0 (norm_z M z) (norm_z M z')) by (intros; apply norm_mono; lia).
  destruct (mono_decode L i 0 (norm_z M a) (norm_z M u) (norm_z M v) (norm_z M a') (norm_z M u') (norm_z M v') S ltac:(lia) (NM _ _ A A' LA)) as (DR & DG & DB).
  cbn [In] in HC. destruct HC as [<- |[<- |[<- |[]]]]; cbn [rgb_dir fst snd pick] in *.
  - apply mle_weaken with (0 + 5)%Z; [apply DR; apply NM; assumption|lia].
  - apply DG; apply NM; assumption.
  - apply mle_weaken with (0 + 5)%Z; [apply DB; apply NM; assumption|lia].
Qed.

Lemma extreme_max : forall L M i c up, (M = 255 \/ M = 1023 \/ M = 4095)%Z -> rgb_extreme L M i c up = rgb_extreme L 255 i c up.
Proof.
  intros L M i c up HM. unfold rgb_extreme. cbv zeta.
  assert (N : forall b : bool, norm_z M (if b then M else 0%Z) = norm_z 255 (if b then 255%Z else 0%Z)) by
    (intros []; destruct HM as [-> |[-> | ->]]; vm_compute; reflexivity).
  rewrite !N. reflexivity.
Qed.

Lemma rgb_extremes : forall L f M i c, sampling_of f = SRGB -> matrix_space (yc_space i) -> In c [CR; CG; CB] -> (M = 255 \/ M = 1023 \/ M = 4095)%Z ->
  scaled_in f (f32_of_Z (-32767)) (f32_of_Z 32767) (rgb_extreme L M i c false) (rgb_extreme L M i c true) = true.
Proof.
  intros L f M [t p s full] c SF S HC HM. rewrite !(extreme_max L M) by exact HM. cbn [yc_space] in S. cbn [In] in HC.
  replace (scaled_in f) with (scaled_in RGB) by (destruct f; try discriminate SF; reflexivity).
  destruct s; try discriminate S; destruct full; destruct HC as [<- |[<- |[<- |[]]]]; vm_compute; reflexivity.
Qed.

Lemma max_cases : forall f, (max_level f = 255 \/ max_level f = 1023 \/ max_level f = 4095)%Z.
Proof. intros []; auto. Qed.

Lemma extreme_between : forall L M i c a u v, matrix_space (yc_space i) -> In c [CR; CG; CB] -> (1 <= M <= 4095)%Z ->
  (0 <= a <= M)%Z -> (0 <= u <= M)%Z -> (0 <= v <= M)%Z ->
  let w := pick c (decode_yuv L i (norm_z M a) (norm_z M u) (norm_z M v)) in
  mle 7 (rgb_extreme L M i c false) w /\ mle 7 w (rgb_extreme L M i c true).
Proof.
  intros L M i c a u v S HC HM A U V w. unfold rgb_extreme, w.
  split; apply mono_pick; auto; cbn [In] in HC; destruct HC as [<- |[<- |[<- |[]]]]; cbn; lia.
Qed.

(** Red grows with Y and V; green grows with Y and falls with U and V; blue
    grows with Y and U. *)
Theorem C63_rgb : forall lm b m m' src sps dst dps i,
  converts lm b m src sps dst dps -> converts lm b m' src sps dst dps -> levels_ok m src sps -> levels_ok m' src sps ->
  sampling_of (im_format src) <> SRGB -> sampling_of (im_format dst) = SRGB ->
  im_color src = CYUV i -> is_ictcp (yc_space i) = false -> same_light (im_color src) (im_color dst) = true ->
  forall x y x' y', in_image dst x y -> in_image dst x' y' ->
  column_backend b (im_width dst) x = column_backend b (im_width dst) x' ->
  forall c, In c [CR; CG; CB] ->
  at_most (given m src sps CY x y) (given m' src sps CY x' y') ->
  ordered (fst (rgb_dir c)) (given m src sps CU x y) (given m' src sps CU x' y') ->
  ordered (snd (rgb_dir c)) (given m src sps CV x y) (given m' src sps CV x' y') ->
  at_most (stored lm b m src dst dps c x y) (stored lm b m' src dst dps c x' y').
Proof.
  intros lm b m m' src sps dst dps i C C' LV LV' SS SD CI S SL x y x' y' HI HI' SAMEB c HC OY OU OV.
  pose proof (converts_convertible _ _ _ _ _ _ _ C) as CT.
  assert (II : forall x y, in_image dst x y -> in_image src x y).
  { intros z w (A & B). unfold in_image. rewrite (cv_width _ _ _ _ CT), (cv_height _ _ _ _ CT). auto. }
  assert (HC' : has_comp (im_format dst) c = true) by (unfold has_comp; rewrite SD; cbn [In] in HC; destruct HC as [<- |[<- |[<- |[]]]]; reflexivity).
  assert (ICT : ictcp_chroma420 (im_format dst) (im_color dst) c = false) by (unfold ictcp_chroma420; rewrite SD; reflexivity).
  rewrite (stored_expected _ _ _ _ _ _ _ C c x y HC' HI ICT), (stored_expected _ _ _ _ _ _ _ C' c x' y' HC' HI' ICT).
  rewrite <- SAMEB. set (cb := column_backend b (im_width dst) x).
  assert (SK : same_image_kind src dst = false) by (apply yuv_rgb_kind; intro Q; apply SS; rewrite Q; exact SD).
  unfold expected_value. rewrite SK. do 2 eexists. split; [reflexivity|split; [reflexivity|]].
  destruct (yuv_pixel m src sps x y (proj1 C) LV SS (II _ _ HI)) as (a & u & v & A & U & V & (RA & RU & RV) & E).
  destruct (yuv_pixel m' src sps x' y' (proj1 C') LV' SS (II _ _ HI')) as (a' & u' & v' & A' & U' & V' & (RA' & RU' & RV') & E').
  set (L := lane_of lm cb). specialize (E L i CI). specialize (E' L i CI).
  set (M := max_level (im_format src)) in *.
  assert (HM : (1 <= M <= 4095)%Z) by (unfold M; destruct (max_cases (im_format src)) as [-> |[-> | ->]]; lia).
  assert (T : forall m x y, target L (im_format dst) (im_color dst) (fun x y => recolored L (im_color src) (im_color dst)
      (source_pixel L m (im_format src) (im_color src) sps x y)) c x y = pick c (fst (source_pixel L m (im_format src) (im_color src) sps x y))).
  { intros. unfold target, recolored. rewrite SD, SL. cbn [In] in HC. destruct HC as [<- |[<- |[<- |[]]]]; reflexivity. }
  rewrite !T, E, E'.
  assert (X := rgb_extremes L (im_format dst) M i c SD S HC (max_cases _)).
  destruct (extreme_between L M i c a u v S HC HM RA RU RV) as (F1 & F2).
  destruct (extreme_between L M i c a' u' v' S HC HM RA' RU' RV') as (G1 & G2).
  apply (quantise_le cb (im_format dst) _ _ 7 ltac:(lia)).
  - apply mono_pick; auto.
    + destruct OY as (q & q' & Q1 & Q2 & Q3). congruence.
    + unfold ordered in OU. destruct (fst (rgb_dir c)) as [[]|]; [| |exact I]; destruct OU as (q & q' & Q1 & Q2 & Q3); congruence.
    + unfold ordered in OV. destruct (snd (rgb_dir c)) as [[]|]; [| |exact I]; destruct OV as (q & q' & Q1 & Q2 & Q3); congruence.
  - eapply in_range_fits; [|exact X|exact F1|exact F2]; lia.
  - eapply in_range_fits; [|exact X|exact G1|exact G2]; lia.
  - left; exact SD.
  - left; exact SD.
Qed.
Print Assumptions C63_rgb.

(** * From YUV to YUV *)

Definition luma_extreme (L : lane_ops f32) (M : Z) (i : yuv_color_info) (up : bool) : pixel :=
  ((rgb_extreme L M i CR up, rgb_extreme L M i CG up, rgb_extreme L M i CB up), fone).

Lemma luma_extremes : forall L f is id M, sampling_of f <> SRGB -> matrix_space (yc_space is) -> matrix_space (yc_space id) ->
  (M = 255 \/ M = 1023 \/ M = 4095)%Z ->
  scaled_in f (f32_of_Z (-32767)) (f32_of_Z 32767) (target L f (CYUV id) (fun _ _ => luma_extreme L M is false) CY 0 0)
    (target L f (CYUV id) (fun _ _ => luma_extreme L M is true) CY 0 0) = true.
Proof.
  intros L f [t p s full] [t' p' s' full'] M SF S S' HM. cbn [yc_space] in S, S'.
  unfold luma_extreme. rewrite !(extreme_max L M) by exact HM. fold (luma_extreme L 255 (YuvCI t p s full) false) (luma_extreme L 255 (YuvCI t p s full) true).
  assert (T : forall pix, target L f (CYUV (YuvCI t' p' s' full')) pix CY 0 0 = target L I444 (CYUV (YuvCI t' p' s' full')) pix CY 0 0)
    by (intros pix; destruct f; try (destruct (SF eq_refl)); reflexivity).
  rewrite !T. assert (G : scaled_in f = scaled_in I444 \/ scaled_in f = scaled_in I410 \/ scaled_in f = scaled_in I412) by (destruct f; auto).
  destruct G as [-> |[-> | ->]]; destruct s; try discriminate S; destruct s'; try discriminate S';
    destruct full, full'; vm_compute; reflexivity.
Qed.

(** A brighter pixel of the same U and V does not get a lower Y.  Missing: columns
    vectorised with AVX-512, whose stores wrap around (C25), and pixels of other chroma. *)
Theorem C63_yuv_luma_partial : forall lm b m m' src sps dst dps is id,
  converts lm b m src sps dst dps -> converts lm b m' src sps dst dps -> same_image_kind src dst = false ->
  levels_ok m src sps -> levels_ok m' src sps ->
  sampling_of (im_format src) <> SRGB -> sampling_of (im_format dst) <> SRGB ->
  im_color src = CYUV is -> is_ictcp (yc_space is) = false -> im_color dst = CYUV id -> is_ictcp (yc_space id) = false ->
  same_light (im_color src) (im_color dst) = true ->
  forall x y x' y', in_image dst x y -> in_image dst x' y' ->
  column_backend b (im_width dst) x = column_backend b (im_width dst) x' -> column_backend b (im_width dst) x <> AVX512 ->
  at_most (given m src sps CY x y) (given m' src sps CY x' y') ->
  same_sample (given m src sps CU x y) (given m' src sps CU x' y') ->
  same_sample (given m src sps CV x y) (given m' src sps CV x' y') ->
  at_most (stored lm b m src dst dps CY x y) (stored lm b m' src dst dps CY x' y').
Proof.
  intros lm b m m' src sps dst dps is id C C' SK LV LV' SS SD CI S CI' S' SL x y x' y' HI HI' SAMEB N5 OY OU OV.
  pose proof (converts_convertible _ _ _ _ _ _ _ C) as CT.
  assert (II : forall x y, in_image dst x y -> in_image src x y).
  { intros z w (A & B). unfold in_image. rewrite (cv_width _ _ _ _ CT), (cv_height _ _ _ _ CT). auto. }
  assert (HC : has_comp (im_format dst) CY = true) by (unfold has_comp; destruct (sampling_of (im_format dst)); congruence).
  assert (ICT : ictcp_chroma420 (im_format dst) (im_color dst) CY = false)
    by (unfold ictcp_chroma420; destruct (sampling_of (im_format dst)), (im_color dst); reflexivity).
  rewrite (stored_expected _ _ _ _ _ _ _ C CY x y HC HI ICT), (stored_expected _ _ _ _ _ _ _ C' CY x' y' HC HI' ICT).
  rewrite <- SAMEB. set (cb := column_backend b (im_width dst) x) in *.
  unfold expected_value. rewrite SK. do 2 eexists. split; [reflexivity|split; [reflexivity|]].
  destruct (yuv_pixel m src sps x y (proj1 C) LV SS (II _ _ HI)) as (a & u & v & A & U & V & (RA & RU & RV) & E).
  destruct (yuv_pixel m' src sps x' y' (proj1 C') LV' SS (II _ _ HI')) as (a' & u' & v' & A' & U' & V' & (RA' & RU' & RV') & E').
  set (L := lane_of lm cb). specialize (E L is CI). specialize (E' L is CI).
  assert (LA : (a <= a')%Z) by (destruct OY as (q & q' & Q1 & Q2 & Q3); congruence).
  assert (EU : u' = u) by (destruct OU as (q & Q1 & Q2); congruence).
  assert (EV : v' = v) by (destruct OV as (q & Q1 & Q2); congruence). subst u' v'.
  set (M := max_level (im_format src)) in *.
  assert (HM : (1 <= M <= 4095)%Z) by (unfold M; destruct (max_cases (im_format src)) as [-> |[-> | ->]]; lia).
  assert (T : forall m x y, target L (im_format dst) (im_color dst) (fun x y => recolored L (im_color src) (im_color dst)
      (source_pixel L m (im_format src) (im_color src) sps x y)) CY x y
     = target L (im_format dst) (CYUV id) (fun _ _ => (fst (source_pixel L m (im_format src) (im_color src) sps x y), fone)) CY 0 0).
  { intros. unfold target, recolored. rewrite SL, CI'. destruct (sampling_of (im_format dst)); try reflexivity. congruence. }
  rewrite !T, E, E'.
  assert (TM : forall p p', mono3 7 true true true (fst p) (fst p') ->
    mle 13 (target L (im_format dst) (CYUV id) (fun _ _ => p) CY 0 0) (target L (im_format dst) (CYUV id) (fun _ _ => p') CY 0 0)).
  { intros p p' H. apply (mono_target L (im_format dst) id (fun _ _ => p) (fun _ _ => p') CY 0 0 7 S' SD ltac:(cbn; auto) ltac:(lia)). intros q Q. exact H. }
  assert (I3 : forall c, In c [CR; CG; CB] -> (In c [CR; CG; CB])) by auto.
  assert (EXT : forall a, (0 <= a <= M)%Z ->
    mono3 7 true true true (fst (luma_extreme L M is false)) (decode_yuv L is (norm_z M a) (norm_z M u) (norm_z M v)) /\
    mono3 7 true true true (decode_yuv L is (norm_z M a) (norm_z M u) (norm_z M v)) (fst (luma_extreme L M is true))).
  { intros z Z0.
    pose proof (extreme_between L M is CR z u v S ltac:(cbn; auto) HM Z0 RU RV) as (R1 & R2).
    pose proof (extreme_between L M is CG z u v S ltac:(cbn; auto) HM Z0 RU RV) as (G1 & G2).
    pose proof (extreme_between L M is CB z u v S ltac:(cbn; auto) HM Z0 RU RV) as (B1 & B2). split; (split; [|split]); assumption. }
  assert (X := luma_extremes L (im_format dst) is id M SD S S' (max_cases _)).
  destruct (EXT a RA) as (F1 & F2). destruct (EXT a' RA') as (G1 & G2).
  apply (quantise_le cb (im_format dst) _ _ 13 ltac:(lia)).
  - apply TM. cbn [fst].
    assert (P : forall c, In c [CR; CG; CB] -> mle 7 (pick c (decode_yuv L is (norm_z M a) (norm_z M u) (norm_z M v))) (pick c (decode_yuv L is (norm_z M a') (norm_z M u) (norm_z M v)))).
    { intros c HC'. apply mono_pick; auto; destruct c; cbn; auto; lia. }
    split; [|split]; [apply (P CR)|apply (P CG)|apply (P CB)]; cbn; auto.
  - eapply in_range_fits; [|exact X|apply TM; exact F1|apply TM; exact F2]; lia.
  - eapply in_range_fits; [|exact X|apply TM; exact G1|apply TM; exact G2]; lia.
  - right; left; exact N5.
  - right; left; exact N5.
Qed.
Print Assumptions C63_yuv_luma_partial.

(** Concrete cases: all samples 30 higher; blue 30 higher; Y 30 higher *)
Definition up_mem (sel : nat -> nat -> bool) : mem := fun b i => if sel b i then Z.min 255 (ex_mem b i + 30) else ex_mem b i.
Lemma up_mem_bytes : forall sel, bytes_ok (up_mem sel).
Proof. intros sel b i. unfold up_mem. pose proof (ex_mem_bytes b i). destruct (sel b i); lia. Qed.

Definition all_up : mem := up_mem (fun _ _ => true).
Definition blue_up : mem := up_mem (fun b i => (b =? 0)%nat && (i mod 15 mod 3 =? 2)%nat).
Definition y_up : mem := up_mem (fun b i => (b =? 0)%nat && (i <? 4)%nat).

Lemma up_converts : forall b sel, converts ex_lm b (up_mem sel) ex_src ex_src_planes ex_dst ex_dst_planes.
Proof.
  intros b sel. split; [apply ex_valid|split; [apply ex_valid|split; [|split; [discriminate|]]]].
  - intros i j a c H Ha Hc k K. destruct i as [|[|[|i]]], j as [|[|[|j]]]; cbn in Ha, Hc; try discriminate Ha; try discriminate Hc;
      try (destruct (H eq_refl)); try (destruct i; discriminate Ha); try (destruct j; discriminate Hc);
      injection Ha as <-; injection Hc as <-; cbn in K; lia.
  - destruct b; cbv -[up_mem]; reflexivity.
Qed.

Ltac at_most_tac := do 2 eexists; split; [vm_compute; reflexivity|split; [vm_compute; reflexivity|lia]].

Example C63_example : forall b,
  converts ex_lm b ex_mem ex_src ex_src_planes ex_dst ex_dst_planes /\
  converts ex_lm b all_up ex_src ex_src_planes ex_dst ex_dst_planes /\
  converts ex_lm b blue_up ex_src ex_src_planes ex_dst ex_dst_planes /\ bytes_ok all_up /\ bytes_ok blue_up /\
  (forall c, In c [CR; CG; CB] -> at_most (given ex_mem ex_src ex_src_planes c 0 1) (given all_up ex_src ex_src_planes c 0 1)) /\
  (forall p, In p (chroma_block (sampling_of (im_format ex_dst)) 0 1) ->
     at_most (given ex_mem ex_src ex_src_planes CB (fst p) (snd p)) (given blue_up ex_src ex_src_planes CB (fst p) (snd p)) /\
     at_most (given blue_up ex_src ex_src_planes CG (fst p) (snd p)) (given ex_mem ex_src ex_src_planes CG (fst p) (snd p)) /\
     at_most (given blue_up ex_src ex_src_planes CR (fst p) (snd p)) (given ex_mem ex_src ex_src_planes CR (fst p) (snd p))) /\
  map (fun m => stored ex_lm b m ex_src ex_dst ex_dst_planes CY 0 1) [ex_mem; all_up] = [Some 111%Z; Some 141%Z] /\
  map (fun m => stored ex_lm b m ex_src ex_dst ex_dst_planes CU 0 1) [ex_mem; blue_up] = [Some 131%Z; Some 146%Z].
Proof.
  intros b. split; [exact (proj1 (C48_example b))|]. split; [apply up_converts|]. split; [apply up_converts|].
  split; [apply up_mem_bytes|]. split; [apply up_mem_bytes|]. split; [|split; [|split]].
  - intros c H. cbn [In] in H. destruct H as [<- |[<- |[<- |[]]]]; at_most_tac.
  - intros p H. cbn in H. destruct H as [<- |[<- |[<- |[<- |[]]]]]; (split; [|split]); at_most_tac.
  - destruct b; vm_compute; reflexivity.
  - destruct b; vm_compute; reflexivity.
Qed.

Example C63_yuv_example : forall b,
  converts ex_lm b ex_mem (ex_i420 0 ex_yuv) (ex_yuv_planes 0) (ex_rgba22 1 TLinear) (ex_rgba_planes 1) /\
  converts ex_lm b y_up (ex_i420 0 ex_yuv) (ex_yuv_planes 0) (ex_rgba22 1 TLinear) (ex_rgba_planes 1) /\
  levels_ok y_up (ex_i420 0 ex_yuv) (ex_yuv_planes 0) /\
  at_most (given ex_mem (ex_i420 0 ex_yuv) (ex_yuv_planes 0) CY 1 1) (given y_up (ex_i420 0 ex_yuv) (ex_yuv_planes 0) CY 1 1) /\
  same_sample (given ex_mem (ex_i420 0 ex_yuv) (ex_yuv_planes 0) CU 1 1) (given y_up (ex_i420 0 ex_yuv) (ex_yuv_planes 0) CU 1 1) /\
  map (fun m => stored ex_lm b m (ex_i420 0 ex_yuv) (ex_rgba22 1 TLinear) (ex_rgba_planes 1) CG 1 1) [ex_mem; y_up] = [Some 82%Z; Some 112%Z].
Proof.
  intros b. split; [ex_converts b|]. split; [ex_converts b|]. split; [apply bytes_levels; [apply up_mem_bytes|reflexivity]|].
  split; [at_most_tac|]. split; [eexists; split; vm_compute; reflexivity|]. destruct b; vm_compute; reflexivity.
Qed.
