(** C28, C29, C34, C48 - C50: how accurately convert computes colors. *)

From Coq Require Import List ZArith Bool Arith Reals Lia Lra Psatz.
From Flocq Require Import Core.
From Verif Require Import Base Types Planes ImageM F32 Vector Simd SpecVector SimdProofs QuantProofs SpecGeom GeomProofs
  SpecColor SpecConvert SpecRun Formats Visit Convert VisitProofs ColorProofs ConvertProofs ExactProofs PropConvert PropFidelity
  SpecReal FloatProofs AccProofs TargetProofs.
Import ListNotations.
Local Open Scope R_scope.

(** * Sources *)

(** The samples of the image are in the nominal range of its format.  (Always
    the case for formats with 8 bits per sample.) *)
Definition levels_ok (m : mem) (im : image) (ps : list (slice * nat)) : Prop :=
  forall c x y z, in_image im x y -> given m im ps c x y = Some z -> (0 <= z <= max_level (im_format im))%Z.

Lemma bytes_levels : forall m im ps, bytes_ok m -> sample_bytes (im_format im) = 1%nat -> levels_ok m im ps.
Proof.
  intros m im ps B S c x y z _ G. pose proof (given_range _ _ _ _ _ _ _ B G) as R. rewrite S in R. cbn in R.
  destruct (im_format im); try discriminate S; cbn; lia.
Qed.

Lemma max_level_range : forall f, (1 <= max_level f <= 4095)%Z.
Proof. destruct f; cbn; lia. Qed.
Lemma max_level_R : forall f, 1 <= IZR (max_level f) <= 4095.
Proof. intros f. pose proof (max_level_range f). split; apply IZR_le; lia. Qed.

Lemma norm_acc : forall m im ps c x y, valid_image im ps -> levels_ok m im ps -> in_image im x y -> has_comp (im_format im) c = true ->
  approx (norm m (im_format im) ps c x y) (level m (im_format im) ps c x y / IZR (max_level (im_format im))) u7 /\
  0 <= level m (im_format im) ps c x y / IZR (max_level (im_format im)) <= 1.
Proof.
  intros m im ps c x y V LV HI HC. destruct (given_some m im ps c x y V HC) as (z & G).
  pose proof (LV c x y z HI G) as R. unfold given in G. unfold norm, level. rewrite G.
  pose proof (max_level_range (im_format im)). split; [apply acc_norm; lia|apply level_unit; lia].
Qed.

(** Color of a pixel of an RGB image *)
Lemma rgb_source_acc : forall L m im ps x y, valid_image im ps -> bytes_ok m -> sampling_of (im_format im) = SRGB -> in_image im x y ->
  pixel_approx u7 (source_pixel L m (im_format im) (im_color im) ps x y)
    (level m (im_format im) ps CR x y / 255) (level m (im_format im) ps CG x y / 255) (level m (im_format im) ps CB x y / 255).
Proof.
  intros L m im ps x y V B SF HI.
  assert (LV : levels_ok m im ps) by (apply bytes_levels; [exact B|destruct (im_format im); try discriminate SF; reflexivity]).
  assert (M : max_level (im_format im) = 255%Z) by (destruct (im_format im); try discriminate SF; reflexivity).
  assert (N : forall c, has_comp (im_format im) c = true -> approx (norm m (im_format im) ps c x y) (level m (im_format im) ps c x y / 255) u7 /\
            Rabs (level m (im_format im) ps c x y / 255) <= 3).
  { intros c HC. destruct (norm_acc m im ps c x y V LV HI HC) as (A & A'). rewrite M in A, A'. split; [exact A|apply abs_bound; lra]. }
  unfold source_pixel. rewrite SF. unfold pixel_approx, fst3, snd3, thd3. cbn [fst snd].
  assert (HC : forall c, c = CR \/ c = CG \/ c = CB -> has_comp (im_format im) c = true)
    by (intros c [-> |[-> | ->]]; unfold has_comp; rewrite SF; reflexivity).
  pose proof (N CR (HC _ ltac:(auto))). pose proof (N CG (HC _ ltac:(auto))). pose proof (N CB (HC _ ltac:(auto))). tauto.
Qed.

(** Y, Cb and Cr of a pixel of a YUV image, as real numbers *)
Definition y_at (m : mem) (im : image) (ps : list (slice * nat)) (i : yuv_color_info) (x y : nat) : R :=
  level_y (yc_full_range i) (IZR (max_level (im_format im))) (level m (im_format im) ps CY x y).
Definition u_at (m : mem) (im : image) (ps : list (slice * nat)) (i : yuv_color_info) (x y : nat) : R :=
  level_c (yc_full_range i) (IZR (max_level (im_format im))) (level m (im_format im) ps CU x y).
Definition v_at (m : mem) (im : image) (ps : list (slice * nat)) (i : yuv_color_info) (x y : nat) : R :=
  level_c (yc_full_range i) (IZR (max_level (im_format im))) (level m (im_format im) ps CV x y).

(** Its color *)
Definition red_at (k : weights) m im ps i x y : R := red k (y_at m im ps i x y) (u_at m im ps i x y) (v_at m im ps i x y).
Definition green_at (k : weights) m im ps i x y : R := green k (y_at m im ps i x y) (u_at m im ps i x y) (v_at m im ps i x y).
Definition blue_at (k : weights) m im ps i x y : R := blue k (y_at m im ps i x y) (u_at m im ps i x y) (v_at m im ps i x y).

Lemma level_y_div : forall full M l, level_y full M l = level_y full 1 (l / M).
Proof. intros [] M l; unfold level_y; unfold Rdiv; rewrite ?Rinv_1, ?Rmult_1_r; reflexivity. Qed.
Lemma level_c_div : forall full M l, level_c full M l = level_c full 1 (l / M).
Proof. intros [] M l; unfold level_c; unfold Rdiv; rewrite ?Rinv_1, ?Rmult_1_r; reflexivity. Qed.

Lemma yuv_source_acc_by : forall L m im ps i qr qg qb x y, valid_image im ps -> levels_ok m im ps -> sampling_of (im_format im) <> SRGB ->
  im_color im = CYUV i -> decoder i qr qg qb ->
  (forall vy vu vv, Rabs vy <= 6 / 5 -> Rabs vu <= 3 / 5 -> Rabs vv <= 3 / 5 ->
     Rabs (qr vy vu vv) <= 3 /\ Rabs (qg vy vu vv) <= 3 /\ Rabs (qb vy vu vv) <= 3) ->
  in_image im x y ->
  pixel_approx (190 * u7) (source_pixel L m (im_format im) (im_color im) ps x y)
    (qr (y_at m im ps i x y) (u_at m im ps i x y) (v_at m im ps i x y))
    (qg (y_at m im ps i x y) (u_at m im ps i x y) (v_at m im ps i x y))
    (qb (y_at m im ps i x y) (u_at m im ps i x y) (v_at m im ps i x y)).
Proof.
  intros L m im ps i qr qg qb x y V LV SF CI K KB HI.
  assert (HC : forall c, c = CY \/ c = CU \/ c = CV -> has_comp (im_format im) c = true)
    by (intros c [-> |[-> | ->]]; unfold has_comp; destruct (sampling_of (im_format im)); congruence).
  destruct (norm_acc m im ps CY x y V LV HI (HC _ ltac:(auto))) as (AY & BY).
  destruct (norm_acc m im ps CU x y V LV HI (HC _ ltac:(auto))) as (AU & BU).
  destruct (norm_acc m im ps CV x y V LV HI (HC _ ltac:(auto))) as (AV & BV).
  assert (E : source_pixel L m (im_format im) (im_color im) ps x y
    = (decode_yuv L i (norm m (im_format im) ps CY x y) (norm m (im_format im) ps CU x y) (norm m (im_format im) ps CV x y), fone)).
  { unfold source_pixel. rewrite CI. destruct (sampling_of (im_format im)); congruence. }
  rewrite E. unfold y_at, u_at, v_at. rewrite (level_y_div _ (IZR (max_level (im_format im)))), !(level_c_div _ (IZR (max_level (im_format im)))).
  split.
  - cbn [fst]. apply acc_decode_by; assumption.
  - apply KB; [rewrite level_y_1|rewrite level_c_1|rewrite level_c_1];
      apply abs_bound; destruct (yc_full_range i); lra.
Qed.

Lemma yuv_source_acc : forall L m im ps i k x y, valid_image im ps -> levels_ok m im ps -> sampling_of (im_format im) <> SRGB ->
  im_color im = CYUV i -> weights_known (yc_space i) k -> in_image im x y ->
  pixel_approx (190 * u7) (source_pixel L m (im_format im) (im_color im) ps x y)
    (red_at k m im ps i x y) (green_at k m im ps i x y) (blue_at k m im ps i x y).
Proof.
  intros L m im ps i k x y V LV SF CI K HI.
  apply (yuv_source_acc_by L m im ps i (red k) (green k) (blue k) x y V LV SF CI (decoder_known i k K)); [|exact HI].
  intros; eapply decode_bound; eassumption.
Qed.

(** The chroma block of a pixel lies in the image. *)
Lemma block_in_image : forall im s x y p, (im_width im mod 2 = 0)%nat -> (im_height im mod 2 = 0)%nat -> in_image im x y ->
  In p ((x, y) :: chroma_block s x y) -> in_image im (fst p) (snd p).
Proof.
  intros im s x y p EW EH (HX & HY) H. unfold in_image.
  pose proof (Nat.div_mod x 2 ltac:(lia)). pose proof (Nat.mod_upper_bound x 2 ltac:(lia)).
  pose proof (Nat.div_mod y 2 ltac:(lia)). pose proof (Nat.mod_upper_bound y 2 ltac:(lia)).
  pose proof (Nat.div_mod (im_width im) 2 ltac:(lia)). pose proof (Nat.div_mod (im_height im) 2 ltac:(lia)).
  unfold chroma_block in H. destruct H as [<- |H]; [cbn; lia|].
  destruct s; cbn [In] in H; repeat (destruct H as [<- |H]; [cbn [fst snd]; lia|]); contradiction.
Qed.

(** * From pixels to stored samples *)

(** An actual conversion without change of the transfer function or the
    primaries *)
Definition plain (src dst : image) : Prop :=
  same_image_kind src dst = false /\ same_light (im_color src) (im_color dst) = true.

Lemma known_not_ictcp : forall s k, weights_known s k -> is_ictcp s = false.
Proof. intros s k [(-> & _) | (-> & _)]; reflexivity. Qed.

(** The pixels that a sample covers are known after recoloring *)
Lemma pixels_stored : forall lm b m src sps dst dps i qy qu qv r g bl e,
  converts lm b m src sps dst dps -> same_image_kind src dst = false ->
  sampling_of (im_format dst) <> SRGB -> im_color dst = CYUV i -> is_ictcp (yc_space i) = false -> (forall L, encoder L i qy qu qv) ->
  0 <= e <= 1 / 40000 ->
  forall c x y, has_comp (im_format dst) c = true -> in_image dst x y ->
  let M := IZR (max_level (im_format dst)) in
  let t := level_by qy qu qv (yc_full_range i) (im_format dst) r g bl c x y in
  let cb := column_backend b (im_width dst) x in
  let L := lane_of lm cb in
  (forall p, In p ((x, y) :: chroma_block (sampling_of (im_format dst)) x y) ->
     pixel_approx e (recolored L (im_color src) (im_color dst) (source_pixel L m (im_format src) (im_color src) sps (fst p) (snd p)))
       (r (fst p) (snd p)) (g (fst p) (snd p)) (bl (fst p) (snd p))) ->
  (cb = AVX512 -> - (1 / 4) <= t <= IZR (top (im_format dst)) + 1 / 4) ->
  exists z, stored lm b m src dst dps c x y = Some z /\
    stored_for cb (M * (11 / 10 * e + 113 * u7)) (clamp (IZR (top (im_format dst))) t) z /\ (0 <= z)%Z.
Proof.
  intros lm b m src sps dst dps i qy qu qv r g bl e CV SK SF CI NI K E c x y HC HI M t cb L PA RG.
  assert (ICT : ictcp_chroma420 (im_format dst) (im_color dst) c = false).
  { unfold ictcp_chroma420. rewrite CI, NI. destruct (sampling_of _), c; reflexivity. }
  rewrite (stored_expected _ _ _ _ _ _ _ CV c x y HC HI ICT). fold cb. eexists; split; [reflexivity|].
  unfold expected_value. rewrite SK, CI.
  assert (M0 : M <> 0) by (unfold M; pose proof (max_level_R (im_format dst)); lra).
  rewrite CI in PA. fold L. set (pix := fun x y => recolored _ _ _ _).
  pose proof (acc_target_by L (im_format dst) i qy qu qv pix r g bl e x y c (K _) SF HC E PA) as A. fold t in A. fold M in A.
  replace t with (M * (t / M)) by (field; exact M0).
  replace (M * (11 / 10 * e + 113 * u7)) with (M * (11 / 10 * e + 110 * u7 + 3 * u7)) by ring.
  assert (TB : Rabs (t / M) <= 4).
  { unfold t, level_by. fold M.
    assert (YB : forall v, Rabs v <= 3 -> Rabs (y_level (yc_full_range i) M v / M) <= 4 /\ Rabs (c_level (yc_full_range i) M v / M) <= 4).
    { intros v BV. destruct (ideal_div (yc_full_range i) M v M0) as (<- & <-). apply Rabs_le_inv in BV.
      unfold y_level, c_level. destruct (yc_full_range i); split; apply Rabs_le; lra. }
    assert (BB : forall p, In p ((x, y) :: chroma_block (sampling_of (im_format dst)) x y) ->
      Rabs (r (fst p) (snd p)) <= 3 /\ Rabs (g (fst p) (snd p)) <= 3 /\ Rabs (bl (fst p) (snd p)) <= 3) by (intros p HP; apply (PA p HP)).
    assert (MB : forall q : nat -> nat -> R, (forall p, In p (chroma_block (sampling_of (im_format dst)) x y) -> Rabs (q (fst p) (snd p)) <= 3) ->
      Rabs (chroma_mean (sampling_of (im_format dst)) q x y) <= 3).
    { intros q Q. unfold chroma_mean, mean. destruct (sampling_of (im_format dst)); unfold chroma_block in *; cbn [map fold_right length fst snd] in *.
      - pose proof (Rabs_le_inv _ _ (Q _ (or_introl eq_refl))). pose proof (Rabs_le_inv _ _ (Q _ (or_intror (or_introl eq_refl)))).
        pose proof (Rabs_le_inv _ _ (Q _ (or_intror (or_intror (or_introl eq_refl))))).
        pose proof (Rabs_le_inv _ _ (Q _ (or_intror (or_intror (or_intror (or_introl eq_refl)))))). cbn [fst snd] in *.
        apply Rabs_le. simpl INR. lra.
      - pose proof (Rabs_le_inv _ _ (Q _ (or_introl eq_refl))). pose proof (Rabs_le_inv _ _ (Q _ (or_intror (or_introl eq_refl)))). cbn [fst snd] in *.
        apply Rabs_le. simpl INR. lra.
      - pose proof (Rabs_le_inv _ _ (Q _ (or_introl eq_refl))). cbn [fst snd] in *. apply Rabs_le. simpl INR. lra.
      - congruence. }
    assert (MR := MB r (fun p HP => proj1 (BB p (or_intror HP)))).
    assert (MG := MB g (fun p HP => proj1 (proj2 (BB p (or_intror HP))))).
    assert (MBl := MB bl (fun p HP => proj2 (proj2 (BB p (or_intror HP))))).
    destruct (BB (x, y) (or_introl eq_refl)) as (B1 & B2 & B3). cbn [fst snd] in *.
    destruct (K L) as (_ & K2 & _).
    destruct (K2 _ _ _ MR MG MBl) as (_ & C1 & C2). destruct (K2 _ _ _ B1 B2 B3) as (C0 & _).
    destruct c; apply YB; assumption. }
  apply acc_store; [exact A|exact TB|unfold u7; lra|]. fold M.
  replace (M * (t / M)) with t by (field; exact M0).
  right. destruct cb; [left; discriminate|left; discriminate|right; apply RG; reflexivity|left; discriminate].
Qed.

Lemma to_yuv_acc_by : forall lm b m src sps dst dps i qy qu qv r g bl e,
  converts lm b m src sps dst dps -> plain src dst ->
  sampling_of (im_format dst) <> SRGB -> im_color dst = CYUV i -> is_ictcp (yc_space i) = false -> (forall L, encoder L i qy qu qv) ->
  0 <= e <= 1 / 40000 ->
  (forall L x y, in_image dst x y ->
     pixel_approx e (source_pixel L m (im_format src) (im_color src) sps x y) (r x y) (g x y) (bl x y)) ->
  forall c x y, has_comp (im_format dst) c = true -> in_image dst x y ->
  let M := IZR (max_level (im_format dst)) in
  let t := level_by qy qu qv (yc_full_range i) (im_format dst) r g bl c x y in
  let cb := column_backend b (im_width dst) x in
  (cb = AVX512 -> - (1 / 4) <= t <= IZR (top (im_format dst)) + 1 / 4) ->
  exists z, stored lm b m src dst dps c x y = Some z /\
    stored_for cb (M * (11 / 10 * e + 113 * u7)) (clamp (IZR (top (im_format dst))) t) z /\ (0 <= z)%Z.
Proof.
  intros lm b m src sps dst dps i qy qu qv r g bl e CV (SK & SL) SF CI NI K E SRC c x y HC HI M t cb RG.
  pose proof (converts_convertible _ _ _ _ _ _ _ CV) as CT.
  apply (pixels_stored lm b m src sps dst dps i qy qu qv r g bl e CV SK SF CI NI K E c x y HC HI); [|exact RG].
  intros p HP. unfold recolored. rewrite SL. apply SRC. eapply block_in_image; [apply CT|apply CT|exact HI|exact HP].
Qed.

Lemma to_yuv_acc : forall lm b m src sps dst dps i k r g bl e,
  converts lm b m src sps dst dps -> plain src dst ->
  sampling_of (im_format dst) <> SRGB -> im_color dst = CYUV i -> weights_known (yc_space i) k ->
  0 <= e <= 1 / 40000 ->
  (forall L x y, in_image dst x y ->
     pixel_approx e (source_pixel L m (im_format src) (im_color src) sps x y) (r x y) (g x y) (bl x y)) ->
  forall c x y, has_comp (im_format dst) c = true -> in_image dst x y ->
  let M := IZR (max_level (im_format dst)) in
  let t := ideal_level k (yc_full_range i) (im_format dst) r g bl c x y in
  let cb := column_backend b (im_width dst) x in
  (cb = AVX512 -> - (1 / 4) <= t <= IZR (top (im_format dst)) + 1 / 4) ->
  exists z, stored lm b m src dst dps c x y = Some z /\
    stored_for cb (M * (11 / 10 * e + 113 * u7)) (clamp (IZR (top (im_format dst))) t) z /\ (0 <= z)%Z.
Proof.
  intros lm b m src sps dst dps i k r g bl e CV PL SF CI K E SRC c x y HC HI M t cb RG.
  exact (to_yuv_acc_by lm b m src sps dst dps i _ _ _ r g bl e CV PL SF CI (known_not_ictcp _ _ K)
           (fun L => encoder_known L i k K) E SRC c x y HC HI RG).
Qed.

Lemma to_rgb_acc : forall lm b m src sps dst dps r g bl e,
  converts lm b m src sps dst dps -> plain src dst -> sampling_of (im_format dst) = SRGB -> 0 <= e <= 1 / 40000 ->
  (forall L x y, in_image dst x y ->
     pixel_approx e (source_pixel L m (im_format src) (im_color src) sps x y) (r x y) (g x y) (bl x y)) ->
  forall c x y, in_image dst x y ->
  let cb := column_backend b (im_width dst) x in
  forall q, (c = CR /\ q = r \/ c = CG /\ q = g \/ c = CB /\ q = bl) ->
  exists z, stored lm b m src dst dps c x y = Some z /\
    stored_for cb (255 * (e + 3 * u7)) (clamp 255 (255 * q x y)) z /\ (0 <= z)%Z.
Proof.
  intros lm b m src sps dst dps r g bl e CV (SK & SL) SF E SRC c x y HI cb q Q.
  assert (HC : has_comp (im_format dst) c = true) by (unfold has_comp; rewrite SF; intuition (subst; reflexivity)).
  assert (ICT : ictcp_chroma420 (im_format dst) (im_color dst) c = false) by (unfold ictcp_chroma420; rewrite SF; reflexivity).
  rewrite (stored_expected _ _ _ _ _ _ _ CV c x y HC HI ICT). fold cb. eexists; split; [reflexivity|].
  unfold expected_value. rewrite SK. unfold recolored. rewrite SL.
  assert (M : max_level (im_format dst) = 255%Z) by (destruct (im_format dst); try discriminate SF; reflexivity).
  assert (T : top (im_format dst) = 255%Z) by (destruct (im_format dst); try discriminate SF; reflexivity).
  destruct (SRC (lane_of lm cb) x y HI) as ((AR & AG & AB) & BR & BG & BB).
  assert (A : approx (target (lane_of lm cb) (im_format dst) (im_color dst)
                (fun x y => source_pixel (lane_of lm cb) m (im_format src) (im_color src) sps x y) c x y) (q x y) e /\ Rabs (q x y) <= 3).
  { unfold target. rewrite SF. destruct Q as [(-> & ->)|[(-> & ->)|(-> & ->)]]; auto. }
  destruct A as (A & BQ).
  pose proof (acc_store cb (im_format dst) _ _ e A ltac:(lra) ltac:(lra) (or_introl SF)) as R. rewrite M, T in R. exact R.
Qed.

(** * C48: RGB to YUV *)

Lemma matrix_known : forall s k, weights_of s = Some k -> s <> SpBT2020 -> weights_known s k.
Proof. intros s k W N. unfold weights_known. destruct s; cbn in W; try discriminate W; injection W as <-; auto; congruence. Qed.

(** Means of numbers in 0 .. 1 *)
Lemma chroma_mean_unit : forall s q x y, (forall p, In p (chroma_block s x y) -> 0 <= q (fst p) (snd p) <= 1) -> 0 <= chroma_mean s q x y <= 1.
Proof.
  intros s q x y Q. unfold chroma_mean, mean. destruct s; unfold chroma_block in *; cbn [map fold_right length fst snd] in *.
  - pose proof (Q _ (or_introl eq_refl)). pose proof (Q _ (or_intror (or_introl eq_refl))).
    pose proof (Q _ (or_intror (or_intror (or_introl eq_refl)))).
    pose proof (Q _ (or_intror (or_intror (or_intror (or_introl eq_refl))))). cbn [fst snd] in *. simpl INR. lra.
  - pose proof (Q _ (or_introl eq_refl)). pose proof (Q _ (or_intror (or_introl eq_refl))). cbn [fst snd] in *. simpl INR. lra.
  - pose proof (Q _ (or_introl eq_refl)). cbn [fst snd] in *. simpl INR. lra.
  - pose proof (Q _ (or_introl eq_refl)). cbn [fst snd] in *. simpl INR. lra.
Qed.

(** Range of Y, Cb and Cr of colors in the unit cube *)
Lemma cube_range : forall k r g b, (k = bt601 \/ k = bt709 \/ k = bt2020) -> 0 <= r <= 1 -> 0 <= g <= 1 -> 0 <= b <= 1 ->
  0 <= luma k r g b <= 1 /\ - (1 / 2) <= cb k r g b <= 1 / 2 /\ - (1 / 2) <= cr k r g b <= 1 / 2.
Proof. intros k r g b [-> |[-> | ->]] R G B; unfold_k; lra. Qed.

Definition luma_range (full : bool) (M : R) : R * R := if full then (0, M) else (M * (16 / 255), M * (235 / 255)).
Definition chroma_range (full : bool) (M : R) : R * R := if full then (0, M) else (M * (16 / 255), M * (240 / 255)).

Lemma level_range : forall full M y c, 1 <= M -> 0 <= y <= 1 -> - (1 / 2) <= c <= 1 / 2 ->
  fst (luma_range full M) <= y_level full M y <= snd (luma_range full M) /\
  fst (chroma_range full M) <= c_level full M c <= snd (chroma_range full M).
Proof. intros [] M y c HM Y C; unfold luma_range, chroma_range, y_level, c_level; cbn [fst snd]; nra. Qed.

Lemma ideal_range3 : forall k full f r g b c x y, (k = bt601 \/ k = bt709 \/ k = bt2020) ->
  (forall p, In p ((x, y) :: chroma_block (sampling_of f) x y) ->
     0 <= r (fst p) (snd p) <= 1 /\ 0 <= g (fst p) (snd p) <= 1 /\ 0 <= b (fst p) (snd p) <= 1) ->
  let t := ideal_level k full f r g b c x y in
  let range := match c with CU | CV => chroma_range | _ => luma_range end full (IZR (max_level f)) in
  fst range <= t <= snd range.
Proof.
  intros k full f r g b c x y KK H t range.
  destruct (H (x, y) (or_introl eq_refl)) as (R0 & G0 & B0). cbn [fst snd] in *.
  destruct (cube_range k _ _ _ KK R0 G0 B0) as (Y & _).
  assert (R1 := chroma_mean_unit (sampling_of f) r x y (fun p HP => proj1 (H p (or_intror HP)))).
  assert (G1 := chroma_mean_unit (sampling_of f) g x y (fun p HP => proj1 (proj2 (H p (or_intror HP))))).
  assert (B1 := chroma_mean_unit (sampling_of f) b x y (fun p HP => proj2 (proj2 (H p (or_intror HP))))).
  destruct (cube_range k _ _ _ KK R1 G1 B1) as (_ & U & V).
  pose proof (max_level_R f). unfold t, range, ideal_level.
  destruct c; try (apply (level_range full (IZR (max_level f)) _ 0); lra); apply (level_range full (IZR (max_level f)) 0); lra.
Qed.

Lemma ideal_range : forall k full f r g b c x y, (k = bt601 \/ k = bt709) ->
  (forall p, In p ((x, y) :: chroma_block (sampling_of f) x y) ->
     0 <= r (fst p) (snd p) <= 1 /\ 0 <= g (fst p) (snd p) <= 1 /\ 0 <= b (fst p) (snd p) <= 1) ->
  let t := ideal_level k full f r g b c x y in
  let range := match c with CU | CV => chroma_range | _ => luma_range end full (IZR (max_level f)) in
  fst range <= t <= snd range.
Proof. intros k full f r g b c x y K H. apply ideal_range3; [tauto|exact H]. Qed.

Lemma range_levels : forall (c : comp) full M, 1 <= M ->
  let range := match c with CU | CV => chroma_range | _ => luma_range end full M in 0 <= fst range /\ snd range <= M.
Proof. intros c [] M H; destruct c; cbn; lra. Qed.

Lemma clamp_id : forall hi t, 0 <= t <= hi -> clamp hi t = t.
Proof. intros hi t H. destruct (clamp_cases hi t) as [(A & ->)|[(A & ->)|(A & ->)]]; lra. Qed.

Lemma top_max : forall f, (max_level f <= top f)%Z.
Proof. destruct f; cbn; lia. Qed.

(** Converting RGB to YUV (BT.601 or BT.709, no change of the transfer function
    or the primaries): every stored sample is the level the standard asks for,
    truncated (scalar, NEON) or rounded (AVX2, AVX-512); floating point adds at
    most 1/80000 of full scale.  Sub-sampled chroma is that of the mean color
    of the pixels it covers. *)
Theorem C48_rgb_to_yuv_accuracy : forall lm b m src sps dst dps i k,
  converts lm b m src sps dst dps -> bytes_ok m ->
  sampling_of (im_format src) = SRGB -> sampling_of (im_format dst) <> SRGB ->
  im_color dst = CYUV i -> weights_of (yc_space i) = Some k -> yc_space i <> SpBT2020 ->
  same_light (im_color src) (im_color dst) = true ->
  let sample c x y := level m (im_format src) sps c x y / 255 in
  let M := IZR (max_level (im_format dst)) in
  forall c x y, has_comp (im_format dst) c = true -> in_image dst x y ->
  exists z, stored lm b m src dst dps c x y = Some z /\
    stored_for (column_backend b (im_width dst) x) (M / 80000)
      (ideal_level k (yc_full_range i) (im_format dst) (sample CR) (sample CG) (sample CB) c x y) z /\
    (0 <= z <= max_level (im_format dst))%Z.
Proof.
  intros lm b m src sps dst dps i k CV BM SS SD CI WK N20 SL sample M c x y HC HI.
  pose proof (matrix_known _ _ WK N20) as K.
  assert (KK : k = bt601 \/ k = bt709) by (destruct K as [(_ & ->)|(_ & ->)]; auto).
  pose proof (converts_convertible _ _ _ _ _ _ _ CV) as CT.
  assert (VS : valid_image src sps) by apply CV.
  assert (SK : same_image_kind src dst = false).
  { unfold same_image_kind. apply andb_false_iff; left. destruct (im_format src), (im_format dst); try reflexivity; cbn in SS, SD; congruence. }
  assert (II : forall x y, in_image dst x y -> in_image src x y).
  { intros x' y' (A & B). unfold in_image. rewrite (cv_width _ _ _ _ CT), (cv_height _ _ _ _ CT). auto. }
  assert (UN : forall c x y, has_comp (im_format src) c = true -> in_image dst x y -> 0 <= sample c x y <= 1).
  { intros c' x' y' HC' HI'. unfold sample.
    assert (M255 : max_level (im_format src) = 255%Z) by (destruct (im_format src); try discriminate SS; reflexivity).
    pose proof (norm_acc m src sps c' x' y' VS) as A. rewrite M255 in A. apply A; auto.
    apply bytes_levels; [exact BM|]. destruct (im_format src); try discriminate SS; reflexivity. }
  assert (HCS : forall c, c = CR \/ c = CG \/ c = CB -> has_comp (im_format src) c = true)
    by (intros c' [-> |[-> | ->]]; unfold has_comp; rewrite SS; reflexivity).
  assert (RG : let t := ideal_level k (yc_full_range i) (im_format dst) (sample CR) (sample CG) (sample CB) c x y in 0 <= t <= M).
  { cbv zeta. pose proof (ideal_range k (yc_full_range i) (im_format dst) (sample CR) (sample CG) (sample CB) c x y KK) as A.
    cbv zeta in A. pose proof (range_levels c (yc_full_range i) M ltac:(apply max_level_R)) as A2. cbv zeta in A2. fold M in A.
    enough (P : forall p, In p ((x, y) :: chroma_block (sampling_of (im_format dst)) x y) ->
      0 <= sample CR (fst p) (snd p) <= 1 /\ 0 <= sample CG (fst p) (snd p) <= 1 /\ 0 <= sample CB (fst p) (snd p) <= 1) by (specialize (A P); lra).
    intros p HP. assert (HI' : in_image dst (fst p) (snd p)) by (eapply block_in_image; [apply CT|apply CT|exact HI|exact HP]).
    split; [|split]; apply UN; auto; apply HCS; auto. }
  cbv zeta in RG. set (t := ideal_level _ _ _ _ _ _ _ _ _) in *.
  assert (TM : M <= IZR (top (im_format dst))) by (apply IZR_le, top_max).
  destruct (to_yuv_acc lm b m src sps dst dps i k (sample CR) (sample CG) (sample CB) u7 CV (conj SK SL) SD CI K ltac:(unfold u7; lra)
    (fun L x y H => rgb_source_acc L m src sps x y VS BM SS (II x y H)) c x y HC HI) as (z & ST & SF & Z0).
  { fold t. lra. }
  fold t M in SF. rewrite clamp_id in SF by lra.
  pose proof (max_level_R (im_format dst)) as MR. fold M in MR.
  assert (SF' : stored_for (column_backend b (im_width dst) x) (M / 80000) t z).
  { eapply stored_for_weaken; [exact SF|]. unfold u7. lra. }
  exists z. split; [exact ST|split; [exact SF'|]]. split; [exact Z0|].
  assert (ZM : IZR z < M + 1).
  { destruct (column_backend b (im_width dst) x); cbn [stored_for] in SF'; unfold truncated, rounded in SF'; try lra; apply Rabs_le_inv in SF'; lra. }
  unfold M in ZM. rewrite <- plus_IZR in ZM. apply lt_IZR in ZM. lia.
Qed.
Print Assumptions C48_rgb_to_yuv_accuracy.

(** The numbers of a concrete case: a 4x2 RGB image to I420, BT.709 full range;
    pixel (0, 1) is (105, 112, 119) *)
Example C48_example : forall b,
  converts ex_lm b ex_mem ex_src ex_src_planes ex_dst ex_dst_planes /\ bytes_ok ex_mem /\
  sampling_of (im_format ex_src) = SRGB /\ sampling_of (im_format ex_dst) <> SRGB /\
  im_color ex_dst = CYUV (YuvCI TLinear PrBT709 SpBT709 true) /\ same_light (im_color ex_src) (im_color ex_dst) = true /\
  map (fun c => given ex_mem ex_src ex_src_planes c 0 1) [CR; CG; CB] = [Some 105%Z; Some 112%Z; Some 119%Z] /\
  map (fun c => stored ex_lm b ex_mem ex_src ex_dst ex_dst_planes c 0 1) [CY; CU; CV]
    = [Some 111%Z; Some 131%Z; Some 123%Z].
Proof.
  intros b. split.
  { split; [apply ex_valid|split; [apply ex_valid|split; [|split; [discriminate|destruct b; vm_compute; reflexivity]]]].
    intros i j a c H Ha Hc k K. destruct i as [|[|[|i]]], j as [|[|[|j]]]; cbn in Ha, Hc; try discriminate Ha; try discriminate Hc;
      try (destruct (H eq_refl)); try (destruct i; discriminate Ha); try (destruct j; discriminate Hc);
      injection Ha as <-; injection Hc as <-; cbn in K; lia. }
  split; [apply ex_mem_bytes|]. repeat (split; [reflexivity || discriminate|]). destruct b; vm_compute; reflexivity.
Qed.

(** * C49: YUV to RGB *)

(** Converting YUV (BT.601 or BT.709) to RGB without change of the transfer
    function or the primaries: every red, green and blue sample is 255 times
    the color the standard assigns to the source samples, limited to 0 .. 255,
    truncated or rounded; floating point adds at most 1/50000 of full scale. *)
Theorem C49_yuv_to_rgb_accuracy : forall lm b m src sps dst dps i k,
  converts lm b m src sps dst dps -> levels_ok m src sps ->
  sampling_of (im_format src) <> SRGB -> sampling_of (im_format dst) = SRGB ->
  im_color src = CYUV i -> weights_of (yc_space i) = Some k -> yc_space i <> SpBT2020 ->
  same_light (im_color src) (im_color dst) = true ->
  forall x y, in_image dst x y ->
  let Y := level_y (yc_full_range i) (IZR (max_level (im_format src))) (level m (im_format src) sps CY x y) in
  let U := level_c (yc_full_range i) (IZR (max_level (im_format src))) (level m (im_format src) sps CU x y) in
  let V := level_c (yc_full_range i) (IZR (max_level (im_format src))) (level m (im_format src) sps CV x y) in
  forall c q, (c = CR /\ q = red k Y U V) \/ (c = CG /\ q = green k Y U V) \/ (c = CB /\ q = blue k Y U V) ->
  exists z, stored lm b m src dst dps c x y = Some z /\
    stored_for (column_backend b (im_width dst) x) (255 / 50000) (clamp 255 (255 * q)) z /\
    (0 <= z <= 255)%Z.
Proof.
  intros lm b m src sps dst dps i k CV LV SS SD CI WK N20 SL x y HI Y U V c q HQ.
  pose proof (matrix_known _ _ WK N20) as K.
  pose proof (converts_convertible _ _ _ _ _ _ _ CV) as CT.
  assert (VS : valid_image src sps) by apply CV.
  assert (SK : same_image_kind src dst = false).
  { unfold same_image_kind. apply andb_false_iff; left. destruct (im_format src), (im_format dst); try reflexivity; cbn in SS, SD; congruence. }
  assert (II : forall x y, in_image dst x y -> in_image src x y).
  { intros x' y' (A & B). unfold in_image. rewrite (cv_width _ _ _ _ CT), (cv_height _ _ _ _ CT). auto. }
  destruct (to_rgb_acc lm b m src sps dst dps (red_at k m src sps i) (green_at k m src sps i) (blue_at k m src sps i) (190 * u7)
    CV (conj SK SL) SD ltac:(unfold u7; lra) (fun L x y H => yuv_source_acc L m src sps i k x y VS LV SS CI K (II x y H)) c x y HI
    (match c with CR => red_at | CG => green_at | _ => blue_at end k m src sps i)) as (z & ST & SF & Z0).
  { destruct HQ as [(-> & _)|[(-> & _)|(-> & _)]]; auto. }
  assert (E : (match c with CR => red_at | CG => green_at | _ => blue_at end k m src sps i x y) = q)
    by (destruct HQ as [(-> & ->)|[(-> & ->)|(-> & ->)]]; reflexivity).
  rewrite E in SF. exists z. split; [exact ST|].
  assert (SF' : stored_for (column_backend b (im_width dst) x) (255 / 50000) (clamp 255 (255 * q)) z)
    by (eapply stored_for_weaken; [exact SF|unfold u7; lra]).
  split; [exact SF'|]. split; [exact Z0|].
  assert (ZM : IZR z < 256).
  { destruct (clamp_cases 255 (255 * q)) as [(? & EC)|[(? & EC)|(? & EC)]]; try lra; rewrite EC in SF';
    destruct (column_backend b (im_width dst) x); cbn [stored_for] in SF'; unfold truncated, rounded in SF'; try lra; apply Rabs_le_inv in SF'; lra. }
  apply lt_IZR in ZM. lia.
Qed.
Print Assumptions C49_yuv_to_rgb_accuracy.

(** 2x2 I420 (BT.709, full range) to RGBA *)
Example C49_example : forall b,
  converts ex_lm b ex_mem (ex_i420 0 ex_yuv) (ex_yuv_planes 0) (ex_rgba22 1 TLinear) (ex_rgba_planes 1) /\
  levels_ok ex_mem (ex_i420 0 ex_yuv) (ex_yuv_planes 0) /\
  same_light ex_yuv (im_color (ex_rgba22 1 TLinear)) = true /\
  map (fun c => given ex_mem (ex_i420 0 ex_yuv) (ex_yuv_planes 0) c 1 1) [CY; CU; CV] = [Some 21%Z; Some 28%Z; Some 35%Z] /\
  map (fun c => stored ex_lm b ex_mem (ex_i420 0 ex_yuv) (ex_rgba22 1 TLinear) (ex_rgba_planes 1) c 1 1) [CR; CG; CB]
    = [Some 0%Z; Some 82%Z; Some 0%Z].
Proof.
  intros b. split; [ex_converts b|]. split; [apply bytes_levels; [apply ex_mem_bytes|reflexivity]|].
  split; [reflexivity|]. split; [reflexivity|]. destruct b; vm_compute; reflexivity.
Qed.

(** * C50: YUV to YUV *)

(** Converting between YUV images (BT.601 or BT.709; any sub-sampling, depth
    and range) without change of the transfer function or the primaries: every
    sample is the level of the decoded colors, up to 1/30000 of full scale.
    AVX-512 needs the level to be representable (its stores wrap around). *)
Theorem C50_yuv_to_yuv_accuracy : forall lm b m src sps dst dps is ks id kd,
  converts lm b m src sps dst dps -> same_image_kind src dst = false -> levels_ok m src sps ->
  sampling_of (im_format src) <> SRGB -> sampling_of (im_format dst) <> SRGB ->
  im_color src = CYUV is -> weights_of (yc_space is) = Some ks -> yc_space is <> SpBT2020 ->
  im_color dst = CYUV id -> weights_of (yc_space id) = Some kd -> yc_space id <> SpBT2020 ->
  same_light (im_color src) (im_color dst) = true ->
  forall c x y, has_comp (im_format dst) c = true -> in_image dst x y ->
  let t := ideal_level kd (yc_full_range id) (im_format dst) (red_at ks m src sps is) (green_at ks m src sps is) (blue_at ks m src sps is) c x y in
  let hi := IZR (if (sample_bytes (im_format dst) =? 2)%nat then 65535 else 255) in
  (column_backend b (im_width dst) x = AVX512 -> 0 <= t <= hi) ->
  exists z, stored lm b m src dst dps c x y = Some z /\
    stored_for (column_backend b (im_width dst) x) (IZR (max_level (im_format dst)) / 30000) (clamp hi t) z.
Proof.
  intros lm b m src sps dst dps is ks id kd CV SK LV SS SD CIS WS NS CID WD ND SL c x y HC HI t hi RG.
  pose proof (matrix_known _ _ WS NS) as KS. pose proof (matrix_known _ _ WD ND) as KD.
  pose proof (converts_convertible _ _ _ _ _ _ _ CV) as CT.
  assert (VS : valid_image src sps) by apply CV.
  assert (II : forall x y, in_image dst x y -> in_image src x y).
  { intros x' y' (A & B). unfold in_image. rewrite (cv_width _ _ _ _ CT), (cv_height _ _ _ _ CT). auto. }
  destruct (to_yuv_acc lm b m src sps dst dps id kd (red_at ks m src sps is) (green_at ks m src sps is) (blue_at ks m src sps is) (190 * u7)
    CV (conj SK SL) SD CID KD ltac:(unfold u7; lra) (fun L x y H => yuv_source_acc L m src sps is ks x y VS LV SS CIS KS (II x y H)) c x y HC HI)
    as (z & ST & SF & _).
  { fold t. intros A. specialize (RG A). unfold hi in RG. fold (top (im_format dst)) in RG. lra. }
  exists z. split; [exact ST|]. eapply stored_for_weaken; [exact SF|].
  pose proof (max_level_R (im_format dst)). unfold u7. lra.
Qed.
Print Assumptions C50_yuv_to_yuv_accuracy.

(** The same color space: luma is rescaled, chroma is averaged and rescaled. *)
Lemma same_space_ideal : forall s k full f m im ps i c x y, weights_known s k -> has_comp f c = true ->
  ideal_level k full f (red_at k m im ps i) (green_at k m im ps i) (blue_at k m im ps i) c x y
    = match c with
      | CU => c_level full (IZR (max_level f)) (chroma_mean (sampling_of f) (u_at m im ps i) x y)
      | CV => c_level full (IZR (max_level f)) (chroma_mean (sampling_of f) (v_at m im ps i) x y)
      | _ => y_level full (IZR (max_level f)) (y_at m im ps i x y)
      end.
Proof.
  intros s k full f m im ps i c x y K HC. unfold ideal_level.
  assert (E1 : forall y u v, luma k (red k y u v) (green k y u v) (blue k y u v) = y).
  { intros. destruct K as [(_ & ->)|(_ & ->)]; unfold_k; field. }
  assert (MEAN : forall qy qu qv x y,
    chroma_mean (sampling_of f) (fun x y => red k (qy x y) (qu x y) (qv x y)) x y
      = red k (chroma_mean (sampling_of f) qy x y) (chroma_mean (sampling_of f) qu x y) (chroma_mean (sampling_of f) qv x y) /\
    chroma_mean (sampling_of f) (fun x y => green k (qy x y) (qu x y) (qv x y)) x y
      = green k (chroma_mean (sampling_of f) qy x y) (chroma_mean (sampling_of f) qu x y) (chroma_mean (sampling_of f) qv x y) /\
    chroma_mean (sampling_of f) (fun x y => blue k (qy x y) (qu x y) (qv x y)) x y
      = blue k (chroma_mean (sampling_of f) qy x y) (chroma_mean (sampling_of f) qu x y) (chroma_mean (sampling_of f) qv x y)).
  { intros qy qu qv x' y'. unfold chroma_mean, mean. destruct (sampling_of f); unfold chroma_block; cbn [map fold_right length fst snd];
      simpl INR; destruct K as [(_ & ->)|(_ & ->)]; unfold_k; (split; [|split]); field. }
  assert (E2 : forall y u v, cb k (red k y u v) (green k y u v) (blue k y u v) = u /\ cr k (red k y u v) (green k y u v) (blue k y u v) = v).
  { intros. destruct K as [(_ & ->)|(_ & ->)]; unfold_k; split; field. }
  unfold red_at, green_at, blue_at. destruct c; try (rewrite E1; reflexivity);
    destruct (MEAN (y_at m im ps i) (u_at m im ps i) (v_at m im ps i) x y) as (-> & -> & ->); destruct (E2 (chroma_mean (sampling_of f) (y_at m im ps i) x y)
      (chroma_mean (sampling_of f) (u_at m im ps i) x y) (chroma_mean (sampling_of f) (v_at m im ps i) x y)) as (EU & EV); rewrite ?EU, ?EV; reflexivity.
Qed.

(** * C23: a change of the memory layout only *)

(** The destination is not sub-sampled more than the source. *)
Definition not_coarser (src dst : sampling) : bool :=
  match src, dst with
  | S420, _ | S422, (S422 | S444) | S444, S444 => true
  | _, _ => false
  end.

Lemma div2_even : forall x, (2 * (x / 2) / 2 = x / 2)%nat.
Proof. intros x. rewrite Nat.mul_comm. apply Nat.div_mul. lia. Qed.
Lemma div2_odd : forall x, (S (2 * (x / 2)) / 2 = x / 2)%nat.
Proof. intros x. rewrite <- Nat.add_1_l, (Nat.mul_comm 2), Nat.div_add by lia. reflexivity. Qed.

Lemma shared_chroma : forall m f f' ps c x y p, not_coarser (sampling_of f) (sampling_of f') = true -> c = CU \/ c = CV ->
  In p (chroma_block (sampling_of f') x y) -> component m f ps c (fst p) (snd p) = component m f ps c x y.
Proof.
  intros m f f' ps c x y p NC HC HP. unfold component. replace (layout f c (fst p) (snd p)) with (layout f c x y); [reflexivity|].
  unfold chroma_block in HP.
  destruct (sampling_of f'), f; try discriminate NC; destruct HC as [-> | ->]; cbn [In] in HP;
    repeat (destruct HP as [<- |HP]; [cbn [fst snd layout]; rewrite ?div2_even, ?div2_odd; reflexivity|]); contradiction.
Qed.

Lemma level_y_inv : forall full M l, 1 <= M -> y_level full M (level_y full M l) = l.
Proof. intros [] M l H; unfold y_level, level_y; field; lra. Qed.
Lemma level_c_inv : forall full M l, 1 <= M -> c_level full M (level_c full M l) = l.
Proof. intros [] M l H; unfold c_level, level_c; field; lra. Qed.

Lemma chroma_mean_const : forall s (q : nat -> nat -> R) v x y, (forall p, In p (chroma_block s x y) -> q (fst p) (snd p) = v) -> chroma_mean s q x y = v.
Proof.
  intros s q v x y Q. unfold chroma_mean, mean. rewrite (map_ext_in _ (fun _ => v) _ Q).
  destruct s; unfold chroma_block; cbn [map fold_right length]; simpl INR; field.
Qed.

(** Same color information and sample depth, and no more sub-sampling than the
    source has: every sample is kept where the vectors of AVX2 and AVX-512
    store it, and is kept or one less where scalar code or NEON stores it. *)
Theorem C23_relayout_within_one : forall lm b m src sps dst dps i,
  converts lm b m src sps dst dps -> levels_ok m src sps ->
  im_color src = CYUV i -> im_color dst = CYUV i -> yc_space i = SpBT601 \/ yc_space i = SpBT709 ->
  sampling_of (im_format src) <> SRGB -> sampling_of (im_format dst) <> SRGB ->
  not_coarser (sampling_of (im_format src)) (sampling_of (im_format dst)) = true ->
  max_level (im_format src) = max_level (im_format dst) ->
  forall c x y z, has_comp (im_format dst) c = true -> in_image dst x y -> given m src sps c x y = Some z ->
  exists z', stored lm b m src dst dps c x y = Some z' /\ (z - 1 <= z' <= z)%Z /\
    (column_backend b (im_width dst) x = AVX2 \/ column_backend b (im_width dst) x = AVX512 -> z' = z).
Proof.
  intros lm b m src sps dst dps i CVT LV CS CD SP SS SD NC MM c x y z HC HI G.
  destruct (same_image_kind src dst) eqn:SK.
  { exists z. pose proof (converts_convertible _ _ _ _ _ _ _ CVT) as CT. split; [|split; [lia|reflexivity]].
    eapply C20_same_format_exact; eauto. eapply LV; [|exact G]. destruct HI. unfold in_image.
    rewrite (cv_width _ _ _ _ CT), (cv_height _ _ _ _ CT). auto. }
  assert (W : exists k, weights_of (yc_space i) = Some k /\ yc_space i <> SpBT2020).
  { destruct SP as [-> | ->]; cbn; eexists; (split; [reflexivity|discriminate]). }
  destruct W as (k & WK & N20). pose proof (matrix_known _ _ WK N20) as K.
  pose proof (max_level_R (im_format dst)) as MR.
  assert (T : ideal_level k (yc_full_range i) (im_format dst) (red_at k m src sps i) (green_at k m src sps i) (blue_at k m src sps i) c x y = IZR z).
  { rewrite (same_space_ideal (yc_space i)) by assumption.
    assert (LZ : level m (im_format src) sps c x y = IZR z) by (unfold level; unfold given in G; rewrite G; reflexivity).
    assert (CC : c = CY \/ c = CU \/ c = CV).
    { unfold has_comp in HC. destruct (sampling_of (im_format dst)), c; auto; congruence. }
    assert (SH : forall p, c = CU \/ c = CV -> In p (chroma_block (sampling_of (im_format dst)) x y) ->
      level m (im_format src) sps c (fst p) (snd p) = IZR z).
    { intros p HCC HP. rewrite <- LZ. unfold level. erewrite shared_chroma by eassumption. reflexivity. }
    destruct CC as [-> |[-> | ->]].
    - unfold y_at. rewrite LZ, MM. apply level_y_inv; lra.
    - rewrite (chroma_mean_const _ _ (level_c (yc_full_range i) (IZR (max_level (im_format src))) (IZR z))).
      + rewrite MM. apply level_c_inv; lra.
      + intros p HP. unfold u_at. rewrite SH; auto.
    - rewrite (chroma_mean_const _ _ (level_c (yc_full_range i) (IZR (max_level (im_format src))) (IZR z))).
      + rewrite MM. apply level_c_inv; lra.
      + intros p HP. unfold v_at. rewrite SH; auto. }
  assert (ZR : (0 <= z <= max_level (im_format dst))%Z).
  { pose proof (converts_convertible _ _ _ _ _ _ _ CVT) as CT. rewrite <- MM. eapply LV; [|exact G]. destruct HI. unfold in_image.
    rewrite (cv_width _ _ _ _ CT), (cv_height _ _ _ _ CT). auto. }
  pose proof (top_max (im_format dst)) as TM. unfold top in TM.
  assert (HZ : 0 <= IZR z <= IZR (if (sample_bytes (im_format dst) =? 2)%nat then 65535 else 255)) by (split; apply IZR_le; lia).
  destruct (C50_yuv_to_yuv_accuracy lm b m src sps dst dps i k i k CVT SK LV SS SD CS WK N20 CD WK N20) with (c := c) (x := x) (y := y)
    as (z' & ST & SF); try assumption.
  { rewrite CS, CD. unfold same_light. destruct (ci_transfer (CYUV i)), (ci_primaries (CYUV i)); reflexivity. }
  { rewrite T. intros _. exact HZ. }
  rewrite T, clamp_id in SF by exact HZ. exists z'. split; [exact ST|].
  assert (D : -2 < IZR z' - IZR z < 1 /\ (column_backend b (im_width dst) x = AVX2 \/ column_backend b (im_width dst) x = AVX512 -> -1 < IZR z' - IZR z < 1)).
  { destruct (column_backend b (im_width dst) x); cbn [stored_for] in SF; unfold truncated, rounded in SF;
      try (apply Rabs_le_inv in SF); (split; [lra|intros [H|H]; try discriminate H; lra]). }
  rewrite <- minus_IZR in D. destruct D as (D & E). split.
  - destruct D as (D1 & D2). apply lt_IZR in D1, D2. lia.
  - intros H. destruct (E H) as (E1 & E2). apply lt_IZR in E1, E2. lia.
Qed.
Print Assumptions C23_relayout_within_one.

(** The case of C23_refuted (I420 to NV12), and one with vectors *)
Definition wide_i420_planes : list (slice * nat) := [(Slice 0 0 32, 16); (Slice 0 32 8, 8); (Slice 0 40 8, 8)]%nat.
Definition wide_nv12_planes : list (slice * nat) := [(Slice 1 0 32, 16); (Slice 1 32 16, 16)]%nat.
Definition wide_i420 : image := ex_image I420 16 2 ex_yuv wide_i420_planes.
Definition wide_nv12 : image := ex_image NV12 16 2 ex_yuv wide_nv12_planes.

Example C23_relayout_example : forall b,
  converts ex_lm b ex_mem wide_i420 wide_i420_planes wide_nv12 wide_nv12_planes /\ levels_ok ex_mem wide_i420 wide_i420_planes /\
  same_image_kind wide_i420 wide_nv12 = false /\
  not_coarser (sampling_of I420) (sampling_of NV12) = true /\ column_backend AVX2 16 3 = AVX2 /\
  map (fun x => given ex_mem wide_i420 wide_i420_planes CV x 1) [0; 2; 4; 6]%nat = [Some 24; Some 31; Some 38; Some 45]%Z /\
  map (fun x => stored ex_lm b ex_mem wide_i420 wide_nv12 wide_nv12_planes CV x 1) [0; 2; 4; 6]%nat
    = match b with
      | AVX2 => [Some 24; Some 31; Some 38; Some 45]%Z
      | _ => [Some 23; Some 30; Some 37; Some 44]%Z
      end.
Proof.
  intros b. split.
  { split; [|split; [|split; [|split; [discriminate|destruct b; vm_compute; reflexivity]]]];
      try (split; [reflexivity|split; [repeat constructor; cbn; unfold usize; cbn; lia|reflexivity]]).
    intros i j a c H Ha Hc k K. destruct i as [|[|i]], j as [|[|j]]; cbn in Ha, Hc; try discriminate Ha; try discriminate Hc;
      try (destruct (H eq_refl)); try (destruct i; discriminate Ha); try (destruct j; discriminate Hc);
      injection Ha as <-; injection Hc as <-; cbn in K; lia. }
  split; [apply bytes_levels; [apply ex_mem_bytes|reflexivity]|]. repeat (split; [reflexivity|]). destruct b; vm_compute; reflexivity.
Qed.
