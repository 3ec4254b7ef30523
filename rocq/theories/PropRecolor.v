(** C54, C55: what convert does when the transfer function or the primaries
    change. *)

From Coq Require Import List ZArith Bool Arith Reals Lia Lra Psatz.
From Coq Require Import Floats.SpecFloat.
From Flocq Require Import Core.
From Verif Require Import Base Types Planes ImageM F32 Vector Simd SpecVector SimdProofs QuantProofs SpecGeom GeomProofs
  SpecColor SpecConvert SpecRun Formats Visit Convert VisitProofs ColorProofs ConvertProofs ExactProofs PropConvert PropFidelity
  SpecReal FloatProofs AccProofs TargetProofs PropColor ColorR SpecTransfer PowerProofs MathProofs SpecMath LaneProofs TransferProofs
  Math NegProofs RecolorProofs.
Import ListNotations.
Local Open Scope R_scope.

(** Linear light of a color in the primaries of the destination, as real
    numbers; the components can be negative or above 1 when the color is outside
    of the gamut of the destination *)
Definition light_of (ts : color_transfer) (ps pd : color_primaries) (r g b : R) : R * R * R :=
  from_xyz pd (to_xyz ps (decoded ts r, decoded ts g, decoded ts b)).

Definition channel (c : comp) (w : R * R * R) : R :=
  match c with CR => fst3 w | CG => snd3 w | _ => thd3 w end.

(** Requirements on [f32::powf] and [f32::ln] of the platform, for columns that
    are processed with scalar code *)
Definition platform_pow sp sl (cb : backend) : Prop :=
  cb = Scalar -> pow_accurate sp /\ ln_accurate sl /\ pow_negative sp.

Lemma light_kind : forall src dst, same_light (im_color src) (im_color dst) = false -> same_image_kind src dst = false.
Proof.
  intros src dst H. unfold same_image_kind. destruct (color_info_eqb (im_color src) (im_color dst)) eqn:E; [|apply andb_false_r].
  unfold color_info_eqb in E. destruct (color_info_eq_dec _ _) as [EQ|]; [|discriminate E]. rewrite EQ in H. unfold same_light in H. destruct (ci_transfer _), (ci_primaries _); discriminate H.
Qed.

(** * C55: RGB to RGB *)

(** Every stored sample encodes the linear light of the pixel, up to 1/20000 of
    the reference white and the rounding of the integer; light outside of the
    gamut of the destination is clipped *)
Theorem C55_recolor : forall sp sl b m src sps dst dps,
  converts (libm_of sp sl) b m src sps dst dps -> bytes_ok m ->
  sampling_of (im_format src) = SRGB -> sampling_of (im_format dst) = SRGB ->
  same_light (im_color src) (im_color dst) = false ->
  let ts := ci_transfer (im_color src) in
  let td := ci_transfer (im_color dst) in
  ts <> TBT2100PQ -> td <> TBT2100PQ ->
  forall c x y, In c [CR; CG; CB] -> in_image dst x y ->
  let cb := column_backend b (im_width dst) x in
  platform_pow sp sl cb ->
  let s c := level m (im_format src) sps c x y / 255 in
  let exact := channel c (light_of ts (ci_primaries (im_color src)) (ci_primaries (im_color dst)) (s CR) (s CG) (s CB)) in
  exists z light, stored (libm_of sp sl) b m src dst dps c x y = Some z /\ (0 <= z <= 255)%Z /\
    Rabs (light - exact) <= 1 / 20000 /\
    stored_for cb (255 * (6 / 1000000)) (clamp 255 (255 * encoded td (Rmax 0 light))) z.
Proof.
  intros sp sl b m src sps dst dps CV B FS FD SL ts td TS TD c x y HC HI cb PL s exact.
  pose proof (light_kind _ _ SL) as SK.
  assert (HD : has_comp (im_format dst) c = true) by (unfold has_comp; rewrite FD; cbn [In] in HC; intuition (subst; reflexivity)).
  assert (ICT : ictcp_chroma420 (im_format dst) (im_color dst) c = false) by (unfold ictcp_chroma420; rewrite FD; reflexivity).
  rewrite (stored_expected _ _ _ _ _ _ _ CV c x y HD HI ICT). fold cb.
  set (L := lane_of (libm_of sp sl) cb).
  assert (A : accurate L) by (apply lane_accurate; intros E; destruct (PL E) as (? & ? & ?); auto).
  assert (PN : pow_negative (l_pow L)) by (apply lane_negative; intros E; apply PL, E).
  pose proof (converts_convertible _ _ _ _ _ _ _ CV) as CT.
  assert (V : valid_image src sps) by apply CV.
  assert (MS : max_level (im_format src) = 255%Z) by (destruct (im_format src); try discriminate FS; reflexivity).
  assert (LV : forall c, In c [CR; CG; CB] -> exists z, (0 <= z <= 255)%Z /\ s c = IZR z / 255 /\ norm m (im_format src) sps c x y = fdiv (f32_of_Z z) (f32_of_Z 255)).
  { intros c' H'. assert (H1 : has_comp (im_format src) c' = true) by (unfold has_comp; rewrite FS; cbn [In] in H'; intuition (subst; reflexivity)).
    destruct (given_some m src sps c' x y V H1) as (z & G). exists z. pose proof (given_range _ _ _ _ _ _ _ B G) as R.
    assert (SB : sample_bytes (im_format src) = 1%nat) by (destruct (im_format src); try discriminate FS; reflexivity). rewrite SB in R. cbn in R.
    unfold s, level, norm. unfold given in G. rewrite G, MS. split; [lia|]. auto. }
  destruct (LV CR ltac:(cbn; auto)) as (zr & Zr & Sr & Nr). destruct (LV CG ltac:(cbn; auto)) as (zg & Zg & Sg & Ng).
  destruct (LV CB ltac:(cbn; auto)) as (zb & Zb & Sb & Nb).
  pose proof (decode_level L ts zr A TS Zr) as Dr. pose proof (decode_level L ts zg A TS Zg) as Dg. pose proof (decode_level L ts zb A TS Zb) as Db.
  pose proof (decoded_range ts zr TS Zr) as Rr. pose proof (decoded_range ts zg TS Zg) as Rg. pose proof (decoded_range ts zb TS Zb) as Rb.
  rewrite <- Nr, <- Sr in *. rewrite <- Ng, <- Sg in *. rewrite <- Nb, <- Sb in *.
  set (w := (decoded ts (s CR), decoded ts (s CG), decoded ts (s CB))) in *.
  set (v := map3 (eotf L ts) (norm m (im_format src) sps CR x y, norm m (im_format src) sps CG x y, norm m (im_format src) sps CB x y)).
  assert (D3 : approx3 v w (57 / 10000000)) by (split; [exact Dr|split; [exact Dg|exact Db]]).
  destruct (to_xyz_acc (ci_primaries (im_color src)) v w _ D3 ltac:(repeat split; apply Rr || apply Rg || apply Rb) ltac:(lra)) as (X3 & XB).
  pose proof (from_xyz_acc (ci_primaries (im_color dst)) _ _ _ X3 XB ltac:(lra)) as F3.
  pose proof (linear_bound (ci_primaries (im_color src)) (ci_primaries (im_color dst)) w ltac:(repeat split; apply Rr || apply Rg || apply Rb)) as FB.
  assert (E3 : expected_value L m src sps dst c x y
     = oetf L td (match c with CR => fst3 | CG => snd3 | _ => thd3 end (from_xyz (ci_primaries (im_color dst)) (to_xyz (ci_primaries (im_color src)) v)))).
  { unfold expected_value. rewrite SK. unfold target. rewrite FD. unfold recolored. rewrite SL. unfold source_pixel. rewrite FS. cbn [fst snd].
    unfold recolor. fold ts. fold td. fold v. destruct (from_xyz _ _) as ((q1, q2), q3). cbn [In] in HC.
    destruct HC as [<- |[<- |[<- |[]]]]; reflexivity. }
  rewrite E3. unfold exact, light_of. fold w.
  destruct (from_xyz (ci_primaries (im_color dst)) (to_xyz (ci_primaries (im_color src)) v)) as ((q1, q2), q3).
  destruct (from_xyz (ci_primaries (im_color dst)) (to_xyz (ci_primaries (im_color src)) w)) as ((p1, p2), p3).
  destruct F3 as (Q1 & Q2 & Q3). destruct FB as (P1 & P2 & P3).
  assert (END : forall q p, approx q p (58 / 10 * (111 / 100 * (57 / 10000000) + 11 / 10000000) + 25 / 10000000) -> Rabs p <= 3 ->
    exists z light, Some (quantise (quant_of cb) (im_format dst) (oetf L td q)) = Some z /\ (0 <= z <= 255)%Z /\
      Rabs (light - p) <= 1 / 20000 /\ stored_for cb (255 * (6 / 1000000)) (clamp 255 (255 * encoded td (Rmax 0 light))) z).
  { intros q p (NQ & EQ) BP. apply Rabs_le_inv in EQ. apply Rabs_le_inv in BP.
    destruct (encode_store L cb (im_format dst) td q A PN TD FD NQ ltac:(apply Rabs_le; lra)) as (X & EX & ST & ZB).
    exists (quantise (quant_of cb) (im_format dst) (oetf L td q)), X. split; [reflexivity|]. split; [exact ZB|]. apply Rabs_le_inv in EX.
    split; [apply Rabs_le; lra|]. destruct cb; cbn [stored_for] in *; unfold truncated, rounded in *; lra. }
  cbn [In] in HC. destruct HC as [<- |[<- |[<- |[]]]]; cbn [channel fst3 snd3 thd3 fst snd]; apply END; assumption.
Qed.
Print Assumptions C55_recolor.

(** In particular the sample itself, for destinations whose curve is not
    vertical at black: it is the encoded light, truncated or rounded, up to a
    quarter of a level *)
Theorem C55_recolor_levels : forall sp sl b m src sps dst dps,
  converts (libm_of sp sl) b m src sps dst dps -> bytes_ok m ->
  sampling_of (im_format src) = SRGB -> sampling_of (im_format dst) = SRGB ->
  same_light (im_color src) (im_color dst) = false ->
  let ts := ci_transfer (im_color src) in
  let td := ci_transfer (im_color dst) in
  ts <> TBT2100PQ -> (td = TLinear \/ td = TSRGB \/ td = TSDR) ->
  forall c x y, In c [CR; CG; CB] -> in_image dst x y ->
  let cb := column_backend b (im_width dst) x in
  platform_pow sp sl cb ->
  let s c := level m (im_format src) sps c x y / 255 in
  let exact := channel c (light_of ts (ci_primaries (im_color src)) (ci_primaries (im_color dst)) (s CR) (s CG) (s CB)) in
  exists z, stored (libm_of sp sl) b m src dst dps c x y = Some z /\ (0 <= z <= 255)%Z /\
    stored_for cb (1 / 4) (clamp 255 (255 * encoded td (Rmax 0 exact))) z.
Proof.
  intros sp sl b m src sps dst dps CV B FS FD SL ts td TS TD c x y HC HI cb PL s exact.
  assert (TP : td <> TBT2100PQ) by (destruct TD as [-> |[-> | ->]]; discriminate).
  destruct (C55_recolor sp sl b m src sps dst dps CV B FS FD SL TS TP c x y HC HI PL) as (z & light & ST & ZB & LE & SF).
  change (Rabs (light - exact) <= 1 / 20000) in LE. change (stored_for cb (255 * (6 / 1000000)) (clamp 255 (255 * encoded td (Rmax 0 light))) z) in SF.
  clearbody exact td cb. exists z. split; [exact ST|]. split; [exact ZB|]. apply Rabs_le_inv in LE.
  assert (ML : Rabs (Rmax 0 light - Rmax 0 exact) <= 1 / 20000).
  { apply Rabs_le. unfold Rmax. destruct (Rle_dec 0 light), (Rle_dec 0 exact); lra. }
  apply Rabs_le_inv in ML. pose proof (Rmax_l 0 light). pose proof (Rmax_l 0 exact).
  set (p := Rmax 0 light) in *. set (q := Rmax 0 exact) in *.
  assert (D : Rabs (255 * encoded td p - 255 * encoded td q) <= 247 / 1000).
  { destruct (Rle_dec p q) as [PQ|PQ].
    - pose proof (encoded_lip td p q TD ltac:(lra)). apply Rabs_le. lra.
    - pose proof (encoded_lip td q p TD ltac:(lra)). apply Rabs_le. lra. }
  pose proof (clamp_near 255 _ _ _ ltac:(lra) D) as CN. apply Rabs_le_inv in CN.
  destruct cb; cbn [stored_for] in *; unfold truncated, rounded in *; try lra; apply Rabs_le_inv in SF; apply Rabs_le; lra.
Qed.
Print Assumptions C55_recolor_levels.

(** A BT.709 sRGB picture to BT.2020 HLG, and to linear light *)
Definition srgb22 : image := ex_image RGBA 2 2 (CRGB TSRGB PrBT709) (ex_rgba_planes 0).
Definition hlg22 : image := ex_image RGBA 2 2 (CRGB TBT2100HLG PrBT2020) (ex_rgba_planes 1).
Definition linear22 : image := ex_image RGBA 2 2 (CRGB TLinear PrBT709) (ex_rgba_planes 1).

Example C55_example : forall b,
  converts (libm_of avx_pow avx_log) b ex_mem srgb22 (ex_rgba_planes 0) hlg22 (ex_rgba_planes 1) /\
  converts (libm_of avx_pow avx_log) b ex_mem srgb22 (ex_rgba_planes 0) linear22 (ex_rgba_planes 1) /\
  bytes_ok ex_mem /\ same_light (im_color srgb22) (im_color hlg22) = false /\ same_light (im_color srgb22) (im_color linear22) = false /\
  (forall cb, platform_pow avx_pow avx_log cb) /\
  map (fun c => given ex_mem srgb22 (ex_rgba_planes 0) c 1 1) [CR; CG; CB] = [Some 84; Some 91; Some 98]%Z /\
  map (fun c => stored (libm_of avx_pow avx_log) b ex_mem srgb22 hlg22 (ex_rgba_planes 1) c 1 1) [CR; CG; CB] = [Some 135; Some 140; Some 149]%Z /\
  map (fun c => stored (libm_of avx_pow avx_log) b ex_mem srgb22 linear22 (ex_rgba_planes 1) c 1 1) [CR; CG; CB] = [Some 22; Some 26; Some 31]%Z.
Proof.
  intros b. split; [ex_converts b|]. split; [ex_converts b|]. split; [apply ex_mem_bytes|]. split; [reflexivity|]. split; [reflexivity|].
  split; [intros cb _; split; [exact avx_pow_ok|split; [exact (log_contract avx_log avx_log_ok)|exact avx_pow_negative]]|].
  split; [reflexivity|]. split; destruct b; vm_compute; reflexivity.
Qed.

(** * C54: colors outside of the gamut *)

Lemma nan_mul : forall x : f32, f32_mul S754_nan x = S754_nan /\ f32_mul x S754_nan = S754_nan.
Proof. intros [[|]|[|]| |[|] m e]; split; reflexivity. Qed.
Lemma nan_add : forall x : f32, f32_add S754_nan x = S754_nan /\ f32_add x S754_nan = S754_nan.
Proof. intros [[|]|[|]| |[|] m e]; split; reflexivity. Qed.
Lemma nan_dot : forall a b c x y z : f32, x = S754_nan \/ y = S754_nan \/ z = S754_nan -> dot a b c x y z = S754_nan.
Proof.
  intros a b c x y z H. unfold dot. cbn [fadd fmul f32_ops].
  destruct H as [-> |[-> | ->]]; rewrite ?(proj1 (nan_mul _)), ?(proj1 (nan_add _)), ?(proj2 (nan_add _)); try reflexivity.
Qed.

Lemma nan_xyz : forall p x y z, x = S754_nan \/ y = S754_nan \/ z = S754_nan -> to_xyz p (x, y, z) = (S754_nan, S754_nan, S754_nan).
Proof. intros p x y z H. destruct p; cbn [to_xyz]; rewrite !nan_dot by exact H; reflexivity. Qed.
Lemma nan_rgb : forall p, from_xyz p (S754_nan, S754_nan, S754_nan) = (S754_nan : f32, S754_nan : f32, S754_nan : f32).
Proof. intros p. destruct p; cbn [from_xyz]; rewrite !nan_dot by (left; reflexivity); reflexivity. Qed.

(** AVX2 and AVX-512 *)
Definition avx (b : backend) : Prop := b = AVX2 \/ b = AVX512.

Lemma avx_pow_nan : forall x y, is_num x -> fval x < 0 -> avx_pow x y = S754_nan.
Proof.
  intros x y N P.
  assert (L : avx_log x = S754_nan).
  { unfold avx_log. cbv zeta. destruct zero_num as (N0 & V0). rewrite (f32_le_num _ _ N0 N), V0.
    destruct (Rle_bool_spec 0 (fval x)); [lra|reflexivity]. }
  unfold avx_pow. rewrite L, (proj2 (nan_mul _)). vm_compute. reflexivity.
Qed.

Lemma avx_nan_encoded : forall sp sl b t, avx b -> t <> TBT2100PQ -> t <> TBT2100HLG ->
  oetf (lane_of (libm_of sp sl) b) t S754_nan = S754_nan.
Proof. intros sp sl b t [-> | ->] T1 T2; destruct t; try congruence; vm_compute; reflexivity. Qed.

(** A YUV source with gamma 2.2 or 2.8: a pixel with a negative red, green or
    blue is stored as black by AVX2 and AVX-512, whatever its other two
    components are *)
Theorem C54_out_of_gamut_black : forall sp sl b m src sps dst dps i k,
  converts (libm_of sp sl) b m src sps dst dps -> levels_ok m src sps ->
  sampling_of (im_format src) <> SRGB -> sampling_of (im_format dst) = SRGB ->
  im_color src = CYUV i -> weights_known (yc_space i) k ->
  yc_transfer i = TGamma22 \/ yc_transfer i = TGamma28 ->
  same_light (im_color src) (im_color dst) = false ->
  let td := ci_transfer (im_color dst) in td <> TBT2100PQ -> td <> TBT2100HLG ->
  forall c x y, In c [CR; CG; CB] -> in_image dst x y -> avx (column_backend b (im_width dst) x) ->
  red_at k m src sps i x y < - (1 / 50000) \/ green_at k m src sps i x y < - (1 / 50000) \/ blue_at k m src sps i x y < - (1 / 50000) ->
  stored (libm_of sp sl) b m src dst dps c x y = Some 0%Z.
Proof.
  intros sp sl b m src sps dst dps i k CV LV FS FD CI K TS SL td T1 T2 c x y HC HI AV NEG. set (cb := column_backend b (im_width dst) x) in *.
  pose proof (light_kind _ _ SL) as SK. pose proof (converts_convertible _ _ _ _ _ _ _ CV) as CT.
  assert (HD : has_comp (im_format dst) c = true) by (unfold has_comp; rewrite FD; cbn [In] in HC; intuition (subst; reflexivity)).
  assert (ICT : ictcp_chroma420 (im_format dst) (im_color dst) c = false) by (unfold ictcp_chroma420; rewrite FD; reflexivity).
  rewrite (stored_expected _ _ _ _ _ _ _ CV c x y HD HI ICT). fold cb. set (L := lane_of (libm_of sp sl) cb).
  assert (V : valid_image src sps) by apply CV.
  assert (HS : in_image src x y).
  { unfold in_image in *. rewrite (cv_width _ _ _ _ CT), (cv_height _ _ _ _ CT). exact HI. }
  destruct (yuv_source_acc L m src sps i k x y V LV FS CI K HS) as ((AR & AG & AB) & _).
  f_equal. rewrite <- (store_nan cb (im_format dst) FD). f_equal.
  unfold expected_value. rewrite SK. unfold target. rewrite FD. unfold recolored. rewrite SL.
  destruct (source_pixel L m (im_format src) (im_color src) sps x y) as (((r, g), bl), al). cbn [fst3 snd3 thd3 fst snd] in AR, AG, AB.
  cbn [fst snd]. unfold recolor. fold td.
  assert (PN : forall q, is_num q -> fval q < 0 -> eotf L (ci_transfer (im_color src)) q = S754_nan).
  { intros q NQ Q. rewrite CI. cbn [ci_transfer]. assert (LP : forall y, l_pow L q y = S754_nan).
    { intros y'. unfold L. destruct AV as [E|E]; rewrite E; apply avx_pow_nan; assumption. }
    destruct TS as [-> | ->]; cbn [eotf]; apply LP. }
  assert (NAN : map3 (eotf L (ci_transfer (im_color src))) (r, g, bl) = (S754_nan, eotf L (ci_transfer (im_color src)) g, eotf L (ci_transfer (im_color src)) bl) \/
    map3 (eotf L (ci_transfer (im_color src))) (r, g, bl) = (eotf L (ci_transfer (im_color src)) r, S754_nan, eotf L (ci_transfer (im_color src)) bl) \/
    map3 (eotf L (ci_transfer (im_color src))) (r, g, bl) = (eotf L (ci_transfer (im_color src)) r, eotf L (ci_transfer (im_color src)) g, S754_nan)).
  { destruct AR as (NR & ER), AG as (NG & EG), AB as (NB & EB). apply Rabs_le_inv in ER. apply Rabs_le_inv in EG. apply Rabs_le_inv in EB. unfold u7 in *.
    cbn [map3]. destruct NEG as [H|[H|H]]; [left; rewrite (PN r)|right; left; rewrite (PN g)|right; right; rewrite (PN bl)]; try reflexivity; try assumption; lra. }
  assert (X : to_xyz (ci_primaries (im_color src)) (map3 (eotf L (ci_transfer (im_color src))) (r, g, bl)) = (S754_nan, S754_nan, S754_nan))
    by (destruct NAN as [-> |[-> | ->]]; apply nan_xyz; auto).
  rewrite X, nan_rgb. unfold L. cbn [map3]. rewrite !avx_nan_encoded by assumption.
  cbn [In] in HC. destruct HC as [<- |[<- |[<- |[]]]]; reflexivity.
Qed.
Print Assumptions C54_out_of_gamut_black.

(** So clipping is not done channel by channel: a 4:4:4 picture, gamma 2.2, whose
    pixels have a red of -20.8, a green of 239.6 and a blue of 180.9, becomes a black
    one in linear light.  Only channels out of range would have to change. *)
Definition cyan_mem : mem := fun b i => if i <? 64 then 180%Z else if i <? 128 then 128%Z else 0%Z.
Definition cyan_planes : list (slice * nat) := [(Slice 0 0 64, 32); (Slice 0 64 64, 32); (Slice 0 128 64, 32)]%nat.
Definition cyan_info : yuv_color_info := YuvCI TGamma22 PrBT709 SpBT709 true.
Definition cyan : image := ex_image I444 32 2 (CYUV cyan_info) cyan_planes.
Definition cyan_dst_planes : list (slice * nat) := [(Slice 1 0 192, 96)]%nat.
Definition cyan_dst : image := ex_image RGB 32 2 (CRGB TLinear PrBT709) cyan_dst_planes.

Theorem C54_clipping_refuted : forall sp sl b, avx b ->
  converts (libm_of sp sl) b cyan_mem cyan cyan_planes cyan_dst cyan_dst_planes /\ levels_ok cyan_mem cyan cyan_planes /\
  (forall x y, in_image cyan x y ->
     red_at bt709 cyan_mem cyan cyan_planes cyan_info x y < 0 /\
     93 / 100 <= green_at bt709 cyan_mem cyan cyan_planes cyan_info x y <= 94 / 100 /\
     70 / 100 <= blue_at bt709 cyan_mem cyan cyan_planes cyan_info x y <= 71 / 100 /\
     stored (libm_of sp sl) b cyan_mem cyan cyan_dst cyan_dst_planes CG x y = Some 0%Z /\
     stored (libm_of sp sl) b cyan_mem cyan cyan_dst cyan_dst_planes CB x y = Some 0%Z).
Proof.
  intros sp sl b AV.
  assert (CNV : converts (libm_of sp sl) b cyan_mem cyan cyan_planes cyan_dst cyan_dst_planes).
  { split; [|split; [|split; [|split]]]; try (split; [reflexivity|split; [repeat constructor; cbn; unfold usize; cbn; lia|reflexivity]]).
    - apply single_disjoint.
    - intros _ p q a c P Q. destruct p as [|[|[|p]]], q as [|[|[|q]]]; try lia; cbn; intros E1 E2; injection E1 as <-; injection E2 as <-; reflexivity.
    - destruct AV as [-> | ->]; vm_compute; reflexivity. }
  assert (B : bytes_ok cyan_mem) by (intros bb j; unfold cyan_mem; destruct (j <? 64)%nat, (j <? 128)%nat; lia).
  assert (LV : levels_ok cyan_mem cyan cyan_planes) by (apply bytes_levels; [exact B|reflexivity]).
  split; [exact CNV|]. split; [exact LV|]. intros x y HI.
  assert (LC : level cyan_mem I444 cyan_planes CY x y = 180 /\ level cyan_mem I444 cyan_planes CU x y = 128 /\ level cyan_mem I444 cyan_planes CV x y = 0).
  { destruct HI as (HX & HY). change (im_width cyan) with 32%nat in HX. change (im_height cyan) with 2%nat in HY.
    assert (Q : forall c z, forallb (fun y => forallb (fun x => match component cyan_mem I444 cyan_planes c x y with Some v => Z.eqb v z | None => false end) (seq 0 32)) (seq 0 2) = true ->
      level cyan_mem I444 cyan_planes c x y = IZR z).
    { intros c z F. rewrite forallb_forall in F. specialize (F y ltac:(apply in_seq; lia)). rewrite forallb_forall in F. specialize (F x ltac:(apply in_seq; lia)).
      unfold level. destruct (component _ _ _ _ _ _) as [v|]; [|discriminate F]. apply Z.eqb_eq in F. rewrite F. reflexivity. }
    split; [|split]; apply Q; vm_compute; reflexivity. }
  destruct LC as (LY & LU & LW).
  assert (C : red_at bt709 cyan_mem cyan cyan_planes cyan_info x y < - (1 / 50000) /\
     93 / 100 <= green_at bt709 cyan_mem cyan cyan_planes cyan_info x y <= 94 / 100 /\
     70 / 100 <= blue_at bt709 cyan_mem cyan cyan_planes cyan_info x y <= 71 / 100).
  { unfold red_at, green_at, blue_at, y_at, u_at, v_at. change (im_format cyan) with I444. rewrite LY, LU, LW.
    unfold level_y, level_c, green, red, blue, bt709, w_g. cbn [yc_full_range cyan_info max_level w_r w_b]. lra. }
  destruct C as (C1 & C2 & C3). split; [lra|]. split; [exact C2|]. split; [exact C3|].
  assert (AC : avx (column_backend b (im_width cyan_dst) x)).
  { destruct HI as (HX & _). change (im_width cyan) with 32%nat in HX. change (im_width cyan_dst) with 32%nat. unfold column_backend.
    assert (E : vector_columns (lanes b) 32 = 32%nat) by (destruct AV as [-> | ->]; reflexivity). rewrite E.
    replace (x <? 32)%nat with true by (symmetry; apply Nat.ltb_lt; exact HX). exact AV. }
  split; apply (C54_out_of_gamut_black sp sl b cyan_mem cyan cyan_planes cyan_dst cyan_dst_planes cyan_info bt709); try assumption; try reflexivity; try discriminate; cbn; auto; right; split; reflexivity.
Qed.
Print Assumptions C54_clipping_refuted.
