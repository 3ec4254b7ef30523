(** C76 with a change of the transfer function or the primaries, continued: what
    convert stores for ICtCp if the source is YUV of another kind, and if the
    destination is in PQ. *)

From Coq Require Import List ZArith Bool Arith Reals Lia Lra Psatz.
From Flocq Require Import Core.
From Verif Require Import Base Types Planes ImageM F32 Vector Simd SpecVector SimdProofs QuantProofs SpecGeom GeomProofs
  SpecColor SpecConvert SpecRun Formats Visit Convert VisitProofs ColorProofs ConvertProofs ExactProofs PropConvert PropFidelity
  SpecReal FloatProofs AccProofs TargetProofs PropColor ColorR SpecTransfer PowerProofs MathProofs SpecMath LaneProofs TransferProofs
  Math NegProofs RecolorProofs PropRecolor GamutProofs PropGamut PropBackends PropBackends2 SpecIctcp PropIctcp IctcpProofs WideProofs PropWide PropGray PqProofs PqEncProofs
  PropDrift PropBT2020 PropOut PropIctcpAcc PropIctcpPq PropIctcpGray PropGrayPq PropToPQ PropFromPQ PropPQ PropIctcpRecolor PropCodes PropIctcpLevels PropIctcpIn
  PropIctcpOther PropIctcpHlgRecolor.
From Verif Require PropTransfer.
Import ListNotations.
Local Open Scope R_scope.

(** * Light that is encoded and decoded again *)

(** Which light survives: with PQ all that is not too bright (what is below 0
    becomes 0), with the other curves what is within the gamut *)
Definition survives (t : color_transfer) (p : R) : Prop := match t with TBT2100PQ => p <= 12 / 10 | _ => in_gamut p end.

(** Accuracy of the cone responses. 1.0 is 1 cd/m2, the dark end of PQ. *)
Definition response_error (t : color_transfer) : R := match t with TBT2100PQ => 1 / 30 | _ => 1 / 1000 end.

Lemma light_kept : forall sp sl b t q p e, let L := lane_of (libm_of sp sl) b in
  accurate L -> restores t \/ t = TBT2100PQ -> approx q p e -> 0 <= e <= 323 / 1000000 -> survives t p ->
  approx (eotf L t (oetf L t q)) (Rmax 0 p) (match t with TBT2100PQ => 332 / 10000 | _ => 994 / 1000000 end) /\ 0 <= Rmax 0 p <= 12 / 10.
Proof.
  intros sp sl b t q p e L A T AP EB SV. pose proof (Rmax_l 0 p) as P0.
  assert (P1 : Rmax 0 p <= 12 / 10).
  { destruct T as [[-> |[-> | ->]]| ->]; cbn in SV; unfold in_gamut in SV; apply Rmax_lub; lra. }
  split; [|lra]. destruct T as [T| ->].
  - assert (G : - (1 / 100000) <= p <= 1 + 1 / 100000) by (destruct T as [-> |[-> | ->]]; exact SV).
    set (p' := Rmin 1 (Rmax 0 p)). assert (PP : 0 <= p' <= 1).
    { unfold p'. split; [apply Rmin_glb; lra|apply Rmin_l]. }
    assert (D1 : Rabs (p - p') <= 1 / 100000).
    { unfold p', Rmin, Rmax. destruct (Rle_dec 0 p); destruct (Rle_dec 1 _); apply Rabs_le; lra. }
    assert (D2 : Rabs (p' - Rmax 0 p) <= 1 / 100000).
    { unfold p', Rmin, Rmax. destruct (Rle_dec 0 p); destruct (Rle_dec 1 _); apply Rabs_le; lra. }
    assert (AP' : approx q p' (e + 1 / 100000)) by (eapply approx_weaken; [exact AP|lra]).
    pose proof (restored_near sp sl b t q p' (e + 1 / 100000) A T AP' PP ltac:(lra)) as R.
    eapply approx_weaken; [exact R|]. destruct T as [-> |[-> | ->]]; lra.
  - cbn in SV. destruct AP as (N & E). apply Rabs_le_inv in E.
    pose proof (pq_again L q A N ltac:(lra)) as R.
    assert (D : Rabs (Rmax (fval q) 0 - Rmax 0 p) <= e).
    { unfold Rmax. destruct (Rle_dec (fval q) 0), (Rle_dec 0 p); apply Rabs_le; lra. }
    eapply approx_weaken; [exact R|]. apply Rabs_le_inv in D as D'. lra.
Qed.

(** * C76 *)

(** One sample, from any source whose light is known *)
Lemma other_sample : forall sp sl b m src sps dst dps i e (w : nat -> nat -> R * R * R) c x y,
  converts (libm_of sp sl) b m src sps dst dps -> sampling_of (im_format dst) <> SRGB ->
  im_color dst = CYUV i -> is_bt2100 (yc_space i) ->
  same_light (im_color src) (im_color dst) = false ->
  restores (yc_transfer i) \/ yc_transfer i = TBT2100PQ -> 0 <= e <= 122 / 1000000 ->
  has_comp (im_format dst) c = true -> in_image dst x y ->
  (sampling_of (im_format dst) = S420 -> c = CY) ->
  let cb := column_backend b (im_width dst) x in
  let L := lane_of (libm_of sp sl) cb in
  accurate L ->
  let block := (x, y) :: chroma_block (sampling_of (im_format dst)) x y in
  (forall p, In p block ->
    approx3 (map3 (eotf L (ci_transfer (im_color src))) (fst (source_pixel L m (im_format src) (im_color src) sps (fst p) (snd p)))) (w (fst p) (snd p)) e /\
    (let '(x, y, z) := w (fst p) (snd p) in 0 <= x <= 12 / 10 /\ 0 <= y <= 12 / 10 /\ 0 <= z <= 12 / 10)) ->
  let light x y := from_xyz (yc_primaries i) (to_xyz (ci_primaries (im_color src)) (w x y)) in
  (forall p, In p block -> forall c, In c comps -> survives (yc_transfer i) (channel c (light (fst p) (snd p)))) ->
  exists l m' n,
    (forall p, In p block -> let x := fst p in let y := snd p in
      SpecIctcp.within3 (response_error (yc_transfer i)) (l x y, m' x y, n x y)
        (cones (yc_primaries i) (Rmax 0 (channel CR (light x y))) (Rmax 0 (channel CG (light x y))) (Rmax 0 (channel CB (light x y)))) /\
      0 <= l x y /\ 0 <= m' x y /\ 0 <= n x y) /\
    let M := IZR (max_level (im_format dst)) in
    let E := M * ictcp_error (yc_space i) in
    let v := ictcp_level (yc_space i) (yc_full_range i) (im_format dst) l m' n c x y in
    let hi := IZR (top (im_format dst)) in
    exists z, stored (libm_of sp sl) b m src dst dps c x y = Some z /\ (0 <= z)%Z /\
      ((cb = AVX512 -> - (1 / 4) + E <= v <= hi + 1 / 4 - E) -> stored_for cb E (clamp hi v) z).
Proof.
  intros sp sl b m src sps dst dps i e w0 c x y CVT FD CI S SL TD EB HC HI N420 cb L A block SRC light SV.
  pose proof (light_kind _ _ SL) as SK.
  set (w := fun x y => (Rmax 0 (channel CR (light x y)), Rmax 0 (channel CG (light x y)), Rmax 0 (channel CB (light x y)))).
  set (er := match yc_transfer i with TBT2100PQ => 332 / 10000 | _ => 994 / 1000000 end).
  destruct (ictcp_sample sp sl b m src sps dst dps i er w c x y CVT FD SK CI S
    ltac:(unfold er; destruct (yc_transfer i); lra) HC HI N420 A) as (l & mm & n & H & R).
  { intros p HP. fold cb L. destruct (SRC p HP) as (D & W).
    pose proof (light_acc (ci_primaries (im_color src)) (yc_primaries i) _ _ _ D W ltac:(lra)) as F.
    pose proof (SV p HP CR ltac:(cbn; auto)) as G1. pose proof (SV p HP CG ltac:(cbn; auto)) as G2. pose proof (SV p HP CB ltac:(cbn; auto)) as G3.
    unfold recolored. rewrite SL.
    destruct (source_pixel L m (im_format src) (im_color src) sps (fst p) (snd p)) as (q, al). cbn [fst snd] in F |- *. unfold recolor, w.
    rewrite CI. cbn [ci_transfer ci_primaries]. unfold light in G1, G2, G3 |- *.
    destruct (from_xyz (yc_primaries i) (to_xyz (ci_primaries (im_color src)) (map3 (eotf L (ci_transfer (im_color src))) q))) as ((q1, q2), q3).
    destruct (from_xyz (yc_primaries i) (to_xyz (ci_primaries (im_color src)) _)) as ((p1, p2), p3).
    destruct F as (F1 & F2 & F3). unfold channel, fst3, snd3, thd3 in *. cbn [fst snd map3] in *.
    destruct (light_kept sp sl cb (yc_transfer i) q1 p1 _ A TD F1 ltac:(lra) G1) as (K1 & B1).
    destruct (light_kept sp sl cb (yc_transfer i) q2 p2 _ A TD F2 ltac:(lra) G2) as (K2 & B2).
    destruct (light_kept sp sl cb (yc_transfer i) q3 p3 _ A TD F3 ltac:(lra) G3) as (K3 & B3).
    split; [split; [exact K1|split; [exact K2|exact K3]]|auto]. }
  exists l, mm, n. split; [|exact R]. intros p HP x' y'. destruct (H p HP) as (W & PS). split; [|exact PS]. subst x' y'.
  change (cones (yc_primaries i) (Rmax 0 (channel CR (light (fst p) (snd p)))) (Rmax 0 (channel CG (light (fst p) (snd p)))) (Rmax 0 (channel CB (light (fst p) (snd p)))))
    with (cones (yc_primaries i) (fst3 (w (fst p) (snd p))) (snd3 (w (fst p) (snd p))) (thd3 (w (fst p) (snd p)))).
  destruct (cones _ _ _ _) as ((c1, c2), c3). destruct W as (W1 & W2 & W3). unfold er, response_error in *.
  destruct (yc_transfer i); (split; [|split]); lra.
Qed.

(** YUV to ICtCp with a change of the transfer function or the primaries: the cone
    responses are those of the light of the pixels in the primaries of the
    destination, up to 1/1000 (PQ: 1/30, which is the accuracy of the code around
    1 cd/m2).
    Missing: the chroma of 4:2:0 (see C19); PQ sources; gamma 2.2 and 2.8 and
    BT.709's transfer function of the destination; for destinations other than PQ,
    colors outside of the gamut of the destination; source colors outside of
    0 .. 1. *)
Theorem C76_other_yuv_to_ictcp_partial : forall sp sl b m src sps dst dps is k i,
  converts (libm_of sp sl) b m src sps dst dps -> levels_ok m src sps ->
  sampling_of (im_format src) <> SRGB -> sampling_of (im_format dst) <> SRGB ->
  im_color src = CYUV is -> weights_of (yc_space is) = Some k ->
  im_color dst = CYUV i -> is_bt2100 (yc_space i) ->
  same_light (im_color src) (im_color dst) = false -> yc_transfer is <> TBT2100PQ ->
  (yc_transfer i = TLinear \/ yc_transfer i = TSRGB \/ yc_transfer i = TBT2100HLG) \/ yc_transfer i = TBT2100PQ ->
  let s c x y := read_at k m src sps is c x y in
  let light x y := light_of (yc_transfer is) (yc_primaries is) (yc_primaries i) (s CR x y) (s CG x y) (s CB x y) in
  forall c x y, has_comp (im_format dst) c = true -> in_image dst x y ->
  (sampling_of (im_format dst) = S420 -> c = CY) ->
  let cb := column_backend b (im_width dst) x in
  platform_pow sp sl cb ->
  let block := (x, y) :: chroma_block (sampling_of (im_format dst)) x y in
  (forall p, In p block -> read_real k m src sps is (fst p) (snd p)) ->
  (forall p, In p block -> forall c, In c comps -> survives (yc_transfer i) (channel c (light (fst p) (snd p)))) ->
  exists l m' n,
    (forall p, In p block -> let x := fst p in let y := snd p in
      SpecIctcp.within3 (response_error (yc_transfer i)) (l x y, m' x y, n x y)
        (cones (yc_primaries i) (Rmax 0 (channel CR (light x y))) (Rmax 0 (channel CG (light x y))) (Rmax 0 (channel CB (light x y)))) /\
      0 <= l x y /\ 0 <= m' x y /\ 0 <= n x y) /\
    let M := IZR (max_level (im_format dst)) in
    let E := M * ictcp_error (yc_space i) in
    let v := ictcp_level (yc_space i) (yc_full_range i) (im_format dst) l m' n c x y in
    let hi := IZR (top (im_format dst)) in
    exists z, stored (libm_of sp sl) b m src dst dps c x y = Some z /\ (0 <= z)%Z /\
      ((cb = AVX512 -> - (1 / 4) + E <= v <= hi + 1 / 4 - E) -> stored_for cb E (clamp hi v) z).
Proof.
  intros sp sl b m src sps dst dps is k i CVT LV FS FD CS WK CI S SL TS TD s light c x y HC HI N420 cb PL block RR SV.
  pose proof (accurate_lane sp sl cb PL) as A. assert (VS : valid_image src sps) by apply CVT.
  pose proof (converts_convertible _ _ _ _ _ _ _ CVT) as CT.
  assert (TP : ci_transfer (im_color src) = yc_transfer is /\ ci_primaries (im_color src) = yc_primaries is) by (rewrite CS; auto). destruct TP as (TE & PE).
  pose proof (other_sample sp sl b m src sps dst dps i (GamutProofs.decode_error (yc_transfer is)) (yuv_light k m src sps is) c x y CVT FD CI S SL TD
    ltac:(unfold GamutProofs.decode_error; destruct (yc_transfer is); lra) HC HI N420 A) as OS.
  cbv zeta in OS. rewrite PE in OS. apply OS; [|exact SV].
  intros p HP. assert (HP' : in_image src (fst p) (snd p)).
  { assert (in_image dst (fst p) (snd p)) as I by (eapply block_in_image; [apply CT|apply CT|exact HI|exact HP]).
    unfold in_image in *. rewrite (cv_width _ _ _ _ CT), (cv_height _ _ _ _ CT). exact I. }
  pose proof (read_light sp sl cb m src sps is k (fst p) (snd p) A VS LV FS CS WK HP' ltac:(rewrite CS; exact TS) (RR p HP)) as Q.
  rewrite CS in Q |- *. exact Q.
Qed.
Print Assumptions C76_other_yuv_to_ictcp_partial.

(** RGB to ICtCp in PQ: sRGB, say, to HDR. Light outside of the gamut of the
    destination is cut off at 0.
    Missing: the chroma of 4:2:0 (see C19); PQ sources (see
    C76_pq_to_ictcp_partial); light above 12/10 in the primaries of the
    destination. *)
Theorem C76_rgb_to_pq_ictcp_partial : forall sp sl b m src sps dst dps i,
  converts (libm_of sp sl) b m src sps dst dps -> bytes_ok m ->
  sampling_of (im_format src) = SRGB -> sampling_of (im_format dst) <> SRGB ->
  im_color dst = CYUV i -> is_bt2100 (yc_space i) -> yc_transfer i = TBT2100PQ ->
  let ts := ci_transfer (im_color src) in ts <> TBT2100PQ ->
  let s c x y := level m (im_format src) sps c x y / 255 in
  let light x y := light_of ts (ci_primaries (im_color src)) (yc_primaries i) (s CR x y) (s CG x y) (s CB x y) in
  forall c x y, has_comp (im_format dst) c = true -> in_image dst x y ->
  (sampling_of (im_format dst) = S420 -> c = CY) ->
  let cb := column_backend b (im_width dst) x in
  platform_pow sp sl cb ->
  let block := (x, y) :: chroma_block (sampling_of (im_format dst)) x y in
  (forall p, In p block -> forall c, In c comps -> channel c (light (fst p) (snd p)) <= 12 / 10) ->
  exists l m' n,
    (forall p, In p block -> let x := fst p in let y := snd p in
      SpecIctcp.within3 (1 / 30) (l x y, m' x y, n x y)
        (cones (yc_primaries i) (Rmax 0 (channel CR (light x y))) (Rmax 0 (channel CG (light x y))) (Rmax 0 (channel CB (light x y)))) /\
      0 <= l x y /\ 0 <= m' x y /\ 0 <= n x y) /\
    let M := IZR (max_level (im_format dst)) in
    let E := M * ictcp_error (yc_space i) in
    let v := ictcp_level (yc_space i) (yc_full_range i) (im_format dst) l m' n c x y in
    let hi := IZR (top (im_format dst)) in
    exists z, stored (libm_of sp sl) b m src dst dps c x y = Some z /\ (0 <= z)%Z /\
      ((cb = AVX512 -> - (1 / 4) + E <= v <= hi + 1 / 4 - E) -> stored_for cb E (clamp hi v) z).
Proof.
  intros sp sl b m src sps dst dps i CVT B FS FD CI S TD ts TS s light c x y HC HI N420 cb PL block SV.
  pose proof (accurate_lane sp sl cb PL) as A. assert (VS : valid_image src sps) by apply CVT.
  assert (SL : same_light (im_color src) (im_color dst) = false).
  { unfold same_light. rewrite CI. cbn [ci_transfer ci_primaries]. rewrite TD. fold ts. destruct ts; try reflexivity. congruence. }
  pose proof (other_sample sp sl b m src sps dst dps i (57 / 10000000)
    (fun x y => (decoded ts (s CR x y), decoded ts (s CG x y), decoded ts (s CB x y))) c x y CVT FD CI S SL (or_intror TD) ltac:(lra) HC HI N420 A) as OS.
  cbv zeta in OS. rewrite TD in OS. apply OS; [|exact SV].
  intros p HP. exact (rgb_light _ m src sps (fst p) (snd p) A VS B FS TS).
Qed.
Print Assumptions C76_rgb_to_pq_ictcp_partial.

(** A picture in BT.709 as ICtCp in BT.2020 with HLG, an sRGB picture as ICtCp in
    BT.2020 with PQ *)
Definition pq_ictcp : image := ex_image I444 2 2 (CYUV (YuvCI TBT2100PQ PrBT2020 SpICtCpPQ true)) i444_planes.

Example C76_other_yuv_example : forall b, let lm := libm_of avx_pow avx_log in
  (forall cb, platform_pow avx_pow avx_log cb) /\
  (converts lm b soft_mem wide_src (ex_yuv_planes 0) hlg_ictcp i444_planes /\ levels_ok soft_mem wide_src (ex_yuv_planes 0) /\
   same_light (im_color wide_src) (im_color hlg_ictcp) = false /\
   (forall x y, in_image wide_src x y -> read_real bt2020 soft_mem wide_src (ex_yuv_planes 0) wide_info x y) /\
   (forall x y, in_image wide_src x y -> forall c, In c comps ->
     let s c := read_at bt2020 soft_mem wide_src (ex_yuv_planes 0) wide_info c x y in
     survives TBT2100HLG (channel c (light_of TSRGB PrBT709 PrBT2020 (s CR) (s CG) (s CB)))) /\
   map (fun c => stored lm b soft_mem wide_src hlg_ictcp i444_planes c 1 1) [CY] = [Some 197]%Z) /\
  (converts lm b ex_mem srgb_709 (ex_rgba_planes 0) pq_ictcp i444_planes /\ bytes_ok ex_mem /\
   (forall x y, in_image srgb_709 x y -> forall c, In c comps ->
     let s c := level ex_mem (im_format srgb_709) (ex_rgba_planes 0) c x y / 255 in
     channel c (light_of TSRGB PrBT709 PrBT2020 (s CR) (s CG) (s CB)) <= 12 / 10) /\
   map (fun c => stored lm b ex_mem srgb_709 pq_ictcp i444_planes c 1 1) [CY] = [Some 16]%Z).
Proof.
  intros b lm. destruct (C76_yuv_example b) as (_ & LV & _ & PL & RR & _). destruct (C76_other_example b) as (_ & BM & _ & _ & GM & _).
  assert (CV1 : forall b, converts lm b soft_mem wide_src (ex_yuv_planes 0) hlg_ictcp i444_planes).
  { intros b'. unfold lm. apply runs; [| |apply i444_disjoint|discriminate|vm_compute; reflexivity];
      (split; [reflexivity|split; [repeat constructor; cbn; unfold usize; cbn; lia|reflexivity]]). }
  assert (CV2 : forall b, converts lm b ex_mem srgb_709 (ex_rgba_planes 0) pq_ictcp i444_planes).
  { intros b'. unfold lm. apply runs; [| |apply i444_disjoint|discriminate|vm_compute; reflexivity];
      (split; [reflexivity|split; [repeat constructor; cbn; unfold usize; cbn; lia|reflexivity]]). }
  split; [exact PL|]. split.
  - split; [apply CV1|]. split; [exact LV|]. split; [reflexivity|]. split; [exact RR|]. split.
    + intros x y HI c HC s. apply gamut_kept; try exact HC; [tauto|right; reflexivity| | |]; apply (RR x y HI); cbn; auto.
    + cbn [map]. rewrite !(fun c => narrow_expected _ b soft_mem wide_src (ex_yuv_planes 0) hlg_ictcp i444_planes c 1 1 (CV1 b)) by
        (first [reflexivity | split; cbn; lia]).
      vm_compute. reflexivity.
  - split; [apply CV2|]. split; [exact BM|]. split.
    + intros x y HI c HC s. pose proof (GM x y HI c HC) as G. destruct G as (_ & G). eapply Rle_trans; [exact G|]. clear. lra.
    + cbn [map]. rewrite !(fun c => narrow_expected _ b ex_mem srgb_709 (ex_rgba_planes 0) pq_ictcp i444_planes c 1 1 (CV2 b)) by
        (first [reflexivity | split; cbn; lia]).
      vm_compute. reflexivity.
Qed.
