(** C87: copies and lossless conversions on the way make no difference. *)

From Coq Require Import List ZArith Bool Arith Lia.
From Verif Require Import Base Types Planes ImageM F32 Vector Simd SpecVector SpecGeom GeomProofs SpecColor SpecConvert SpecRun SpecExec Formats Visit Convert
  VisitProofs ConvertProofs PropConvert PropFidelity PropLayout PropDrift Copy SpecCopy PropCopy.
Import ListNotations.

(** Sizes of the images of a conversion *)
Lemma sizes : forall lm b m src sps dst dps, converts lm b m src sps dst dps -> im_width src = im_width dst /\ im_height src = im_height dst.
Proof. intros lm b m src sps dst dps C. apply converts_convertible in C. split; [exact (cv_width _ _ _ _ C)|exact (cv_height _ _ _ _ C)]. Qed.

Lemma kind_eq : forall src tmp dst, im_format src = im_format tmp -> im_color src = im_color tmp -> same_image_kind src dst = same_image_kind tmp dst.
Proof. intros src tmp dst F C. unfold same_image_kind. rewrite F, C. reflexivity. Qed.

(** The same kind of picture, sample for sample *)
Lemma stands_in : forall lm b m src sps m' tmp tps dst dps,
  converts lm b m src sps dst dps -> converts lm b m' tmp tps dst dps ->
  im_format src = im_format tmp -> im_color src = im_color tmp ->
  (forall c x y, has_comp (im_format src) c = true -> in_image src x y -> given m' tmp tps c x y = given m src sps c x y) ->
  forall c x y, has_comp (im_format dst) c = true -> in_image dst x y -> stored lm b m' tmp dst dps c x y = stored lm b m src dst dps c x y.
Proof.
  intros lm b m src sps m' tmp tps dst dps C1 C2 EF EC G c x y HC HI. symmetry.
  destruct (sizes _ _ _ _ _ _ _ C1) as (W1 & H1). destruct (sizes _ _ _ _ _ _ _ C2) as (W2 & H2).
  assert (A : forall c x y, in_image src x y -> given m src sps c x y = given m' tmp tps c x y).
  { intros k u v I. destruct (has_comp (im_format src) k) eqn:HK; [symmetry; apply G; assumption|].
    unfold given, component. rewrite <- EF. unfold has_comp in HK.
    destruct (layout (im_format src) k u v) as [[[p r] cc]|] eqn:L; [exfalso|reflexivity].
    revert HK L. clear. destruct (im_format src), k; cbn; intros; discriminate. }
  apply (pictures_agree lm b m src sps dst dps m' tmp tps dst dps true); try assumption; try reflexivity.
  - split; [rewrite EF; split; reflexivity|]. split; [exact EC|]. split; [congruence|]. split; [congruence|]. intros k u v _ I. apply A, I.
  - intros _ u v I. apply A, I.
  - split; reflexivity.
  - apply kind_eq; assumption.
Qed.

(** * C87 *)

(** Converting a copy is converting the original *)
Theorem C87_copy_first : forall lm b m src sps tmp tps dst dps,
  converts lm b m src sps dst dps ->
  valid_image tmp tps -> planes_disjoint tps -> im_color src = im_color tmp -> snd (copy m src tmp) = Ok tt ->
  converts lm b (after_copy m src tmp) tmp tps dst dps ->
  forall c x y, has_comp (im_format dst) c = true -> in_image dst x y ->
  stored lm b (after_copy m src tmp) tmp dst dps c x y = stored lm b m src dst dps c x y.
Proof.
  intros lm b m src sps tmp tps dst dps C1 VT PT EC OK C2. assert (VS : valid_image src sps) by apply C1.
  destruct (copy_copies m src sps tmp tps VS VT OK) as (CP & _). destruct CP as (_ & EF & _).
  apply (stands_in lm b m src sps _ tmp tps dst dps C1 C2 EF EC). intros c x y _ (X & Y).
  destruct (sizes _ _ _ _ _ _ _ C1) as (W1 & H1). destruct (sizes _ _ _ _ _ _ _ C2) as (W2 & H2).
  apply (C43_samples m src sps tmp tps VS VT PT OK); lia.
Qed.
Print Assumptions C87_copy_first.

(** Copying the result is converting to where it is copied to *)
Theorem C87_copy_last : forall lm b m src sps tmp tps dst dps,
  converts lm b m src sps tmp tps -> converts lm b m src sps dst dps -> im_color tmp = im_color dst ->
  let m1 := apply_all m (fst (convert lm b m src tmp)) in
  snd (copy m1 tmp dst) = Ok tt ->
  forall c x y, has_comp (im_format dst) c = true -> in_image dst x y ->
  component (after_copy m1 tmp dst) (im_format dst) dps c x y = stored lm b m src dst dps c x y.
Proof.
  intros lm b m src sps tmp tps dst dps C1 C2 EC m1 OK c x y HC HI.
  assert (VT : valid_image tmp tps) by apply C1. assert (VD : valid_image dst dps) by apply C2. assert (PD : planes_disjoint dps) by apply C2.
  destruct (copy_copies m1 tmp tps dst dps VT VD OK) as (CP & _). destruct CP as (_ & EF & _).
  rewrite (C43_samples m1 tmp tps dst dps VT VD PD OK c x y (proj1 HI) (proj2 HI)).
  destruct (sizes _ _ _ _ _ _ _ C1) as (W1 & H1). destruct (sizes _ _ _ _ _ _ _ C2) as (W2 & H2).
  apply (pictures_agree lm b m src sps tmp tps m src sps dst dps true C1 C2).
  - split; [split; reflexivity|]. repeat (split; [reflexivity|]). reflexivity.
  - intros _ u v _. reflexivity.
  - rewrite EF. split; reflexivity.
  - exact EC.
  - unfold same_image_kind. rewrite EF, EC. reflexivity.
  - rewrite EF. exact HC.
  - exact HC.
  - destruct HI as (X & Y). split; lia.
  - reflexivity.
Qed.
Print Assumptions C87_copy_last.

(** Converting to the same format and colors first, by any back end, makes no difference,
    if no sample exceeds the bit depth of the format *)
Theorem C87_same_kind_first : forall lm0 b0 lm b m src sps tmp tps dst dps,
  converts lm b m src sps dst dps ->
  converts lm0 b0 m src sps tmp tps -> same_image_kind src tmp = true ->
  (forall c x y z, has_comp (im_format src) c = true -> in_image src x y -> given m src sps c x y = Some z -> (0 <= z <= max_level (im_format src))%Z) ->
  let m1 := apply_all m (fst (convert lm0 b0 m src tmp)) in
  converts lm b m1 tmp tps dst dps ->
  forall c x y, has_comp (im_format dst) c = true -> in_image dst x y ->
  stored lm b m1 tmp dst dps c x y = stored lm b m src dst dps c x y.
Proof.
  intros lm0 b0 lm b m src sps tmp tps dst dps C1 C0 SK IN m1 C2.
  assert (E : im_format src = im_format tmp /\ im_color src = im_color tmp).
  { unfold same_image_kind in SK. apply andb_true_iff in SK as (A & B). split; [apply pixel_format_eqb_eq, A|apply color_info_eqb_eq, B]. }
  destruct E as (EF & EC). apply (stands_in lm b m src sps m1 tmp tps dst dps C1 C2 EF EC). intros c x y HC (X & Y).
  destruct (sizes _ _ _ _ _ _ _ C0) as (W1 & H1). assert (VS : valid_image src sps) by apply C0.
  destruct (given_some m src sps c x y VS HC) as (z & G).
  rewrite G. apply (C20_same_format_exact lm0 b0 m src sps tmp tps C0 SK c x y z); [rewrite <- EF; exact HC|split; lia|exact G|].
  exact (IN c x y z HC (conj X Y) G).
Qed.
Print Assumptions C87_same_kind_first.

(** Converting RGB to RGB of another order first, by any back end, makes no difference.
    To the alpha of the result it makes none if both or none of the first two have alpha. *)
Theorem C87_repack_first : forall lm0 b0 lm b m src sps tmp tps dst dps,
  converts lm b m src sps dst dps -> converts lm0 b0 m src sps tmp tps -> bytes_ok m ->
  sampling_of (im_format src) = SRGB -> sampling_of (im_format tmp) = SRGB -> im_color src = im_color tmp ->
  let m1 := apply_all m (fst (convert lm0 b0 m src tmp)) in
  converts lm b m1 tmp tps dst dps ->
  forall c x y, has_comp (im_format dst) c = true -> in_image dst x y ->
  (c = CA -> has_comp (im_format tmp) CA = has_comp (im_format src) CA) ->
  stored lm b m1 tmp dst dps c x y = stored lm b m src dst dps c x y.
Proof.
  intros lm0 b0 lm b m src sps tmp tps dst dps C1 C0 B SS ST EC m1 C2 c x y HC HI AL.
  destruct (sizes _ _ _ _ _ _ _ C0) as (W1 & H1). destruct (sizes _ _ _ _ _ _ _ C2) as (W2 & H2).
  apply (C70_packing lm b m1 tmp tps dst dps m src sps dst dps C2 C1).
  - apply (after_bytes lm0 b0 m src sps tmp tps (converts_convertible _ _ _ _ _ _ _ C0) B).
  - exact B.
  - split; [|split; [auto|split; [auto|split; [auto|]]]].
    + destruct (im_format src), (im_format tmp); try discriminate SS; try discriminate ST; split; reflexivity.
    + intros k u v NA I. destruct (C21_rgb_repack_lossless lm0 b0 m src sps tmp tps C0 B SS ST EC u v I) as (R & _).
      assert (K : In k [CR; CG; CB] \/ ~ In k [CR; CG; CB]) by (destruct k; cbn; intuition discriminate).
      destruct K as [K|K]; [exact (proj1 (R k K))|]. unfold given, component.
      assert (N : layout (im_format src) k u v = None /\ layout (im_format tmp) k u v = None).
      { revert SS ST NA K. clear. destruct (im_format src), (im_format tmp); try discriminate; intros _ _ NA K; destruct k; cbn in *; intuition congruence. }
      destruct N as (-> & ->). reflexivity.
  - split; reflexivity.
  - reflexivity.
  - left. exact ST.
  - exact HC.
  - exact HC.
  - exact HI.
  - intros ->. split; [apply AL; reflexivity|]. specialize (AL eq_refl). intros u v I.
    destruct (C21_rgb_repack_lossless lm0 b0 m src sps tmp tps C0 B SS ST EC u v I) as (_ & A).
    destruct (has_comp (im_format tmp) CA) eqn:HT.
    + specialize (A eq_refl). rewrite <- AL in A. exact A.
    + unfold given, component. assert (N : layout (im_format src) CA u v = None /\ layout (im_format tmp) CA u v = None).
      { revert SS ST HT AL. clear. destruct (im_format src), (im_format tmp); try discriminate; cbn; intros; try discriminate; split; reflexivity. }
      destruct N as (-> & ->). reflexivity.
Qed.
Print Assumptions C87_repack_first.

(** An RGB picture of 2x2 pixels is copied, repacked as BGRA, or converted to RGB
    elsewhere, and then converted to I420; or the I420 picture is copied. *)
Definition via_rgb_planes : list (slice * nat) := [(Slice 5 3 20, 10)].
Definition via_rgb : image := ex_image RGB 2 2 ex_rgb via_rgb_planes.

Ltac via_runs := apply runs; [split; [reflexivity|split; [repeat constructor; cbn; unfold usize; cbn; lia|reflexivity]]..|apply one_disjoint|discriminate|vm_compute; reflexivity].

Example C87_example :
  let b := AVX2 in
  let to_tmp m tmp := apply_all m (fst (convert ex_lm Scalar m ex_rgb22 tmp)) in
  converts ex_lm b ex_mem ex_rgb22 ex_rgb_planes (ex_i420 3 ex_yuv) (ex_yuv_planes 3) /\
  snd (copy ex_mem ex_rgb22 via_rgb) = Ok tt /\
  converts ex_lm b (after_copy ex_mem ex_rgb22 via_rgb) via_rgb via_rgb_planes (ex_i420 3 ex_yuv) (ex_yuv_planes 3) /\
  converts ex_lm Scalar ex_mem ex_rgb22 ex_rgb_planes via_rgb via_rgb_planes /\ same_image_kind ex_rgb22 via_rgb = true /\
  converts ex_lm b (to_tmp ex_mem via_rgb) via_rgb via_rgb_planes (ex_i420 3 ex_yuv) (ex_yuv_planes 3) /\
  converts ex_lm Scalar ex_mem ex_rgb22 ex_rgb_planes bgra_picture bgra_planes /\
  converts ex_lm b (to_tmp ex_mem bgra_picture) bgra_picture bgra_planes (ex_i420 3 ex_yuv) (ex_yuv_planes 3) /\
  map (fun c => stored ex_lm b (to_tmp ex_mem bgra_picture) bgra_picture (ex_i420 3 ex_yuv) (ex_yuv_planes 3) c 1 1) [CY; CU; SpecGeom.CV]
    = map (fun c => stored ex_lm b ex_mem ex_rgb22 (ex_i420 3 ex_yuv) (ex_yuv_planes 3) c 1 1) [CY; CU; SpecGeom.CV] /\
  snd (copy (apply_all ex_mem (fst (convert ex_lm b ex_mem ex_rgb22 (ex_i420 3 ex_yuv)))) (ex_i420 3 ex_yuv) (ex_i420 4 ex_yuv)) = Ok tt.
Proof.
  cbv zeta. split; [ex_converts AVX2|]. split; [vm_compute; reflexivity|]. split; [ex_converts AVX2|].
  split; [via_runs|]. split; [reflexivity|]. split; [ex_converts AVX2|]. split; [via_runs|]. split; [ex_converts AVX2|].
  split; vm_compute; reflexivity.
Qed.
