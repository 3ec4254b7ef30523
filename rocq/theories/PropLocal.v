(** C62: a destination sample depends on the source pixels it covers only. *)

From Coq Require Import List ZArith Bool Arith Lia.
From Verif Require Import Base Types Planes ImageM F32 Vector Simd SpecVector SpecGeom GeomProofs SpecColor SpecConvert SpecRun
  Formats Visit Convert VisitProofs ColorProofs ConvertProofs PropConvert PropFidelity.
Import ListNotations.

(** The pixels a component of pixel ([x], [y]) covers: for sub-sampled chroma
    the pair or the 2x2 block, else the pixel itself *)
Definition covered (s : sampling) (c : comp) (x y : nat) : list (nat * nat) :=
  let x0 := 2 * (x / 2) in
  let y0 := 2 * (y / 2) in
  match s, c with
  | S420, (CU | CV) => [(x0, y0); (x0 + 1, y0); (x0, y0 + 1); (x0 + 1, y0 + 1)]
  | S422, (CU | CV) => [(x0, y); (x0 + 1, y)]
  | _, _ => [(x, y)]
  end.

Lemma covered_self : forall s c x y, In (x, y) (covered s c x y).
Proof.
  intros s c x y.
  assert (X : x = 2 * (x / 2) \/ x = 2 * (x / 2) + 1) by (pose proof (Nat.div_mod x 2 ltac:(lia)); pose proof (Nat.mod_upper_bound x 2 ltac:(lia)); lia).
  assert (Y : y = 2 * (y / 2) \/ y = 2 * (y / 2) + 1) by (pose proof (Nat.div_mod y 2 ltac:(lia)); pose proof (Nat.mod_upper_bound y 2 ltac:(lia)); lia).
  unfold covered. set (x0 := 2 * (x / 2)) in *. set (y0 := 2 * (y / 2)) in *. clearbody x0 y0.
  destruct s, c; try (left; reflexivity); destruct X as [-> | ->]; try destruct Y as [-> | ->]; cbn [In]; auto.
Qed.

(** Two source pictures that agree on the pixels a destination sample covers
    give the same sample, whatever the other pixels (and all other memory) are.  Missing: sub-sampled
    chroma of ICtCp. *)
Theorem C62_local_partial : forall lm b m m' src sps dst dps,
  converts lm b m src sps dst dps -> converts lm b m' src sps dst dps ->
  forall c x y, has_comp (im_format dst) c = true -> in_image dst x y ->
  ictcp_chroma420 (im_format dst) (im_color dst) c = false ->                  (* missing: see C62_refuted *)
  (forall c' p, In p (covered (sampling_of (im_format dst)) c x y) ->
     given m src sps c' (fst p) (snd p) = given m' src sps c' (fst p) (snd p)) ->
  stored lm b m src dst dps c x y = stored lm b m' src dst dps c x y.
Proof.
  intros lm b m m' src sps dst dps C C' c x y HC HI NI H.
  rewrite (stored_expected _ _ _ _ _ _ _ C c x y HC HI NI), (stored_expected _ _ _ _ _ _ _ C' c x y HC HI NI). f_equal. f_equal.
  set (L := lane_of lm _). unfold expected_value.
  assert (N : forall p, In p (covered (sampling_of (im_format dst)) c x y) -> forall c',
    norm m (im_format src) sps c' (fst p) (snd p) = norm m' (im_format src) sps c' (fst p) (snd p)).
  { intros p HP c'. unfold norm. pose proof (H c' p HP) as G. unfold given in G. rewrite G. reflexivity. }
  assert (SELF : In (x, y) (covered (sampling_of (im_format dst)) c x y)) by apply covered_self.
  destruct (same_image_kind src dst); [exact (N (x, y) SELF c)|].
  assert (P : forall p, In p (covered (sampling_of (im_format dst)) c x y) ->
    recolored L (im_color src) (im_color dst) (source_pixel L m (im_format src) (im_color src) sps (fst p) (snd p))
      = recolored L (im_color src) (im_color dst) (source_pixel L m' (im_format src) (im_color src) sps (fst p) (snd p))).
  { intros p HP. unfold source_pixel. rewrite !(N p HP). reflexivity. }
  clear N H. clearbody L. set (px := fun x y => recolored L (im_color src) (im_color dst) (source_pixel L m (im_format src) (im_color src) sps x y)).
  set (px' := fun x y => recolored L (im_color src) (im_color dst) (source_pixel L m' (im_format src) (im_color src) sps x y)).
  assert (Q : forall x' y', In (x', y') (covered (sampling_of (im_format dst)) c x y) -> px x' y' = px' x' y') by (intros x' y' HP; exact (P _ HP)).
  clearbody px px'. clear P. unfold target. destruct (im_color dst) as [|i]; unfold covered in *.
  - destruct (sampling_of (im_format dst)); try reflexivity. rewrite (Q x y SELF). reflexivity.
  - destruct (sampling_of (im_format dst)).
    + destruct c; try reflexivity; [rewrite (Q x y SELF); reflexivity| |]; rewrite !Q by (cbn; auto); reflexivity.
    + destruct c; try reflexivity; [rewrite (Q x y SELF); reflexivity| |]; rewrite !Q by (cbn; auto); reflexivity.
    + destruct c; try reflexivity; rewrite (Q x y SELF); reflexivity.
    + rewrite (Q x y SELF). reflexivity.
Qed.
Print Assumptions C62_local_partial.

(** Sub-sampled chroma of ICtCp (4:2:0) depends on the upper row of the group of
    2n columns that are processed at a time (n lanes) *)
Theorem C62_ictcp_group : forall lm b m m' src sps dst dps i,
  converts lm b m src sps dst dps -> converts lm b m' src sps dst dps -> same_image_kind src dst = false ->
  sampling_of (im_format dst) = S420 -> im_color dst = CYUV i -> is_ictcp (yc_space i) = true ->
  forall c x y, c = CU \/ c = CV -> in_image dst x y ->
  let n := lanes (column_backend b (im_width dst) x) in
  (forall c' x', x' / (2 * n) = x / (2 * n) -> given m src sps c' x' (2 * (y / 2)) = given m' src sps c' x' (2 * (y / 2))) ->
  stored lm b m src dst dps c x y = stored lm b m' src dst dps c x y.
Proof.
  intros lm b m m' src sps dst dps i C C' SK SD EC IC c x y HC HI n U.
  assert (HS : exists sel, (c, sel) = (CU, snd3) \/ (c, sel) = (CV, @thd3 f32)) by (destruct HC as [-> | ->]; eauto).
  destruct HS as (sel & HS).
  rewrite (C19_ictcp_chroma_partial lm b m src sps dst dps i C SK SD EC IC c sel x y HS HI).
  rewrite (C19_ictcp_chroma_partial lm b m' src sps dst dps i C' SK SD EC IC c sel x y HS HI).
  cbv zeta. set (cb := column_backend b (im_width dst) x) in *. fold n.
  assert (N0 : 0 < n) by (unfold n; destruct cb; cbn; lia).
  set (g := x / (2 * n)) in *.
  assert (G2 : g * (2 * n) / 2 = g * n) by (replace (g * (2 * n)) with (g * n * 2) by lia; apply Nat.div_mul; lia).
  rewrite G2.
  assert (K : x / 2 - g * n < n).
  { pose proof (Nat.div_mod x (2 * n) ltac:(lia)) as D. fold g in D. pose proof (Nat.mod_upper_bound x (2 * n) ltac:(lia)).
    assert (x / 2 < g * n + n); [|lia]. apply Nat.div_lt_upper_bound; lia. }
  assert (P : forall L x', x' / (2 * n) = g -> ictcp_pixel_chroma L m src sps (CYUV i) i sel x' (2 * (y / 2)) = ictcp_pixel_chroma L m' src sps (CYUV i) i sel x' (2 * (y / 2))).
  { intros L x' E. unfold ictcp_pixel_chroma, source_pixel, norm.
    assert (CE : forall c', component m (im_format src) sps c' x' (2 * (y / 2)) = component m' (im_format src) sps c' x' (2 * (y / 2))) by (intros c'; apply (U c' x' E)).
    rewrite !CE. reflexivity. }
  assert (IN : forall k, k < 2 * n -> (g * (2 * n) + k) / (2 * n) = g).
  { intros k HK. rewrite Nat.div_add_l by lia. rewrite (Nat.div_small k) by exact HK. lia. }
  rewrite !P; [reflexivity| |].
  - rewrite <- Nat.add_assoc. apply IN. lia.
  - apply IN. lia.
Qed.
Print Assumptions C62_ictcp_group.

(** ICtCp is not local: a black picture of 16 columns whose pixel (8, 0) is red.
    With AVX2 the red arrives in the chroma of the pixels (0, 0) and (1, 1). *)
Definition dot_mem (z : Z) : mem := fun b i => if (b =? 0) && (i =? 24) then z else 0%Z.
Definition dot_planes : list (slice * nat) := [(Slice 0 0 96, 48)].
Definition dot_src : image := ex_image RGB 16 2 ex_rgb dot_planes.
Definition dot_dst_planes : list (slice * nat) := [(Slice 1 0 32, 16); (Slice 1 32 8, 8); (Slice 1 40 8, 8)].
Definition dot_dst : image := ex_image I420 16 2 (CYUV ictcp_hlg) dot_dst_planes.

Lemma dot_converts : forall z b, z = 0%Z \/ z = 200%Z -> converts ex_lm b (dot_mem z) dot_src dot_planes dot_dst dot_dst_planes.
Proof.
  intros z b HZ. split; [|split; [|split; [|split]]]; try (split; [reflexivity|split; [repeat constructor; cbn; unfold usize; cbn; lia|reflexivity]]).
  - intros i j a c H Ha Hc k K. destruct i as [|[|[|i]]], j as [|[|[|j]]]; cbn in Ha, Hc; try discriminate Ha; try discriminate Hc;
      try (destruct (H eq_refl)); try (destruct i; discriminate Ha); try (destruct j; discriminate Hc);
      injection Ha as <-; injection Hc as <-; cbn in K; lia.
  - discriminate.
  - destruct HZ as [-> | ->], b; vm_compute; reflexivity.
Qed.

Theorem C62_refuted :
  (forall z b, z = 0%Z \/ z = 200%Z -> converts ex_lm b (dot_mem z) dot_src dot_planes dot_dst dot_dst_planes) /\
  (forall c p, In p (covered S420 CV 0 0) -> given (dot_mem 0) dot_src dot_planes c (fst p) (snd p) = given (dot_mem 200) dot_src dot_planes c (fst p) (snd p)) /\
  map (fun z => stored ex_lm AVX2 (dot_mem z) dot_src dot_dst dot_dst_planes CV 0 0) [0%Z; 200%Z] = [Some 128%Z; Some 164%Z] /\
  map (fun z => stored ex_lm Scalar (dot_mem z) dot_src dot_dst dot_dst_planes CV 0 0) [0%Z; 200%Z] = [Some 127%Z; Some 127%Z].
Proof.
  split; [exact dot_converts|]. split; [|split].
  - intros c p H. cbn in H. destruct H as [<- |[<- |[<- |[<- |[]]]]]; destruct c; reflexivity.
  - vm_compute. reflexivity.
  - vm_compute. reflexivity.
Qed.
Print Assumptions C62_refuted.

(** The hypotheses of C62_local_partial: a picture and the same picture with
    pixel (2, 0) changed; chroma of block (2, 0) changes, that of block (0, 0) does not. *)
Definition edit_mem : mem := fun b i => if (b =? 0) && (i =? 6) then 250%Z else ex_mem b i.
Example C62_example : forall b,
  converts ex_lm b ex_mem ex_src ex_src_planes ex_dst ex_dst_planes /\ converts ex_lm b edit_mem ex_src ex_src_planes ex_dst ex_dst_planes /\
  (forall c p, In p (covered S420 CV 1 1) -> given ex_mem ex_src ex_src_planes c (fst p) (snd p) = given edit_mem ex_src ex_src_planes c (fst p) (snd p)) /\
  map (fun m => stored ex_lm b m ex_src ex_dst ex_dst_planes CV 1 1) [ex_mem; edit_mem] = [Some 123%Z; Some 123%Z] /\
  map (fun m => stored ex_lm b m ex_src ex_dst ex_dst_planes CV 2 1) [ex_mem; edit_mem] = [Some 123%Z; Some 149%Z].
Proof.
  intros b. split; [|split].
  1, 2: split; [apply ex_valid|split; [apply ex_valid|split; [|split; [discriminate|destruct b; vm_compute; reflexivity]]]];
    intros i j a c H Ha Hc k K; destruct i as [|[|[|i]]], j as [|[|[|j]]]; cbn in Ha, Hc; try discriminate Ha; try discriminate Hc;
      try (destruct (H eq_refl)); try (destruct i; discriminate Ha); try (destruct j; discriminate Hc);
      injection Ha as <-; injection Hc as <-; cbn in K; lia.
  split; [|split].
  - intros c p H. cbn in H. destruct H as [<- |[<- |[<- |[<- |[]]]]]; destruct c; reflexivity.
  - destruct b; vm_compute; reflexivity.
  - destruct b; vm_compute; reflexivity.
Qed.
