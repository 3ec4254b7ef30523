(** C69: converting an image tile by tile. *)

From Coq Require Import List ZArith Bool Arith Lia.
From Verif Require Import Base Types Planes ImageM Crop F32 Vector Simd Formats Visit Convert
  SpecGeom SpecCrop SpecVector SpecColor SpecConvert SpecRun SpecStride SpecWindow
  SimdProofs QuantProofs GeomProofs GeomProofs2 CropProofs ReadProofs WriteProofs VisitProofs ConvertProofs StrideProofs WindowProofs
  PropConvert PropFidelity PropStrides PropWindow.
Import ListNotations.

(** Convert the tiles one after the other: each tile is a window of the source
    and the window at the same place of the destination, both got with crop *)
Definition convert_tiles (lm : libm) (b : backend) (src dst : image) (tiles : list window) (m : mem) : mem :=
  fold_left (fun m t => apply_all m (fst (convert lm b m (cropped src t) (cropped dst t)))) tiles m.

(** The images are in different buffers. *)
Definition apart (sps dps : list (slice * nat)) : Prop :=
  forall p q, In p sps -> In q dps -> s_buf (fst p) <> s_buf (fst q).

(** A tile: crop accepts the window in both images (see [window_of] for what C10
    leaves out), and it has an even size. *)
Definition tile (src : image) (sps : list (slice * nat)) (dst : image) (dps : list (slice * nat)) (t : window) : Prop :=
  window_of src sps t (cropped src t) /\ window_of dst dps t (cropped dst t) /\ Nat.Even (win_width t) /\ Nat.Even (win_height t).

(** The tile processes its pixel ([x], [y]) with the code that the whole image is processed with there. *)
Definition same_code (b : backend) (dst : image) (t : window) (x : nat) : Prop :=
  column_backend b (win_width t) (x - win_x t) = column_backend b (im_width dst) x.

Lemma even_half : forall w x, Nat.Even w -> 2 * ((w + x) / 2) = w + 2 * (x / 2).
Proof. intros w x (k & ->). replace (2 * k + x) with (x + k * 2) by lia. rewrite Nat.div_add by lia. lia. Qed.

(** What is prescribed for a pixel of a window is what is prescribed for that pixel of the image. *)
Lemma target_shift : forall L f color pix c wx wy x y, (sampling_of f = S420 \/ sampling_of f = S422 -> Nat.Even wx) -> (sampling_of f = S420 -> Nat.Even wy) ->
  target L f color (fun x y => pix (wx + x) (wy + y)) c x y = target L f color pix c (wx + x) (wy + y).
Proof.
  intros L f color pix c wx wy x y EX EY. unfold target. destruct (sampling_of f) eqn:S; try reflexivity; (destruct color; [reflexivity|]).
  - rewrite (even_half wx x (EX (or_introl eq_refl))), (even_half wy y (EY eq_refl)), !Nat.add_assoc. reflexivity.
  - rewrite (even_half wx x (EX (or_intror eq_refl))), !Nat.add_assoc. reflexivity.
Qed.
Lemma expected_shift : forall L src comps dst c win x y, even_offsets (im_format dst) win ->
  expected_from L src (fun c x y => comps c (win_x win + x) (win_y win + y)) dst c x y = expected_from L src comps dst c (win_x win + x) (win_y win + y).
Proof.
  intros L src comps dst c win x y E. unfold expected_from. destruct (same_image_kind src dst); [reflexivity|].
  rewrite <- target_shift; [reflexivity| |].
  - intros [S|S]; destruct (im_format dst); try discriminate S; cbn in E; tauto.
  - intros S; destruct (im_format dst); try discriminate S; cbn in E; tauto.
Qed.

Lemma source_kept : forall lm b m src sps dst dps t, tile src sps dst dps t -> planes_disjoint dps -> apart sps dps ->
  forall c x y, component (apply_all m (fst (convert lm b m (cropped src t) (cropped dst t)))) (im_format src) sps c x y = component m (im_format src) sps c x y.
Proof.
  intros lm b m src sps dst dps t (WS & WD & _) PD AP c x y. apply component_bytes. intros bu i (p & r & col & pl & _ & N & B & _).
  apply (C59_outside_bytes_partial lm b m src sps t _ dst dps t _ WS WD PD).
  intros (c' & x' & y' & _ & p' & r' & col' & pl' & _ & N' & B' & _). apply nth_error_In in N. apply nth_error_In in N'.
  apply (AP pl pl' N N'). rewrite B in B'. exact B'.
Qed.

Lemma in_window_dec : forall t x y, {in_window t x y} + {~ in_window t x y}.
Proof.
  intros t x y. unfold in_window.
  destruct (le_lt_dec (win_x t) x), (lt_dec x (win_x t + win_width t)), (le_lt_dec (win_y t) y), (lt_dec y (win_y t + win_height t)); (left; lia) || (right; lia).
Qed.

(** After all tiles have been converted, every pixel that is in one of them holds
    what converting the whole image stores for it, and the others are untouched.
    Tiles may overlap, and come in any order and size. *)
Theorem C69_tiles_partial : forall lm b m src sps dst dps tiles,
  converts lm b m src sps dst dps -> apart sps dps -> Forall (tile src sps dst dps) tiles ->
  forall c x y, has_comp (im_format dst) c = true -> in_image dst x y ->
  ictcp_chroma420 (im_format dst) (im_color dst) c = false ->            (* missing: see C19_refuted *)
  (forall t, In t tiles -> in_window t x y -> same_code b dst t x) ->
  let after := component (convert_tiles lm b src dst tiles m) (im_format dst) dps c x y in
  ((exists t, In t tiles /\ in_window t x y) -> after = stored lm b m src dst dps c x y) /\
  (~ (exists t, In t tiles /\ in_window t x y) -> after = given m dst dps c x y).
Proof.
  intros lm b m src sps dst dps tiles CVT AP TS c x y HC HI NI.
  assert (CT := converts_convertible _ _ _ _ _ _ _ CVT). destruct CVT as (VS & VD & PD & ST & OK). destruct HI as (HX & HY).
  assert (WC : whole_chroma (im_format dst) (im_width dst) (im_height dst)).
  { pose proof (cv_even_w _ _ _ _ CT) as EW. pose proof (cv_even_h _ _ _ _ CT) as EH.
    assert (HW : Nat.Even (im_width dst)) by (apply Nat.even_spec; rewrite Nat.even_spec; apply Nat.mod_divide in EW; [destruct EW as (k & ->); exists k; lia|lia]).
    assert (HH : Nat.Even (im_height dst)) by (apply Nat.even_spec; rewrite Nat.even_spec; apply Nat.mod_divide in EH; [destruct EH as (k & ->); exists k; lia|lia]).
    unfold whole_chroma. destruct (sampling_of _); auto. }
  unfold stored. rewrite (C18_correct_partial lm b m src sps dst dps VS VD PD ST OK c x y HC HX HY NI). cbv zeta. rewrite expected_from_components.
  set (goal := Some _). unfold convert_tiles, given.
  assert (G : forall m', (forall c x y, component m' (im_format src) sps c x y = component m (im_format src) sps c x y) ->
    (forall t, In t tiles -> in_window t x y -> same_code b dst t x) ->
    component (fold_left (fun m t => apply_all m (fst (convert lm b m (cropped src t) (cropped dst t)))) tiles m') (im_format dst) dps c x y =
    if Exists_dec _ tiles (fun t => in_window_dec t x y) then goal else component m' (im_format dst) dps c x y); 
    [|intros SC; cbv zeta; rewrite (G m) by auto; rewrite <- Exists_exists; split; intros E; destruct (Exists_dec _ _ _); tauto].
  clear OK. induction TS as [|t ts T TS IH]; intros m' SAME SC.
  { cbn [fold_left]. destruct (Exists_dec _ _ _) as [E|_]; [inversion E|reflexivity]. }
  cbn [fold_left]. rewrite IH; [|intros c' x' y'; rewrite (source_kept lm b m' src sps dst dps t T PD AP); apply SAME|intros t' I; apply SC; right; exact I].
  destruct T as (WS & WD & EW & EH).
  destruct (Exists_dec _ ts _) as [E|E]; [destruct (Exists_dec _ (t :: ts) _) as [_|N]; [reflexivity|exfalso; apply N; right; exact E]|].
  destruct (in_window_dec t x y) as [IN|OUT].
  - destruct (Exists_dec _ (t :: ts) _) as [_|N]; [|exfalso; apply N; left; exact IN].
    assert (OK : snd (convert lm b m' (cropped src t) (cropped dst t)) = Ok tt).
    { apply (C59_ok_iff lm b m' src sps t _ dst dps t _ WS WD ST). split; [reflexivity|]. split; [reflexivity|]. split; [exact EW|]. split; [exact EH|]. apply CT. }
    destruct IN as (IX & IY).
    pose proof (C59_inside_partial lm b m' src sps t _ dst dps t _ WS WD ST PD OK c (x - win_x t) (y - win_y t) HC ltac:(lia) ltac:(lia) NI) as IN. cbv zeta in IN.
    replace (win_x t + (x - win_x t)) with x in IN by lia. replace (win_y t + (y - win_y t)) with y in IN by lia. rewrite IN.
    rewrite (SC t (or_introl eq_refl) (conj IX IY)). unfold goal. do 2 f_equal.
    rewrite expected_shift by apply WD. replace (win_x t + (x - win_x t)) with x by lia. replace (win_y t + (y - win_y t)) with y by lia.
    apply expected_from_ext with (w := im_width dst); [apply CT|exact HX|]. intros c' x' y' _. apply SAME.
  - destruct (Exists_dec _ (t :: ts) _) as [Y|_]; [inversion Y; subst; [destruct (OUT H0)|destruct (E H0)]|].
    apply (C59_outside_pixels_partial lm b m' src sps t _ dst dps t _ WS WD PD WC c x y HX HY OUT).
Qed.
Print Assumptions C69_tiles_partial.

(** Tiles that are processed with the same code: all of them without SIMD, bands
    of whole rows, and tiles that are a multiple of two vectors wide and start
    at one *)
Definition aligned (b : backend) (t : window) : Prop := Nat.divide (2 * lanes b) (win_x t) /\ Nat.divide (2 * lanes b) (win_width t).
Definition band (dst : image) (t : window) : Prop := win_x t = 0 /\ win_width t = im_width dst.

Lemma same_code_if : forall b dst t x y, b = Scalar \/ band dst t \/ aligned b t -> in_window t x y -> win_x t + win_width t <= im_width dst -> same_code b dst t x.
Proof.
  intros b dst t x y H ((X1 & X2) & _) IN. unfold same_code, column_backend, vector_columns. destruct H as [-> |[(Z & W)|((k & Z) & (j & W))]].
  - destruct (_ <? _), (_ <? _); reflexivity.
  - rewrite Z, W, Nat.sub_0_r. reflexivity.
  - set (n := lanes b * 2). assert (N : 2 * lanes b = n) by (unfold n; lia). assert (P : n <> 0) by (unfold n; destruct b; cbn; lia). rewrite N in *. clearbody n.
    rewrite W, Nat.mod_mul by exact P.
    assert (L : x < im_width dst - im_width dst mod n).
    { pose proof (Nat.div_mod (im_width dst) n P) as D.
      assert (Q : k + j <= im_width dst / n) by (apply Nat.div_le_lower_bound; [exact P|nia]). nia. }
    destruct (Nat.ltb_spec (x - win_x t) (j * n - 0)); [|lia]. destruct (Nat.ltb_spec x (im_width dst - im_width dst mod n)); [reflexivity|lia].
Qed.

(** So converting tiles that cover the image is converting the image. *)
Theorem C69_cover_partial : forall lm b m src sps dst dps tiles,
  converts lm b m src sps dst dps -> apart sps dps -> Forall (tile src sps dst dps) tiles ->
  Forall (fun t => b = Scalar \/ band dst t \/ aligned b t) tiles ->
  (forall x y, in_image dst x y -> exists t, In t tiles /\ in_window t x y) ->
  forall c x y, has_comp (im_format dst) c = true -> in_image dst x y ->
  ictcp_chroma420 (im_format dst) (im_color dst) c = false ->            (* missing: see C19_refuted *)
  component (convert_tiles lm b src dst tiles m) (im_format dst) dps c x y = stored lm b m src dst dps c x y.
Proof.
  intros lm b m src sps dst dps tiles CVT AP TS AL CO c x y HC HI NI.
  refine (proj1 (C69_tiles_partial lm b m src sps dst dps tiles CVT AP TS c x y HC HI NI _) (CO x y HI)).
  intros t IN IW. rewrite Forall_forall in TS, AL. apply (same_code_if b dst t x y (AL t IN) IW).
  destruct (TS t IN) as (_ & (_ & CN & _) & _). apply (window_inside _ _ _ CN).
Qed.
Print Assumptions C69_cover_partial.

(** A 16 x 4 RGB picture converted to I420 in quarters and in bands.  The planes
    have a spare row, which crop needs for windows at the lower right (C11). *)
Definition tile_src_planes : list (slice * nat) := [(Slice 0 0 240, 48)].
Definition tile_src : image := ex_image RGB 16 4 ex_rgb tile_src_planes.
Definition tile_dst_planes : list (slice * nat) := [(Slice 1 0 80, 16); (Slice 2 0 24, 8); (Slice 3 0 24, 8)].
Definition tile_dst : image := ex_image I420 16 4 ex_yuv tile_dst_planes.
Definition quarters : list window := [Window 0 0 8 2; Window 8 0 8 2; Window 8 2 8 2; Window 0 2 8 2].
Definition bands : list window := [Window 0 2 16 2; Window 0 0 16 2].

Lemma tile_disjoint : planes_disjoint tile_dst_planes.
Proof.
  intros i j a c NE NA NB k (E & _). apply NE.
  destruct i as [|[|[|i]]], j as [|[|[|j]]]; try reflexivity; cbn in NA, NB;
    try (destruct i; discriminate NA); try (destruct j; discriminate NB); injection NA as <-; injection NB as <-; discriminate E.
Qed.
Lemma tile_converts : forall b, converts ex_lm b ex_mem tile_src tile_src_planes tile_dst tile_dst_planes.
Proof.
  intros b. apply runs; [| |apply tile_disjoint|discriminate|vm_compute; reflexivity];
    (split; [reflexivity|split; [repeat constructor; cbn; unfold usize; cbn; lia|reflexivity]]).
Qed.

Example C69_example :
  (forall b, converts ex_lm b ex_mem tile_src tile_src_planes tile_dst tile_dst_planes) /\ apart tile_src_planes tile_dst_planes /\
  Forall (tile tile_src tile_src_planes tile_dst tile_dst_planes) (quarters ++ bands) /\ Forall (band tile_dst) bands /\ Forall (aligned NEON) quarters /\
  (forall x y, in_image tile_dst x y -> exists t, In t quarters /\ in_window t x y) /\
  (forall x y, in_image tile_dst x y -> exists t, In t bands /\ in_window t x y).
Proof.
  split; [apply tile_converts|]. split; [intros p q [<- |[]] [<- |[<- |[<- |[]]]]; discriminate|].
  split.
  { assert (VS : valid_image tile_src tile_src_planes) by (split; [reflexivity|split; [repeat constructor; cbn; unfold usize; cbn; lia|reflexivity]]).
    assert (VD : valid_image tile_dst tile_dst_planes) by (split; [reflexivity|split; [repeat constructor; cbn; unfold usize; cbn; lia|reflexivity]]).
    assert (T : forall w, crop_new tile_src w = Ok (cropped tile_src w) -> crop_new tile_dst w = Ok (cropped tile_dst w) ->
      (exists ps, im_planes (cropped tile_src w) = Ok ps) -> (exists ps, im_planes (cropped tile_dst w) = Ok ps) ->
      Nat.even (win_x w) && Nat.even (win_y w) && Nat.even (win_width w) && Nat.even (win_height w) = true ->
      tile tile_src tile_src_planes tile_dst tile_dst_planes w).
    { intros w C1 C2 P1 P2 E. rewrite !andb_true_iff, !Nat.even_spec in E. destruct E as (((E1 & E2) & E3) & E4).
      split; [split; [exact VS|split; [exact C1|split; [exact P1|split; [exact I|left; reflexivity]]]]|].
      split; [split; [exact VD|split; [exact C2|split; [exact P2|split; [split; assumption|left; reflexivity]]]]|]. auto. }
    apply Forall_forall. intros w W. cbn [quarters bands app In] in W.
    repeat (destruct W as [<- |W]; [apply T; try reflexivity; eexists; vm_compute; reflexivity|]). destruct W. }
  split; [repeat constructor|]. split; [repeat (constructor; [split; cbn; (exists 0; reflexivity) || (exists 1; reflexivity)|]); constructor|].
  split; intros x y (X & Y); cbn in X, Y.
  - destruct (lt_dec x 8), (lt_dec y 2); [exists (Window 0 0 8 2)|exists (Window 0 2 8 2)|exists (Window 8 0 8 2)|exists (Window 8 2 8 2)];
      (split; [cbn; auto|split; cbn; lia]).
  - destruct (lt_dec y 2); [exists (Window 0 0 16 2)|exists (Window 0 2 16 2)]; (split; [cbn; auto|split; cbn; lia]).
Qed.

(** The claim is false for tiles that are not aligned: on AVX2 the columns of a
    tile that is 8 pixels wide are processed with scalar code, which truncates. *)
Theorem C69_refuted :
  converts ex_lm AVX2 ex_mem tile_src tile_src_planes tile_dst tile_dst_planes /\ apart tile_src_planes tile_dst_planes /\
  Forall (tile tile_src tile_src_planes tile_dst tile_dst_planes) quarters /\
  (forall x y, in_image tile_dst x y -> exists t, In t quarters /\ in_window t x y) /\
  exists x y, in_image tile_dst x y /\
    component (convert_tiles ex_lm AVX2 tile_src tile_dst quarters ex_mem) I420 tile_dst_planes SpecGeom.CU x y
    <> stored ex_lm AVX2 ex_mem tile_src tile_dst tile_dst_planes SpecGeom.CU x y.
Proof.
  destruct C69_example as (C & A & T & _ & _ & Q & _). apply (proj1 (List.Forall_app _ quarters bands)) in T. destruct T as (T & _).
  split; [apply C|]. split; [exact A|]. split; [exact T|]. split; [exact Q|].
  exists 2, 2. split; [split; cbn; lia|]. vm_compute. discriminate.
Qed.
Print Assumptions C69_refuted.
