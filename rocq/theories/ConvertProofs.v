(** Putting readers, color conversion, writers and the block walk together. *)

From Coq Require Import List ZArith Bool Arith Lia.
From Verif Require Import Base Types Planes ImageM F32 Vector Simd SpecVector SimdProofs SpecGeom GeomProofs GeomProofs2
  Color SpecColor SpecConvert SpecRun Formats ReadProofs ColorProofs WriteProofs Visit VisitProofs Convert.
Import ListNotations.

(** * Opening an image *)

(** An image accepted by [bounds_check], with the planes it shows *)
Definition ready (im : image) (ps : list plane) : Prop :=
  im_planes im = Ok ps /\ wf_planes ps /\ planes_fit (im_format im) ps (im_width im) (im_height im).

Lemma ready_bounds : forall im ps, ready im ps -> image_bounds_check im = Ok tt.
Proof. intros im ps (E & W & F). eapply image_bounds_check_complete; eauto. Qed.

Lemma open_ok : forall im ps, ready im ps -> open_planes (n_planes (im_format im)) im = Ok (firstn (n_planes (im_format im)) ps).
Proof.
  intros im ps R. unfold open_planes. rewrite (ready_bounds im ps R). cbn [map_err bind].
  destruct R as (E & W & F). rewrite E. cbn [lift bind]. unfold read_planes.
  destruct F as [F _]. apply Nat.leb_le in F. rewrite F. reflexivity.
Qed.

Lemma ready_plane : forall im ps p, ready im ps -> p < n_planes (im_format im) ->
  exists pl, nth_error ps p = Some pl /\ nth_error (firstn (n_planes (im_format im)) ps) p = Some pl /\
    pgeom (sample_bytes (im_format im)) (plane_cols (im_format im) p (im_width im))
      (plane_rows (im_format im) p (im_height im)) pl.
Proof.
  intros im ps p (E & W & L & F) Hp.
  destruct (nth_error ps p) as [pl|] eqn:N; [|apply nth_error_None in N; exfalso; apply (Nat.lt_irrefl p); eapply Nat.lt_le_trans; [exact Hp|]; eapply Nat.le_trans; eassumption].
  exists pl. split; [reflexivity|]. split; [rewrite nth_error_firstn by assumption; exact N|].
  destruct (F p pl Hp N) as [F1 F2]. unfold row_bytes in F1. split; [exact F1|]. split; [exact F2|].
  unfold wf_planes in W. rewrite Forall_forall in W. apply nth_error_In in N. apply (W pl N).
Qed.

Lemma ready_1 : forall im ps, ready im ps -> n_planes (im_format im) = 1 ->
  exists a, open_planes 1 im = Ok [a] /\ firstn 1 ps = [a] /\ nth_error ps 0 = Some a.
Proof.
  intros im ps R N. pose proof (open_ok im ps R) as O. rewrite N in O.
  destruct R as (_ & _ & L & _). rewrite N in L.
  destruct ps as [|a ps]; cbn in L; [lia|]. exists a. auto.
Qed.
Lemma ready_2 : forall im ps, ready im ps -> n_planes (im_format im) = 2 ->
  exists a b, open_planes 2 im = Ok [a; b] /\ firstn 2 ps = [a; b] /\ nth_error ps 0 = Some a /\ nth_error ps 1 = Some b.
Proof.
  intros im ps R N. pose proof (open_ok im ps R) as O. rewrite N in O.
  destruct R as (_ & _ & L & _). rewrite N in L.
  destruct ps as [|a [|b ps]]; cbn in L; try lia. exists a, b. auto.
Qed.
Lemma ready_3 : forall im ps, ready im ps -> n_planes (im_format im) = 3 ->
  exists a b c, open_planes 3 im = Ok [a; b; c] /\ firstn 3 ps = [a; b; c] /\
    nth_error ps 0 = Some a /\ nth_error ps 1 = Some b /\ nth_error ps 2 = Some c.
Proof.
  intros im ps R N. pose proof (open_ok im ps R) as O. rewrite N in O.
  destruct R as (_ & _ & L & _). rewrite N in L.
  destruct ps as [|a [|b [|c ps]]]; cbn in L; try lia. exists a, b, c. auto 10.
Qed.

Lemma im_max_spec : forall im, im_max im = maxf (im_format im).
Proof. intros im. unfold im_max, maxf. destruct (im_format im); reflexivity. Qed.

Lemma ready_geom : forall im ps p pl, ready im ps -> p < n_planes (im_format im) -> nth_error ps p = Some pl ->
  pgeom (sample_bytes (im_format im)) (plane_cols (im_format im) p (im_width im)) (plane_rows (im_format im) p (im_height im)) pl.
Proof.
  intros im ps p pl R Hp N. destruct (ready_plane im ps p R Hp) as (pl' & N' & _ & G). rewrite N in N'. injection N' as <-. exact G.
Qed.

(** * Readers *)

Lemma rd_norm : forall m f (ps : list (slice * nat)) (pl : slice * nat) k x y p r c, layout f k x y = Some (p, r, c) -> nth_error ps p = Some pl ->
  rd m (prim_of f) (maxf f) pl r c = norm m f ps k x y.
Proof.
  intros m f ps pl k x y p r c L N. unfold norm, component. rewrite L, N. unfold rd, sample_at, sample_addr, prim_of, maxf.
  destruct f; reflexivity.
Qed.

Lemma i420_is_ext : forall S w h fy fu fv fy' fu' fv', i420_is S w h fy fu fv ->
  (forall vi x y, fy vi x y = fy' vi x y) -> (forall vi X x y, fu vi X x y = fu' vi X x y) ->
  (forall vi X x y, fv vi X x y = fv' vi X x y) -> i420_is S w h fy' fu' fv'.
Proof.
  intros S w h fy fu fv fy' fu' fv' H E1 E2 E3 vi q X Y V I.
  destruct (H vi q X Y V I) as (y00 & y01 & y10 & y11 & u & v & E & A & B & C & D).
  exists y00, y01, y10, y11, u, v. repeat split; auto; intros; rewrite <- ?E1, <- ?E2, <- ?E3; auto.
Qed.
Lemma i422_is_ext : forall S w h fy fu fv fy' fu' fv', i422_is S w h fy fu fv ->
  (forall vi x y, fy vi x y = fy' vi x y) -> (forall vi x y, fu vi x y = fu' vi x y) ->
  (forall vi x y, fv vi x y = fv' vi x y) -> i422_is S w h fy' fu' fv'.
Proof.
  intros S w h fy fu fv fy' fu' fv' H E1 E2 E3 vi q X Y V I.
  destruct (H vi q X Y V I) as (y00 & y01 & y10 & y11 & u0 & u1 & v0 & v1 & E & A & B & C & D & F & G).
  exists y00, y01, y10, y11, u0, u1, v0, v1. repeat split; auto; intros; rewrite <- ?E1, <- ?E2, <- ?E3; auto.
Qed.
Lemma i444_is_ext : forall S w h fy fu fv fy' fu' fv', i444_is S w h fy fu fv ->
  (forall vi x y, fy vi x y = fy' vi x y) -> (forall vi x y, fu vi x y = fu' vi x y) ->
  (forall vi x y, fv vi x y = fv' vi x y) -> i444_is S w h fy' fu' fv'.
Proof.
  intros S w h fy fu fv fy' fu' fv' H E1 E2 E3 vi q X Y V I.
  destruct (H vi q X Y V I) as (y00 & u00 & v00 & y01 & u01 & v01 & y10 & u10 & v10 & y11 & u11 & v11 & E & A).
  do 12 eexists. split; [exact E|]. intros k Hk. destruct (A k Hk) as (A1 & A2 & A3 & A4 & A5 & A6).
  rewrite <- ?E1, <- ?E2, <- ?E3. auto 10.
Qed.
Lemma rgba_is_ext : forall S w h pix pix', rgba_is S w h pix ->
  (forall vi x y, pix vi x y = pix' vi x y) -> rgba_is S w h pix'.
Proof.
  intros S w h pix pix' H E vi q X Y V I. destruct (H vi q X Y V I) as (p00 & p01 & p10 & p11 & E' & K).
  do 4 eexists. split; [exact E'|]. intros k Hk. rewrite <- !E. auto.
Qed.

Definition n420 (m : mem) (f : pixel_format) (ps : list plane) (c : comp) (cx cy : nat) : f32 := norm m f ps c (2 * cx) (2 * cy).
Definition n422 (m : mem) (f : pixel_format) (ps : list plane) (c : comp) (cx y : nat) : f32 := norm m f ps c (2 * cx) y.

(** Open the image and name its planes and their geometry *)
Ltac open3 R Kf := 
  let a := fresh "py" in let b := fresh "pu" in let c := fresh "pv" in
  let O := fresh "O" in let F := fresh "FP" in
  destruct (ready_3 _ _ R) as (a & b & c & O & F & ?N0 & ?N1 & ?N2);
    [destruct (im_format _); cbn in Kf; try discriminate Kf; reflexivity|];
  pose proof (ready_geom _ _ 0 _ R ltac:(destruct (im_format _); cbn in Kf; try discriminate Kf; cbn; lia) N0) as ?G0;
  pose proof (ready_geom _ _ 1 _ R ltac:(destruct (im_format _); cbn in Kf; try discriminate Kf; cbn; lia) N1) as ?G1;
  pose proof (ready_geom _ _ 2 _ R ltac:(destruct (im_format _); cbn in Kf; try discriminate Kf; cbn; lia) N2) as ?G2.

Lemma i420_reader_ok : forall m im ps, ready im ps -> kind_of (im_format im) = KI420 ->
  exists S, i420_reader m (prim_of (im_format im)) im = Ok S /\
    i420_is S (im_width im) (im_height im) (fun _ x y => norm m (im_format im) ps CY x y)
      (fun _ _ => n420 m (im_format im) ps CU) (fun _ _ => n420 m (im_format im) ps CV).
Proof.
  intros m im ps R Kf. open3 R Kf. unfold i420_reader. rewrite O. cbn [bind planes3]. rewrite im_max_spec.
  eexists. split; [reflexivity|].
  eapply i420_is_ext; [apply i420_read_is; rewrite psize_of|..];
    try (destruct (im_format im); cbn in Kf; try discriminate Kf; assumption);
    intros; unfold n420; (eapply rd_norm; [|eassumption]);
    destruct (im_format im); cbn in Kf; try discriminate Kf; cbn [layout]; rewrite ?div2X; reflexivity.
Qed.

Lemma i422_reader_ok : forall m im ps, ready im ps -> kind_of (im_format im) = KI422 ->
  exists S, i422_reader m (prim_of (im_format im)) im = Ok S /\
    i422_is S (im_width im) (im_height im) (fun _ x y => norm m (im_format im) ps CY x y)
      (fun _ => n422 m (im_format im) ps CU) (fun _ => n422 m (im_format im) ps CV).
Proof.
  intros m im ps R Kf. open3 R Kf. unfold i422_reader. rewrite O. cbn [bind planes3]. rewrite im_max_spec.
  eexists. split; [reflexivity|].
  eapply i422_is_ext; [apply i422_read_is; rewrite psize_of|..];
    try (destruct (im_format im); cbn in Kf; try discriminate Kf; assumption);
    intros; unfold n422; (eapply rd_norm; [|eassumption]);
    destruct (im_format im); cbn in Kf; try discriminate Kf; cbn [layout]; rewrite ?div2X; reflexivity.
Qed.

Lemma i444_reader_ok : forall m im ps, ready im ps -> kind_of (im_format im) = KI444 -> strides_444 (im_format im) ps ->
  exists S, i444_reader m (prim_of (im_format im)) im = Ok S /\
    i444_is S (im_width im) (im_height im) (fun _ => norm m (im_format im) ps CY)
      (fun _ => norm m (im_format im) ps CU) (fun _ => norm m (im_format im) ps CV).
Proof.
  intros m im ps R Kf ST. open3 R Kf. unfold i444_reader. rewrite O. cbn [bind planes3]. rewrite im_max_spec.
  assert (SM : sampling_of (im_format im) = S444) by (destruct (im_format im); cbn in Kf; try discriminate Kf; reflexivity).
  eexists. split; [reflexivity|].
  eapply i444_is_ext; [apply i444_read_is; rewrite ?psize_of|..];
    try (destruct (im_format im); cbn in Kf; try discriminate Kf; assumption);
    try (eapply (ST SM); [| | eassumption | eassumption]; lia);
    intros; (eapply rd_norm; [|eassumption]);
    destruct (im_format im); cbn in Kf; try discriminate Kf; cbn [layout]; reflexivity.
Qed.

Lemma nv12_reader_ok : forall m im ps, ready im ps -> kind_of (im_format im) = KNV12 ->
  exists S, nv12_reader m (prim_of (im_format im)) im = Ok S /\
    i420_is S (im_width im) (im_height im) (fun _ x y => norm m (im_format im) ps CY x y)
      (fun _ _ => n420 m (im_format im) ps CU) (fun _ _ => n420 m (im_format im) ps CV).
Proof.
  intros m im ps R Kf.
  destruct (ready_2 im ps R) as (py & puv & O & FP & N0 & N1);
    [destruct (im_format im); cbn in Kf; try discriminate Kf; reflexivity|].
  pose proof (ready_geom _ _ 0 _ R ltac:(destruct (im_format im); cbn in Kf; try discriminate Kf; cbn; lia) N0) as G0.
  pose proof (ready_geom _ _ 1 _ R ltac:(destruct (im_format im); cbn in Kf; try discriminate Kf; cbn; lia) N1) as G1.
  unfold nv12_reader. rewrite O. cbn [bind planes2]. rewrite im_max_spec.
  eexists. split; [reflexivity|].
  eapply i420_is_ext; [apply nv12_read_is; rewrite psize_of|..];
    try (destruct (im_format im); cbn in Kf; try discriminate Kf; assumption);
    intros; unfold n420; (eapply rd_norm; [|eassumption]);
    destruct (im_format im); cbn in Kf; try discriminate Kf; cbn [layout]; rewrite ?div2X; reflexivity.
Qed.

Lemma yuyv_reader_ok : forall m im ps, ready im ps -> kind_of (im_format im) = KYUYV ->
  exists S, yuyv_reader m (prim_of (im_format im)) im = Ok S /\
    i422_is S (im_width im) (im_height im) (fun _ x y => norm m (im_format im) ps CY x y)
      (fun _ => n422 m (im_format im) ps CU) (fun _ => n422 m (im_format im) ps CV).
Proof.
  intros m im ps R Kf.
  destruct (ready_1 im ps R) as (pl & O & FP & N0);
    [destruct (im_format im); cbn in Kf; try discriminate Kf; reflexivity|].
  pose proof (ready_geom _ _ 0 _ R ltac:(destruct (im_format im); cbn in Kf; try discriminate Kf; cbn; lia) N0) as G0.
  unfold yuyv_reader. rewrite O. cbn [bind planes1]. rewrite im_max_spec.
  eexists. split; [reflexivity|].
  eapply i422_is_ext; [apply yuyv_read_is; rewrite psize_of|..];
    try (destruct (im_format im); cbn in Kf; try discriminate Kf; assumption);
    intros; unfold n422; (eapply rd_norm; [|eassumption]);
    destruct (im_format im); cbn in Kf; try discriminate Kf; cbn [layout]; rewrite ?div2X; reflexivity.
Qed.

Definition stored_pixel (m : mem) (f : pixel_format) (ps : list plane) (x y : nat) : pixel :=
  ((norm m f ps CR x y, norm m f ps CG x y, norm m f ps CB x y), norm m f ps CA x y).

Lemma rgba_reader_ok : forall m im ps rev, ready im ps -> kind_of (im_format im) = KRGBA rev ->
  exists S, rgba_reader m rev im = Ok S /\
    rgba_is S (im_width im) (im_height im) (fun _ => stored_pixel m (im_format im) ps).
Proof.
  intros m im ps rev R Kf.
  destruct (ready_1 im ps R) as (pl & O & FP & N0);
    [destruct (im_format im); cbn in Kf; try discriminate Kf; reflexivity|].
  pose proof (ready_geom _ _ 0 _ R ltac:(destruct (im_format im); cbn in Kf; try discriminate Kf; cbn; lia) N0) as G0.
  unfold rgba_reader. rewrite O. cbn [bind planes1]. rewrite im_max_spec.
  eexists. split; [reflexivity|].
  assert (PR : prim_of (im_format im) = U8) by (destruct (im_format im); cbn in Kf; try discriminate Kf; reflexivity).
  eapply rgba_is_ext; [apply rgba_read_is|].
  - destruct (im_format im); cbn in Kf; try discriminate Kf; assumption.
  - intros. unfold stored_pixel. rewrite <- PR.
    destruct (im_format im) eqn:EF; cbn in Kf; try discriminate Kf; injection Kf as <-; rewrite <- EF;
      repeat match goal with |- (_, _) = (_, _) => f_equal end; (eapply rd_norm; [|eassumption]);
      rewrite EF; cbn [layout]; rewrite ?Nat.add_0_r; reflexivity.
Qed.

Lemma rgb_reader_ok : forall m im ps rev, ready im ps -> kind_of (im_format im) = KRGB rev ->
  exists S, rgb_reader m rev im = Ok S /\
    rgba_is S (im_width im) (im_height im) (fun _ => stored_pixel m (im_format im) ps).
Proof.
  intros m im ps rev R Kf.
  destruct (ready_1 im ps R) as (pl & O & FP & N0);
    [destruct (im_format im); cbn in Kf; try discriminate Kf; reflexivity|].
  pose proof (ready_geom _ _ 0 _ R ltac:(destruct (im_format im); cbn in Kf; try discriminate Kf; cbn; lia) N0) as G0.
  unfold rgb_reader. rewrite O. cbn [bind planes1]. rewrite im_max_spec.
  eexists. split; [reflexivity|].
  assert (PR : prim_of (im_format im) = U8) by (destruct (im_format im); cbn in Kf; try discriminate Kf; reflexivity).
  eapply rgba_is_ext; [apply rgb_read_is|].
  - destruct (im_format im); cbn in Kf; try discriminate Kf; assumption.
  - intros. unfold stored_pixel. rewrite <- PR.
    assert (CA1 : norm m (im_format im) ps CA x y = fone).
    { unfold norm, component. destruct (im_format im); cbn in Kf; try discriminate Kf; reflexivity. }
    rewrite CA1.
    destruct (im_format im) eqn:EF; cbn in Kf; try discriminate Kf; injection Kf as <-; rewrite <- EF;
      repeat match goal with |- (_, _) = (_, _) => f_equal end; (eapply rd_norm; [|eassumption]);
      rewrite EF; cbn [layout]; rewrite ?Nat.add_0_r; reflexivity.
Qed.

(** * Any source as RGBA *)

Lemma norm_half : forall m f ps c x y, (c = CU \/ c = CV) ->
  sampling_of f = S420 -> norm m f ps c (2 * (x / 2)) (2 * (y / 2)) = norm m f ps c x y.
Proof.
  intros m f ps c x y Hc Hs. unfold norm, component.
  assert (layout f c (2 * (x / 2)) (2 * (y / 2)) = layout f c x y) as ->; [|reflexivity].
  destruct f; cbn in Hs; try discriminate Hs; destruct Hc as [-> | ->]; cbn [layout]; rewrite !div2X; reflexivity.
Qed.
Lemma norm_half_x : forall m f ps c x y, (c = CU \/ c = CV) ->
  sampling_of f = S422 -> norm m f ps c (2 * (x / 2)) y = norm m f ps c x y.
Proof.
  intros m f ps c x y Hc Hs. unfold norm, component.
  assert (layout f c (2 * (x / 2)) y = layout f c x y) as ->; [|reflexivity].
  destruct f; cbn in Hs; try discriminate Hs; destruct Hc as [-> | ->]; cbn [layout]; rewrite !div2X; reflexivity.
Qed.

Lemma source_ok : forall m im ps, ready im ps -> strides_444 (im_format im) ps ->
  color_fits (im_format im) (im_color im) = true ->
  exists S, read_any_to_rgba m im = Ok S /\
    rgba_is S (im_width im) (im_height im)
      (fun vi => source_pixel (vi_lane vi) m (im_format im) (im_color im) ps).
Proof.
  intros m im ps R ST CF.
  assert (K420 : forall S, i420_is S (im_width im) (im_height im) (fun _ x y => norm m (im_format im) ps CY x y)
      (fun _ _ => n420 m (im_format im) ps CU) (fun _ _ => n420 m (im_format im) ps CV) ->
      sampling_of (im_format im) = S420 ->
      exists S', i420_to_rgb (im_color im) S = Ok S' /\ rgba_is S' (im_width im) (im_height im)
        (fun vi => source_pixel (vi_lane vi) m (im_format im) (im_color im) ps)).
  { intros S IS Hs. unfold color_fits in CF. rewrite Hs in CF.
    destruct (im_color im) as [?t ?p|yc] eqn:EC; [discriminate CF|].
    unfold i420_to_rgb. cbn [yuv_info bind]. eexists. split; [reflexivity|].
    eapply rgba_is_ext.
    - apply (i420_to_rgb_is yc S (im_width im) (im_height im) (fun _ x y => norm m (im_format im) ps CY x y) (fun vi => n420 m (im_format im) ps CU) (fun vi => n420 m (im_format im) ps CV)). exact IS.
    - intros. unfold source_pixel, n420. rewrite Hs. rewrite !norm_half by auto. reflexivity. }
  assert (K422 : forall S, i422_is S (im_width im) (im_height im) (fun _ x y => norm m (im_format im) ps CY x y)
      (fun _ => n422 m (im_format im) ps CU) (fun _ => n422 m (im_format im) ps CV) ->
      sampling_of (im_format im) = S422 ->
      exists S', i422_to_rgb (im_color im) S = Ok S' /\ rgba_is S' (im_width im) (im_height im)
        (fun vi => source_pixel (vi_lane vi) m (im_format im) (im_color im) ps)).
  { intros S IS Hs. unfold color_fits in CF. rewrite Hs in CF.
    destruct (im_color im) as [?t ?p|yc] eqn:EC; [discriminate CF|].
    unfold i422_to_rgb. cbn [yuv_info bind]. eexists. split; [reflexivity|].
    eapply rgba_is_ext; [apply i422_to_rgb_is; exact IS|].
    intros. unfold source_pixel, n422. rewrite Hs. rewrite !norm_half_x by auto. reflexivity. }
  assert (K444 : forall S, i444_is S (im_width im) (im_height im) (fun _ => norm m (im_format im) ps CY)
      (fun _ => norm m (im_format im) ps CU) (fun _ => norm m (im_format im) ps CV) ->
      sampling_of (im_format im) = S444 ->
      exists S', i444_to_rgb (im_color im) S = Ok S' /\ rgba_is S' (im_width im) (im_height im)
        (fun vi => source_pixel (vi_lane vi) m (im_format im) (im_color im) ps)).
  { intros S IS Hs. unfold color_fits in CF. rewrite Hs in CF.
    destruct (im_color im) as [?t ?p|yc] eqn:EC; [discriminate CF|].
    unfold i444_to_rgb. cbn [yuv_info bind]. eexists. split; [reflexivity|].
    eapply rgba_is_ext; [apply i444_to_rgb_is; exact IS|].
    intros. unfold source_pixel. rewrite Hs. reflexivity. }
  assert (KRGBx : forall S, rgba_is S (im_width im) (im_height im) (fun _ => stored_pixel m (im_format im) ps) ->
      sampling_of (im_format im) = SRGB -> rgba_is S (im_width im) (im_height im)
        (fun vi => source_pixel (vi_lane vi) m (im_format im) (im_color im) ps)).
  { intros S IS Hs. eapply rgba_is_ext; [exact IS|]. intros. unfold source_pixel, stored_pixel. rewrite Hs. reflexivity. }
  unfold read_any_to_rgba. destruct (im_format im) eqn:EF; rewrite <- EF in *.
  1, 4, 5: destruct (i420_reader_ok m im ps R) as (S & E & IS); [rewrite EF; reflexivity|];
    rewrite EF in E; cbn [prim_of sample_bytes Nat.eqb] in E; rewrite E; cbn [bind]; apply K420; [exact IS|rewrite EF; reflexivity].
  1, 3, 4: destruct (i422_reader_ok m im ps R) as (S & E & IS); [rewrite EF; reflexivity|];
    rewrite EF in E; cbn [prim_of sample_bytes Nat.eqb] in E; rewrite E; cbn [bind]; apply K422; [exact IS|rewrite EF; reflexivity].
  1, 2, 3: destruct (i444_reader_ok m im ps R) as (S & E & IS); [rewrite EF; reflexivity|exact ST|];
    rewrite EF in E; cbn [prim_of sample_bytes Nat.eqb] in E; rewrite E; cbn [bind]; apply K444; [exact IS|rewrite EF; reflexivity].
  - destruct (nv12_reader_ok m im ps R) as (S & E & IS); [rewrite EF; reflexivity|].
    rewrite EF in E; cbn [prim_of sample_bytes Nat.eqb] in E; rewrite E; cbn [bind]. apply K420; [exact IS|rewrite EF; reflexivity].
  - destruct (yuyv_reader_ok m im ps R) as (S & E & IS); [rewrite EF; reflexivity|].
    rewrite EF in E; cbn [prim_of sample_bytes Nat.eqb] in E; rewrite E; cbn [bind]. apply K422; [exact IS|rewrite EF; reflexivity].
  - destruct (rgba_reader_ok m im ps false R) as (S & E & IS); [rewrite EF; reflexivity|].
    exists S. split; [exact E|]. apply KRGBx; [exact IS|rewrite EF; reflexivity].
  - destruct (rgba_reader_ok m im ps true R) as (S & E & IS); [rewrite EF; reflexivity|].
    exists S. split; [exact E|]. apply KRGBx; [exact IS|rewrite EF; reflexivity].
  - destruct (rgb_reader_ok m im ps false R) as (S & E & IS); [rewrite EF; reflexivity|].
    exists S. split; [exact E|]. apply KRGBx; [exact IS|rewrite EF; reflexivity].
  - destruct (rgb_reader_ok m im ps true R) as (S & E & IS); [rewrite EF; reflexivity|].
    exists S. split; [exact E|]. apply KRGBx; [exact IS|rewrite EF; reflexivity].
Qed.

(** * Writers *)

Lemma has_comp_unlayout : forall f p r c, has_comp f (fst (fst (unlayout f p r c))) = true.
Proof.
  intros f p r c. destruct f; cbn [unlayout];
    repeat match goal with
    | |- context [match ?n with 0 => _ | Datatypes.S _ => _ end] => destruct n
    | |- context [if ?x then _ else _] => destruct x
    end; reflexivity.
Qed.

Lemma row_ev_ext : forall size pls val val' row e, (forall p r c, val p r c = val' p r c) ->
  row_ev size pls val row e -> row_ev size pls val' row e.
Proof.
  intros size pls val val' [[[p r] c] n] e E (pl & A & B & C & D & L & H).
  exists pl. repeat (split; [assumption|]). intros k j Hk Hj. rewrite <- E. apply H; assumption.
Qed.

Lemma block_ok_ext : forall f pls V w h g g', block_ok f pls V w h g ->
  (forall vi X c x y, has_comp f c = true -> g vi X c x y = g' vi X c x y) -> block_ok f pls V w h g'.
Proof.
  intros f pls V w h g g' H E vi q X Y VS I. destruct (H vi q X Y VS I) as (evs & R & F).
  exists evs. split; [exact R|]. clear R. induction F as [|row e rows evs Hr F IH]; constructor; [|exact IH].
  eapply row_ev_ext; [|exact Hr]. intros p r c. unfold stored.
  pose proof (has_comp_unlayout f p r c) as HC. destruct (unlayout f p r c) as [[k x] y]. cbn [fst] in HC.
  rewrite E by exact HC. reflexivity.
Qed.

(** Outcome [o] is the walk over [dst] with a visitor that stores [g] *)
Definition walks (lm : libm) (b : backend) (dst : image) (dps : list plane) (o : out convert_error)
    (g : vimpl -> nat -> comp -> nat -> nat -> f32) : Prop :=
  exists V, o = olift (visit lm b (im_width dst) (im_height dst) V) /\
    block_ok (im_format dst) (firstn (n_planes (im_format dst)) dps) V (im_width dst) (im_height dst) g.

Lemma walks_ext : forall lm b dst dps o g g', walks lm b dst dps o g ->
  (forall vi X c x y, has_comp (im_format dst) c = true -> g vi X c x y = g' vi X c x y) ->
  walks lm b dst dps o g'.
Proof. intros lm b dst dps o g g' (V & E & B) H. exists V. split; [exact E|]. eapply block_ok_ext; eauto. Qed.

Section Writers.
  Variables (lm : libm) (b : backend) (dst : image) (dps : list plane).
  Hypothesis R : ready dst dps.
  Local Notation f := (im_format dst).
  Local Notation w := (im_width dst).
  Local Notation h := (im_height dst).

  Lemma i420_write_ok : forall S fy fu fv, kind_of f = KI420 -> i420_is S w h fy fu fv ->
    walks lm b dst dps (i420_write lm b (prim_of f) dst S) (g420 fy fu fv).
  Proof.
    intros S fy fu fv Kf IS. open3 R Kf. unfold i420_write. rewrite O. cbn [bind planes3 obind]. rewrite im_max_spec.
    eexists. split; [reflexivity|].
    replace (n_planes f) with 3 by (destruct f; cbn in Kf; try discriminate Kf; reflexivity). rewrite FP.
    apply i420_block; auto; destruct f; cbn in Kf; try discriminate Kf; assumption.
  Qed.
  Lemma i422_write_ok : forall S fy fu fv, kind_of f = KI422 -> i422_is S w h fy fu fv ->
    walks lm b dst dps (i422_write lm b (prim_of f) dst S) (g422 fy fu fv).
  Proof.
    intros S fy fu fv Kf IS. open3 R Kf. unfold i422_write. rewrite O. cbn [bind planes3 obind]. rewrite im_max_spec.
    eexists. split; [reflexivity|].
    replace (n_planes f) with 3 by (destruct f; cbn in Kf; try discriminate Kf; reflexivity). rewrite FP.
    apply i422_block; auto; destruct f; cbn in Kf; try discriminate Kf; assumption.
  Qed.
  Lemma i444_write_ok : forall S fy fu fv, kind_of f = KI444 -> i444_is S w h fy fu fv ->
    walks lm b dst dps (i444_write lm b (prim_of f) dst S) (g444 fy fu fv).
  Proof.
    intros S fy fu fv Kf IS. open3 R Kf. unfold i444_write. rewrite O. cbn [bind planes3 obind]. rewrite im_max_spec.
    eexists. split; [reflexivity|].
    replace (n_planes f) with 3 by (destruct f; cbn in Kf; try discriminate Kf; reflexivity). rewrite FP.
    apply i444_block; auto; destruct f; cbn in Kf; try discriminate Kf; assumption.
  Qed.
  Lemma nv12_write_ok : forall S fy fu fv, kind_of f = KNV12 -> i420_is S w h fy fu fv ->
    walks lm b dst dps (nv12_write lm b (prim_of f) dst S) (g420 fy fu fv).
  Proof.
    intros S fy fu fv Kf IS.
    destruct (ready_2 dst dps R) as (py & puv & O & FP & N0 & N1);
      [destruct f; cbn in Kf; try discriminate Kf; reflexivity|].
    pose proof (ready_geom _ _ 0 _ R ltac:(destruct f; cbn in Kf; try discriminate Kf; cbn; lia) N0) as G0.
    pose proof (ready_geom _ _ 1 _ R ltac:(destruct f; cbn in Kf; try discriminate Kf; cbn; lia) N1) as G1.
    unfold nv12_write. rewrite O. cbn [bind planes2 obind]. rewrite im_max_spec.
    eexists. split; [reflexivity|].
    replace (n_planes f) with 2 by (destruct f; cbn in Kf; try discriminate Kf; reflexivity). rewrite FP.
    apply nv12_block; auto; destruct f; cbn in Kf; try discriminate Kf; assumption.
  Qed.
  Lemma one_plane : forall (P : kind), kind_of f = P ->
    match P with KYUYV | KRGBA _ | KRGB _ => True | _ => False end ->
    exists pl, open_planes 1 dst = Ok [pl] /\ firstn (n_planes f) dps = [pl] /\
      pgeom (sample_bytes f) (plane_cols f 0 w) (plane_rows f 0 h) pl.
  Proof.
    intros P E H. assert (N : n_planes f = 1) by (destruct f; cbn in E; subst P; try destruct H; reflexivity).
    destruct (ready_1 dst dps R N) as (pl & O & FP & N0). exists pl. rewrite N. repeat (split; [assumption|]).
    apply (ready_geom _ _ 0 _ R); [lia|exact N0].
  Qed.
  Lemma yuyv_write_ok : forall S fy fu fv, kind_of f = KYUYV -> i422_is S w h fy fu fv ->
    walks lm b dst dps (yuyv_write lm b (prim_of f) dst S) (g422 fy fu fv).
  Proof.
    intros S fy fu fv Kf IS. destruct (one_plane _ Kf I) as (pl & O & FP & G).
    unfold yuyv_write. rewrite O. cbn [bind planes1 obind]. rewrite im_max_spec.
    eexists. split; [reflexivity|]. rewrite FP.
    apply yuyv_block; auto; destruct f; cbn in Kf; try discriminate Kf; assumption.
  Qed.
  Lemma rgba_write_ok : forall S pix rev, kind_of f = KRGBA rev -> rgba_is S w h pix ->
    walks lm b dst dps (rgba_write lm b rev dst S) (grgb pix).
  Proof.
    intros S pix rev Kf IS. destruct (one_plane _ Kf I) as (pl & O & FP & G).
    unfold rgba_write. rewrite O. cbn [bind planes1 obind]. rewrite im_max_spec.
    eexists. split; [reflexivity|]. rewrite FP.
    apply rgba_block_ok; auto; destruct f; cbn in Kf; try discriminate Kf; assumption.
  Qed.
  Lemma rgb_write_ok : forall S pix rev, kind_of f = KRGB rev -> rgba_is S w h pix ->
    walks lm b dst dps (rgb_write lm b rev dst S) (grgb pix).
  Proof.
    intros S pix rev Kf IS. destruct (one_plane _ Kf I) as (pl & O & FP & G).
    unfold rgb_write. rewrite O. cbn [bind planes1 obind]. rewrite im_max_spec.
    eexists. split; [reflexivity|]. rewrite FP.
    apply rgb_block_ok; auto; destruct f; cbn in Kf; try discriminate Kf; assumption.
  Qed.

  (** What the code stores: [target], except for the chroma of ICtCp 4:2:0 *)
  Definition code_target (L : lane_ops f32) (n : nat) (fd : pixel_format) (color : color_info)
      (pix : nat -> nat -> pixel) (X : nat) (c : comp) (x y : nat) : f32 :=
    match sampling_of fd, color, c with
    | S420, CYUV i, CU => encode_c i (chroma420 L n i pix snd3 X (x / 2) (y / 2))
    | S420, CYUV i, CV => encode_c i (chroma420 L n i pix thd3 X (x / 2) (y / 2))
    | _, _, _ => target L fd color pix c x y
    end.

  Lemma any_ok : forall S pix, rgba_is S w h pix -> color_fits f (im_color dst) = true ->
    walks lm b dst dps (rgba_to_any lm b dst S)
      (fun vi X => code_target (vi_lane vi) (vi_len vi) f (im_color dst) (pix vi) X).
  Proof.
    intros S pix IS CF. unfold rgba_to_any, rgb_to_i420, rgb_to_i422, rgb_to_i444.
    assert (CY : sampling_of f <> SRGB -> exists yc, im_color dst = CYUV yc).
    { intros Hs. unfold color_fits in CF. destruct (im_color dst) as [t p|yc]; [|eauto].
      destruct (sampling_of f); try discriminate CF; congruence. }
    destruct f eqn:EF; rewrite <- EF in *.
    all: try (destruct CY as (yc & EC); [rewrite EF; discriminate|]; rewrite EC; cbn [yuv_info bind obind]).
    1, 4, 5: change U8 with (prim_of I420); change U16 with (prim_of I010);
      match goal with |- context [prim_of ?k] => replace (prim_of k) with (prim_of f) by (rewrite EF; reflexivity) end;
      eapply walks_ext; [apply i420_write_ok; [rewrite EF; reflexivity|apply rgb_to_i420_is; exact IS]|];
      intros vi X c x y HC; unfold code_target, target, g420; rewrite EF in *;
      destruct c; cbn in HC; try discriminate HC; reflexivity.
    1, 3, 4: change U8 with (prim_of I422); change U16 with (prim_of I210);
      match goal with |- context [prim_of ?k] => replace (prim_of k) with (prim_of f) by (rewrite EF; reflexivity) end;
      eapply walks_ext; [apply i422_write_ok; [rewrite EF; reflexivity|apply rgb_to_i422_is; exact IS]|];
      intros vi X c x y HC; unfold code_target, target, g422; rewrite EF in *;
      destruct c; cbn in HC; try discriminate HC; reflexivity.
    1, 2, 3: change U8 with (prim_of I444); change U16 with (prim_of I410);
      match goal with |- context [prim_of ?k] => replace (prim_of k) with (prim_of f) by (rewrite EF; reflexivity) end;
      eapply walks_ext; [apply i444_write_ok; [rewrite EF; reflexivity|apply rgb_to_i444_is; exact IS]|];
      intros vi X c x y HC; unfold code_target, target, g444; rewrite EF in *;
      destruct c; cbn in HC; try discriminate HC; reflexivity.
    - replace U8 with (prim_of f) by (rewrite EF; reflexivity).
      eapply walks_ext; [apply nv12_write_ok; [rewrite EF; reflexivity|apply rgb_to_i420_is; exact IS]|].
      intros vi X c x y HC; unfold code_target, target, g420; rewrite EF in *;
      destruct c; cbn in HC; try discriminate HC; reflexivity.
    - replace U8 with (prim_of f) by (rewrite EF; reflexivity).
      eapply walks_ext; [apply yuyv_write_ok; [rewrite EF; reflexivity|apply rgb_to_i422_is; exact IS]|].
      intros vi X c x y HC; unfold code_target, target, g422; rewrite EF in *;
      destruct c; cbn in HC; try discriminate HC; reflexivity.
    - eapply walks_ext; [apply rgba_write_ok; [rewrite EF; reflexivity|exact IS]|].
      intros vi X c x y HC; unfold code_target, target, grgb; rewrite EF in *;
      destruct c; cbn in HC; try discriminate HC; reflexivity.
    - eapply walks_ext; [apply rgba_write_ok; [rewrite EF; reflexivity|exact IS]|].
      intros vi X c x y HC; unfold code_target, target, grgb; rewrite EF in *;
      destruct c; cbn in HC; try discriminate HC; reflexivity.
    - eapply walks_ext; [apply rgb_write_ok; [rewrite EF; reflexivity|exact IS]|].
      intros vi X c x y HC; unfold code_target, target, grgb; rewrite EF in *;
      destruct c; cbn in HC; try discriminate HC; reflexivity.
    - eapply walks_ext; [apply rgb_write_ok; [rewrite EF; reflexivity|exact IS]|].
      intros vi X c x y HC; unfold code_target, target, grgb; rewrite EF in *;
      destruct c; cbn in HC; try discriminate HC; reflexivity.
  Qed.
End Writers.

(** * Images of the same format and color *)

Lemma pixel_format_eqb_eq : forall a b, pixel_format_eqb a b = true <-> a = b.
Proof. intros a b. destruct a, b; split; intros H; try discriminate H; reflexivity. Qed.

Lemma same_ok : forall lm b m src sps dst dps, ready src sps -> ready dst dps ->
  im_format src = im_format dst -> im_width src = im_width dst -> im_height src = im_height dst ->
  strides_444 (im_format src) sps ->
  walks lm b dst dps (convert_same_color_and_pixel_format lm b m src dst)
    (fun _ _ c x y => norm m (im_format dst) sps c x y).
Proof.
  intros lm b m src sps dst dps RS RD EF EW EH ST. unfold convert_same_color_and_pixel_format.
  destruct (proj2 (pixel_format_eqb_eq (im_format src) (im_format dst)) EF).
  assert (ED := EF).
  rewrite EF, (proj2 (pixel_format_eqb_eq _ _) eq_refl).
  destruct (im_format dst) eqn:FD.
  1, 4, 5: destruct (i420_reader_ok m src sps RS) as (S & E & IS); [rewrite EF; reflexivity|];
    rewrite EF in E; cbn [prim_of sample_bytes Nat.eqb] in E; rewrite E; cbn [obind];
    rewrite EW, EH in IS;
    match goal with |- walks _ _ _ _ (i420_write _ _ ?p _ _) _ => replace p with (prim_of (im_format dst)) by (rewrite FD; reflexivity) end;
    (eapply walks_ext; [apply i420_write_ok; [exact RD|rewrite FD; reflexivity|exact IS]|]);
    intros vi X c x y HC; unfold g420, n420; rewrite ?EF; rewrite FD in *;
    destruct c; cbn in HC; try discriminate HC; rewrite ?norm_half by (auto; reflexivity); reflexivity.
  1, 3, 4: destruct (i422_reader_ok m src sps RS) as (S & E & IS); [rewrite EF; reflexivity|];
    rewrite EF in E; cbn [prim_of sample_bytes Nat.eqb] in E; rewrite E; cbn [obind];
    rewrite EW, EH in IS;
    match goal with |- walks _ _ _ _ (i422_write _ _ ?p _ _) _ => replace p with (prim_of (im_format dst)) by (rewrite FD; reflexivity) end;
    (eapply walks_ext; [apply i422_write_ok; [exact RD|rewrite FD; reflexivity|exact IS]|]);
    intros vi X c x y HC; unfold g422, n422; rewrite ?EF; rewrite FD in *;
    destruct c; cbn in HC; try discriminate HC; rewrite ?norm_half_x by (auto; reflexivity); reflexivity.
  1, 2, 3: destruct (i444_reader_ok m src sps RS) as (S & E & IS); [rewrite EF; reflexivity|exact ST|];
    rewrite EF in E; cbn [prim_of sample_bytes Nat.eqb] in E; rewrite E; cbn [obind];
    rewrite EW, EH in IS;
    match goal with |- walks _ _ _ _ (i444_write _ _ ?p _ _) _ => replace p with (prim_of (im_format dst)) by (rewrite FD; reflexivity) end;
    (eapply walks_ext; [apply i444_write_ok; [exact RD|rewrite FD; reflexivity|exact IS]|]);
    intros vi X c x y HC; unfold g444; rewrite ?EF; rewrite FD in *;
    destruct c; cbn in HC; try discriminate HC; reflexivity.
  - destruct (nv12_reader_ok m src sps RS) as (S & E & IS); [rewrite EF; reflexivity|];
    rewrite EF in E; cbn [prim_of sample_bytes Nat.eqb] in E; rewrite E; cbn [obind];
    rewrite EW, EH in IS;
    match goal with |- walks _ _ _ _ (nv12_write _ _ ?p _ _) _ => replace p with (prim_of (im_format dst)) by (rewrite FD; reflexivity) end;
    (eapply walks_ext; [apply nv12_write_ok; [exact RD|rewrite FD; reflexivity|exact IS]|]);
    intros vi X c x y HC; unfold g420, n420; rewrite ?EF; rewrite FD in *;
    destruct c; cbn in HC; try discriminate HC; rewrite ?norm_half by (auto; reflexivity); reflexivity.
  - destruct (yuyv_reader_ok m src sps RS) as (S & E & IS); [rewrite EF; reflexivity|];
    rewrite EF in E; cbn [prim_of sample_bytes Nat.eqb] in E; rewrite E; cbn [obind];
    rewrite EW, EH in IS;
    match goal with |- walks _ _ _ _ (yuyv_write _ _ ?p _ _) _ => replace p with (prim_of (im_format dst)) by (rewrite FD; reflexivity) end;
    (eapply walks_ext; [apply yuyv_write_ok; [exact RD|rewrite FD; reflexivity|exact IS]|]);
    intros vi X c x y HC; unfold g422, n422; rewrite ?EF; rewrite FD in *;
    destruct c; cbn in HC; try discriminate HC; rewrite ?norm_half_x by (auto; reflexivity); reflexivity.
  - destruct (rgba_reader_ok m src sps false RS) as (S & E & IS); [rewrite EF; reflexivity|];
    rewrite E; cbn [obind]; rewrite EW, EH in IS;
    (eapply walks_ext; [apply rgba_write_ok; [exact RD|rewrite FD; reflexivity|exact IS]|]);
    intros vi X c x y HC; unfold grgb, stored_pixel; rewrite ?EF; rewrite FD in *;
    destruct c; cbn in HC; try discriminate HC; reflexivity.
  - destruct (rgba_reader_ok m src sps true RS) as (S & E & IS); [rewrite EF; reflexivity|];
    rewrite E; cbn [obind]; rewrite EW, EH in IS;
    (eapply walks_ext; [apply rgba_write_ok; [exact RD|rewrite FD; reflexivity|exact IS]|]);
    intros vi X c x y HC; unfold grgb, stored_pixel; rewrite ?EF; rewrite FD in *;
    destruct c; cbn in HC; try discriminate HC; reflexivity.
  - destruct (rgb_reader_ok m src sps false RS) as (S & E & IS); [rewrite EF; reflexivity|];
    rewrite E; cbn [obind]; rewrite EW, EH in IS;
    (eapply walks_ext; [apply rgb_write_ok; [exact RD|rewrite FD; reflexivity|exact IS]|]);
    intros vi X c x y HC; unfold grgb, stored_pixel; rewrite ?EF; rewrite FD in *;
    destruct c; cbn in HC; try discriminate HC; reflexivity.
  - destruct (rgb_reader_ok m src sps true RS) as (S & E & IS); [rewrite EF; reflexivity|];
    rewrite E; cbn [obind]; rewrite EW, EH in IS;
    (eapply walks_ext; [apply rgb_write_ok; [exact RD|rewrite FD; reflexivity|exact IS]|]);
    intros vi X c x y HC; unfold grgb, stored_pixel; rewrite ?EF; rewrite FD in *;
    destruct c; cbn in HC; try discriminate HC; reflexivity.
Qed.

(** * Convert *)

(** Sources and destinations convert accepts *)
Record convertible (src : image) (sps : list plane) (dst : image) (dps : list plane) : Prop := {
  cv_src : ready src sps;
  cv_dst : ready dst dps;
  cv_width : im_width src = im_width dst;
  cv_height : im_height src = im_height dst;
  cv_even_w : im_width dst mod 2 = 0;
  cv_even_h : im_height dst mod 2 = 0;
  cv_color : same_image_kind src dst = true \/
    (color_fits (im_format src) (im_color src) = true /\ color_fits (im_format dst) (im_color dst) = true);
  cv_strides : strides_444 (im_format src) sps
}.

(** The value the code computes for a component *)
Definition code_value (m : mem) (src : image) (sps : list plane) (dst : image)
    (vi : vimpl) (X : nat) (c : comp) (x y : nat) : f32 :=
  if same_image_kind src dst then norm m (im_format dst) sps c x y
  else code_target (vi_lane vi) (vi_len vi) (im_format dst) (im_color dst)
         (fun x y => recolored (vi_lane vi) (im_color src) (im_color dst)
            (source_pixel (vi_lane vi) m (im_format src) (im_color src) sps x y)) X c x y.

Lemma verify_ok : forall src sps dst dps, convertible src sps dst dps -> verify_input_windows src dst = Ok tt.
Proof.
  intros src sps dst dps C. unfold verify_input_windows.
  rewrite (cv_width _ _ _ _ C), (cv_height _ _ _ _ C), !Nat.eqb_refl, (cv_even_w _ _ _ _ C), (cv_even_h _ _ _ _ C). reflexivity.
Qed.

Lemma convert_walks : forall lm b m src sps dst dps, convertible src sps dst dps ->
  walks lm b dst dps (convert lm b m src dst) (code_value m src sps dst).
Proof.
  intros lm b m src sps dst dps C. unfold convert. rewrite (verify_ok _ _ _ _ C). cbn [obind].
  fold (same_image_kind src dst). unfold code_value.
  destruct (same_image_kind src dst) eqn:SK.
  - unfold same_image_kind in SK. apply andb_true_iff in SK as [SF SC]. apply pixel_format_eqb_eq in SF.
    apply same_ok; try apply C; exact SF.
  - destruct (cv_color _ _ _ _ C) as [E|[CS CD]]; [congruence|].
    destruct (source_ok m src sps (cv_src _ _ _ _ C) (cv_strides _ _ _ _ C) CS) as (S & E & IS).
    rewrite E. cbn [obind]. rewrite (cv_width _ _ _ _ C), (cv_height _ _ _ _ C) in IS.
    assert (NT : need_transfer_and_primaries_convert (im_color src) (im_color dst) = negb (same_light (im_color src) (im_color dst)))
      by (unfold need_transfer_and_primaries_convert, same_light; rewrite negb_andb; reflexivity).
    rewrite NT. unfold recolored. destruct (same_light (im_color src) (im_color dst)); cbn [negb].
    + apply any_ok; [apply C|exact IS|exact CD].
    + apply (any_ok lm b dst dps (cv_dst _ _ _ _ C) _ _ (tp_convert_is _ _ _ _ _ _ IS) CD).
Qed.

Lemma ready_dst_planes : forall im ps, ready im ps -> planes_disjoint ps ->
  dst_planes (im_format im) (firstn (n_planes (im_format im)) ps) (im_width im) (im_height im).
Proof.
  intros im ps R D. split.
  - intros p Hp. destruct (ready_plane im ps p R Hp) as (pl & _ & N & G). eauto.
  - intros i j a c Hij A B. apply nth_error_firstn_some in A as [A _]. apply nth_error_firstn_some in B as [B _].
    eapply D; eauto.
Qed.

Lemma convert_runs : forall lm b m src sps dst dps, convertible src sps dst dps ->
  exists evss, convert lm b m src dst = (concat evss, Ok tt) /\
    Forall2 (block_evs (im_format dst) (firstn (n_planes (im_format dst)) dps) (code_value m src sps dst))
      (blocks lm b (im_width dst) (im_height dst)) evss.
Proof.
  intros lm b m src sps dst dps C. destruct (convert_walks lm b m src sps dst dps C) as (V & E & B).
  destruct (visit_runs lm b _ _ V _ _ _ (cv_even_w _ _ _ _ C) (cv_even_h _ _ _ _ C) B) as (evss & EV & F).
  exists evss. split; [|exact F]. rewrite E. unfold olift. rewrite EV. reflexivity.
Qed.

(** * Components *)

Lemma div_is : forall a n k r, a = n * k + r -> r < n -> a / n = k.
Proof. intros. symmetry. eapply Nat.div_unique; eauto. Qed.

Lemma layout_unit : forall f c x y p r col, layout f c x y = Some (p, r, col) -> col / ucols f p = x / 2.
Proof.
  intros f c x y p r col H.
  pose proof (Nat.div_mod x 2 ltac:(lia)) as DM. pose proof (Nat.mod_upper_bound x 2 ltac:(lia)) as MB.
  destruct f, c; cbn [layout] in H; try discriminate H; injection H as <- <- <-; unfold ucols; cbn [plane_cols Nat.eqb];
    try (change (2 / 2) with 1; rewrite Nat.div_1_r; reflexivity); try reflexivity;
    match goal with |- ?a / ?n = ?k => apply (div_is a n k (a - n * k)); lia end.
Qed.

(** Position of the sample that holds component [c] of pixel ([x], [y]) *)
Definition sub_x (f : pixel_format) (c : comp) (x : nat) : nat :=
  match sampling_of f, c with (S420 | S422), (CU | CV) => 2 * (x / 2) | _, _ => x end.
Definition sub_y (f : pixel_format) (c : comp) (y : nat) : nat :=
  match sampling_of f, c with S420, (CU | CV) => 2 * (y / 2) | _, _ => y end.

Lemma even_2x : forall x, Nat.even (2 * x) = true.
Proof. intros. rewrite Nat.even_mul. reflexivity. Qed.
Lemma even_2x1 : forall x, Nat.even (2 * x + 1) = false.
Proof. intros. rewrite Nat.even_add, Nat.even_mul. reflexivity. Qed.
Lemma mod_is : forall a n k r, a = n * k + r -> r < n -> a mod n = r.
Proof. intros. symmetry. eapply Nat.mod_unique; eauto. Qed.

Lemma some3 : forall (a b c a' b' c' : nat), Some (a, b, c) = Some (a', b', c') -> a' = a /\ b' = b /\ c' = c.
Proof. intros a b c a' b' c' H. injection H as -> -> ->. auto. Qed.

Lemma unlayout_layout : forall f c x y p r col, layout f c x y = Some (p, r, col) ->
  unlayout f p r col = (c, sub_x f c x, sub_y f c y).
Proof.
  intros f c x y p r col H. unfold sub_x, sub_y.
  destruct f, c; cbn [layout] in H; try discriminate H; apply some3 in H as (-> & -> & ->);
    cbn [unlayout sampling_of]; try reflexivity.
  - rewrite even_2x, (div_is (2 * (x / 2)) 2 (x / 2) 0) by lia. reflexivity.
  - rewrite even_2x1, (div_is (2 * (x / 2) + 1) 2 (x / 2) 1) by lia. reflexivity.
  - rewrite even_2x, (div_is (2 * x) 2 x 0) by lia. reflexivity.
  - replace (4 * (x / 2) + 1) with (2 * (2 * (x / 2)) + 1) by lia. rewrite even_2x1.
    rewrite (div_is _ 2 (2 * (x / 2)) 1) by lia. rewrite even_2x, (div_is _ 4 (x / 2) 1) by lia. reflexivity.
  - replace (4 * (x / 2) + 3) with (2 * (2 * (x / 2) + 1) + 1) by lia. rewrite even_2x1.
    rewrite (div_is _ 2 (2 * (x / 2) + 1) 1) by lia. rewrite even_2x1, (div_is _ 4 (x / 2) 3) by lia. reflexivity.
  - rewrite (div_is _ 4 x 0), (mod_is _ 4 x 0) by lia. reflexivity.
  - rewrite (div_is _ 4 x 1), (mod_is _ 4 x 1) by lia. reflexivity.
  - rewrite (div_is _ 4 x 2), (mod_is _ 4 x 2) by lia. reflexivity.
  - rewrite (div_is _ 4 x 3), (mod_is _ 4 x 3) by lia. reflexivity.
  - rewrite (div_is _ 4 x 2), (mod_is _ 4 x 2) by lia. reflexivity.
  - rewrite (div_is _ 4 x 1), (mod_is _ 4 x 1) by lia. reflexivity.
  - rewrite (div_is _ 4 x 0), (mod_is _ 4 x 0) by lia. reflexivity.
  - rewrite (div_is _ 4 x 3), (mod_is _ 4 x 3) by lia. reflexivity.
  - rewrite (div_is _ 3 x 0), (mod_is _ 3 x 0) by lia. reflexivity.
  - rewrite (div_is _ 3 x 1), (mod_is _ 3 x 1) by lia. reflexivity.
  - rewrite (div_is _ 3 x 2), (mod_is _ 3 x 2) by lia. reflexivity.
  - rewrite (div_is _ 3 x 2), (mod_is _ 3 x 2) by lia. reflexivity.
  - rewrite (div_is _ 3 x 1), (mod_is _ 3 x 1) by lia. reflexivity.
  - rewrite (div_is _ 3 x 0), (mod_is _ 3 x 0) by lia. reflexivity.
Qed.

Lemma layout_sub : forall f c x y, layout f c (sub_x f c x) (sub_y f c y) = layout f c x y.
Proof. intros f c x y. unfold sub_x, sub_y. destruct f, c; cbn [layout sampling_of]; rewrite ?div2X; reflexivity. Qed.

Lemma norm_sub : forall m f ps c x y, norm m f ps c (sub_x f c x) (sub_y f c y) = norm m f ps c x y.
Proof. intros. unfold norm, component. rewrite layout_sub. reflexivity. Qed.

Lemma code_target_sub : forall L n f color pix X c x y, 
  code_target L n f color pix X c (sub_x f c x) (sub_y f c y) = code_target L n f color pix X c x y.
Proof.
  intros. unfold code_target, target, sub_x, sub_y.
  destruct (sampling_of f), color, c; rewrite ?div2X; reflexivity.
Qed.

Lemma has_comp_layout : forall f c x y, has_comp f c = true -> exists p r col, layout f c x y = Some (p, r, col).
Proof. intros f c x y H. destruct f, c; cbn in H; try discriminate H; cbn [layout]; eauto. Qed.

Lemma vi_len_of : forall lm b, vi_len (impl_of lm b) = lanes b.
Proof. intros lm []; reflexivity. Qed.

(** Both pixels of a unit are processed by the same code *)
Lemma block_backend : forall lm b w x, w mod 2 = 0 -> exists X,
  block_at lm b w (x / 2) = (impl_of lm (column_backend b w x), quant_of (column_backend b w x), X) /\
  X = (x / 2) / lanes (column_backend b w x) * lanes (column_backend b w x).
Proof.
  intros lm b w x Ew. unfold block_at, column_backend, vlen. rewrite vi_len_of.
  pose proof (Nat.div_mod x 2 ltac:(lia)) as DM. pose proof (Nat.mod_upper_bound x 2 ltac:(lia)) as MB.
  destruct (vector_columns_spec lm b w) as (nv & ns & H). specialize (H Ew). destruct H as (V & _).
  unfold vlen in V. rewrite vi_len_of in V. rewrite V.
  destruct (Nat.ltb_spec (2 * (x / 2)) (nv * (2 * lanes b))) as [L|L];
  destruct (Nat.ltb_spec x (nv * (2 * lanes b))) as [L'|L']; try lia.
  - eexists; split; reflexivity.
  - eexists; split; [reflexivity|]. cbn [lanes]. rewrite Nat.div_1_r. lia.
Qed.

(** * The effect of convert *)

Lemma sample_byte_firstn : forall f ps w h b i, sample_byte f (firstn (n_planes f) ps) w h b i <-> sample_byte f ps w h b i.
Proof.
  intros. unfold sample_byte. split; intros (p & pl & r & c & Hp & N & H); exists p, pl, r, c; (split; [exact Hp|]); (split; [|exact H]).
  - apply nth_error_firstn_some in N as [N _]. exact N.
  - rewrite nth_error_firstn by exact Hp. exact N.
Qed.

Theorem convert_effect : forall lm b m src sps dst dps, convertible src sps dst dps -> planes_disjoint dps ->
  exists evs, convert lm b m src dst = (evs, Ok tt) /\
    (forall bb i, sample_byte (im_format dst) dps (im_width dst) (im_height dst) bb i -> times evs bb i = 1) /\
    (forall bb i, ~ sample_byte (im_format dst) dps (im_width dst) (im_height dst) bb i -> times evs bb i = 0) /\
    (forall m' c x y, has_comp (im_format dst) c = true -> x < im_width dst -> y < im_height dst ->
      let cb := column_backend b (im_width dst) x in
      component (apply_all m' evs) (im_format dst) dps c x y
        = Some (quantise (quant_of cb) (im_format dst)
            (code_value m src sps dst (impl_of lm cb) (x / 2 / lanes cb * lanes cb) c x y))).
Proof.
  intros lm b m src sps dst dps C PD.
  destruct (convert_runs lm b m src sps dst dps C) as (evss & E & F).
  pose proof (ready_dst_planes dst dps (cv_dst _ _ _ _ C) PD) as D.
  pose proof (cv_even_w _ _ _ _ C) as Ew. pose proof (cv_even_h _ _ _ _ C) as Eh.
  exists (concat evss). split; [exact E|]. split; [|split].
  - intros bb i SB. apply sample_byte_firstn in SB. destruct SB as (p & pl & r & c & Hp & N & Hr & Hc & -> & Hi).
    replace i with (s_off (fst pl) + (r * snd pl + c * sample_bytes (im_format dst)) +
       (i - (s_off (fst pl) + (r * snd pl + c * sample_bytes (im_format dst))))) by lia.
    eapply (walk_once lm b _ _ _ _ _ Ew Eh D evss F); eauto. nia.
  - intros bb i SB. eapply (walk_outside lm b _ _ _ _ _ Ew Eh evss F). intros H. apply SB. apply sample_byte_firstn. exact H.
  - intros m' c x y HC Hx Hy cb.
    destruct (has_comp_layout (im_format dst) c x y HC) as (p & r & col & L).
    destruct (layout_in_plane _ _ _ _ _ _ _ _ _ Ew Eh Hx Hy L) as (Hp & Hr & Hcol).
    destruct (ready_plane dst dps p (cv_dst _ _ _ _ C) Hp) as (pl & N & N' & _).
    unfold component. rewrite L.
    unfold plane in N. rewrite N. f_equal.
    pose proof (walk_sample lm b _ _ _ _ _ Ew Eh D evss F m' p pl r col Hp N' Hr Hcol) as W.
    rewrite (layout_unit _ _ _ _ _ _ _ L) in W.
    destruct (block_backend lm b (im_width dst) x Ew) as (X & EB & EX). rewrite EB in W. rewrite W.
    unfold stored. rewrite (unlayout_layout _ _ _ _ _ _ _ L). fold cb in EX |- *. rewrite EX.
    f_equal. unfold code_value. destruct (same_image_kind src dst); [apply norm_sub|apply code_target_sub].
Qed.

(** * Results *)

Lemma valid_ready : forall im ps, valid_image im ps -> ready im ps.
Proof.
  intros im ps (E & W & B). split; [exact E|]. split; [exact W|].
  destruct (image_bounds_check_inv im B) as (ps' & E' & F). rewrite E in E'. injection E' as <-. exact F.
Qed.

Lemma code_value_expected : forall lm cb m src sps dst X c x y,
  ictcp_chroma420 (im_format dst) (im_color dst) c = false ->
  code_value m src sps dst (impl_of lm cb) X c x y = expected_value (lane_of lm cb) m src sps dst c x y.
Proof.
  intros lm cb m src sps dst X c x y H. unfold code_value, expected_value.
  destruct (same_image_kind src dst) eqn:SK.
  - unfold same_image_kind in SK. apply andb_true_iff in SK as [SF _]. apply pixel_format_eqb_eq in SF. rewrite SF. reflexivity.
  - unfold code_target, target, ictcp_chroma420, chroma420 in *. fold (lane_of lm cb).
    destruct (sampling_of (im_format dst)), (im_color dst) as [t p|i], c; try reflexivity; rewrite H; reflexivity.
Qed.

Definition fails (r : res convert_error unit) : Prop := match r with Ok _ => False | _ => True end.

Lemma open_fails : forall n im, fails (checked (image_bounds_check im) (Ok tt)) ->
  @open_planes n im = match checked (image_bounds_check im) (Ok tt) with Ok _ => Ok [] | Err e => Err e | Panic p => Panic p | UB => UB end.
Proof. intros n im H. unfold open_planes. destruct (image_bounds_check im); try destruct H; reflexivity. Qed.

Lemma read_fails : forall m src, fails (checked (image_bounds_check src) (Ok tt)) ->
  forall (k : rgba_src -> out convert_error),
  obind (read_any_to_rgba m src) k = ([], checked (image_bounds_check src) (Ok tt)).
Proof.
  intros m src H k. unfold read_any_to_rgba, i420_reader, i422_reader, i444_reader, nv12_reader, yuyv_reader, rgba_reader, rgb_reader.
  rewrite !(open_fails _ src H). destruct (image_bounds_check src); try destruct H; destruct (im_format src); reflexivity.
Qed.

Lemma same_read_fails : forall lm b m src dst, fails (checked (image_bounds_check src) (Ok tt)) -> im_format src = im_format dst ->
  convert_same_color_and_pixel_format lm b m src dst = ([], checked (image_bounds_check src) (Ok tt)).
Proof.
  intros lm b m src dst H E. unfold convert_same_color_and_pixel_format.
  rewrite E, (proj2 (pixel_format_eqb_eq _ _) eq_refl).
  unfold i420_reader, i422_reader, i444_reader, nv12_reader, yuyv_reader, rgba_reader, rgb_reader.
  rewrite !(open_fails _ src H). destruct (image_bounds_check src); try destruct H; destruct (im_format dst); reflexivity.
Qed.

Lemma write_fails : forall lm b dst S, fails (checked (image_bounds_check dst) (Ok tt)) ->
  color_fits (im_format dst) (im_color dst) = true ->
  rgba_to_any lm b dst S = ([], checked (image_bounds_check dst) (Ok tt)).
Proof.
  intros lm b dst S H CF. unfold rgba_to_any, rgb_to_i420, rgb_to_i422, rgb_to_i444,
    i420_write, i422_write, i444_write, nv12_write, yuyv_write, rgba_write, rgb_write.
  rewrite !(open_fails _ dst H). unfold color_fits in CF.
  destruct (image_bounds_check dst); try destruct H; destruct (im_format dst), (im_color dst); try discriminate CF; reflexivity.
Qed.

Lemma write_color_fails : forall lm b dst S, color_fits (im_format dst) (im_color dst) = false ->
  rgba_to_any lm b dst S = ([], Err InvalidColorInfo).
Proof.
  intros lm b dst S CF. unfold rgba_to_any, rgb_to_i420, rgb_to_i422, rgb_to_i444, color_fits in *.
  destruct (im_format dst), (im_color dst); try discriminate CF; reflexivity.
Qed.

(** A reader can be made of every accepted image *)
Lemma open_some : forall im ps, ready im ps -> exists l, open_planes (n_planes (im_format im)) im = Ok l /\ length l = n_planes (im_format im).
Proof.
  intros im ps R. eexists. split; [apply (open_ok im ps R)|]. rewrite firstn_length. destruct R as (_ & _ & L & _). apply Nat.min_l, L.
Qed.

Lemma read_color_fails : forall m src sps, ready src sps -> color_fits (im_format src) (im_color src) = false ->
  read_any_to_rgba m src = Err InvalidColorInfo.
Proof.
  intros m src sps R CF. destruct (open_some src sps R) as (l & E & L).
  unfold read_any_to_rgba, i420_reader, i422_reader, i444_reader, nv12_reader, yuyv_reader, i420_to_rgb, i422_to_rgb, i444_to_rgb.
  unfold color_fits in CF.
  destruct (im_format src), (im_color src); try discriminate CF; cbn [n_planes] in E, L; rewrite E;
    (destruct l as [|? [|? [|? [|? ?]]]]; try discriminate L); reflexivity.
Qed.

Lemma read_succeeds : forall m src sps, ready src sps -> color_fits (im_format src) (im_color src) = true ->
  exists S, read_any_to_rgba m src = Ok S.
Proof.
  intros m src sps R CF. destruct (open_some src sps R) as (l & E & L).
  unfold read_any_to_rgba, i420_reader, i422_reader, i444_reader, nv12_reader, yuyv_reader, rgba_reader, rgb_reader,
    i420_to_rgb, i422_to_rgb, i444_to_rgb.
  unfold color_fits in CF.
  destruct (im_format src), (im_color src); try discriminate CF; cbn [n_planes] in E, L; rewrite E;
    (destruct l as [|? [|? [|? [|? ?]]]]; try discriminate L); eexists; reflexivity.
Qed.

Lemma same_write_fails : forall lm b m src sps dst, ready src sps -> im_format src = im_format dst ->
  fails (checked (image_bounds_check dst) (Ok tt)) ->
  convert_same_color_and_pixel_format lm b m src dst = ([], checked (image_bounds_check dst) (Ok tt)).
Proof.
  intros lm b m src sps dst R EF H. destruct (open_some src sps R) as (l & E & L).
  unfold convert_same_color_and_pixel_format. rewrite EF, (proj2 (pixel_format_eqb_eq _ _) eq_refl).
  unfold i420_reader, i422_reader, i444_reader, nv12_reader, yuyv_reader, rgba_reader, rgb_reader,
    i420_write, i422_write, i444_write, nv12_write, yuyv_write, rgba_write, rgb_write.
  rewrite !(open_fails _ dst H). rewrite EF in E, L.
  destruct (image_bounds_check dst); try destruct H;
  (destruct (im_format dst); cbn [n_planes] in E, L; rewrite E;
    (destruct l as [|? [|? [|? [|? ?]]]]; try discriminate L); reflexivity).
Qed.

Lemma odd_mod : forall n, (n mod 2 =? 1) = Nat.odd n.
Proof.
  intros n. pose proof (Nat.div_mod n 2 ltac:(lia)) as D. pose proof (Nat.mod_upper_bound n 2 ltac:(lia)).
  rewrite D at 2. rewrite Nat.odd_add, Nat.odd_mul. cbn [Nat.odd Nat.even negb andb]. 
  change (Nat.odd 2) with false. cbn [andb].
  destruct (n mod 2) as [|[|k]]; [reflexivity|reflexivity|lia].
Qed.

(** The run after all checks passed reports no error *)
Lemma same_runs : forall lm b m src sps dst dps, ready src sps -> ready dst dps -> im_format src = im_format dst ->
  exists o, convert_same_color_and_pixel_format lm b m src dst = olift o.
Proof.
  intros lm b m src sps dst dps R R2 EF. destruct (open_some src sps R) as (l & E & L). destruct (open_some dst dps R2) as (l2 & E2 & L2).
  unfold convert_same_color_and_pixel_format. rewrite EF, (proj2 (pixel_format_eqb_eq _ _) eq_refl).
  unfold i420_reader, i422_reader, i444_reader, nv12_reader, yuyv_reader, rgba_reader, rgb_reader,
    i420_write, i422_write, i444_write, nv12_write, yuyv_write, rgba_write, rgb_write.
  rewrite EF in E, L.
  destruct (im_format dst); cbn [n_planes] in E, L, E2, L2; rewrite E, E2;
    (destruct l as [|? [|? [|? [|? ?]]]]; try discriminate L); (destruct l2 as [|? [|? [|? [|? ?]]]]; try discriminate L2);
    eexists; reflexivity.
Qed.

Lemma write_runs : forall lm b dst dps S, ready dst dps -> color_fits (im_format dst) (im_color dst) = true ->
  exists o, rgba_to_any lm b dst S = olift o.
Proof.
  intros lm b dst dps S R2 CF. destruct (open_some dst dps R2) as (l2 & E2 & L2).
  unfold rgba_to_any, rgb_to_i420, rgb_to_i422, rgb_to_i444,
    i420_write, i422_write, i444_write, nv12_write, yuyv_write, rgba_write, rgb_write.
  unfold color_fits in CF.
  destruct (im_format dst), (im_color dst); try discriminate CF; cbn [n_planes] in E2, L2; rewrite E2;
    (destruct l2 as [|? [|? [|? [|? ?]]]]; try discriminate L2); eexists; reflexivity.
Qed.

Lemma convert_fails : forall lm b m src dst,
  (forall ps, im_planes src = Ok ps -> wf_planes ps) ->
  (forall ps, im_planes dst = Ok ps -> wf_planes ps) ->
  (convert_result src dst <> Ok tt -> convert lm b m src dst = ([], convert_result src dst)) /\
  (convert_result src dst = Ok tt ->
     (exists o, convert lm b m src dst = olift o) /\
     exists sps dps, ready src sps /\ ready dst dps /\ (strides_444 (im_format src) sps -> convertible src sps dst dps)).
Proof.
  intros lm b m src dst WS WD. unfold convert_result.
  destruct ((im_width src =? im_width dst) && (im_height src =? im_height dst)) eqn:SZ; cbn [negb].
  2:{ unfold convert, verify_input_windows. rewrite <- negb_andb, SZ. cbn. split; [reflexivity|discriminate]. }
  apply andb_true_iff in SZ as [SW SH]. apply Nat.eqb_eq in SW, SH.
  destruct (Nat.odd (im_width src) || Nat.odd (im_height src)) eqn:OD.
  1:{ unfold convert, verify_input_windows. rewrite SW, SH, !Nat.eqb_refl, !odd_mod. cbn [negb orb].
      rewrite SW, SH in OD. rewrite OD. cbn. split; [reflexivity|discriminate]. }
  assert (VR : verify_input_windows src dst = Ok tt).
  { unfold verify_input_windows. rewrite <- SW, <- SH, !Nat.eqb_refl, !odd_mod, OD. reflexivity. }
  assert (EV : im_width dst mod 2 = 0 /\ im_height dst mod 2 = 0).
  { rewrite SW, SH in OD. apply orb_false_iff in OD as [O1 O2]. rewrite <- odd_mod in O1, O2. apply Nat.eqb_neq in O1, O2.
    pose proof (Nat.mod_upper_bound (im_width dst) 2 ltac:(lia)). pose proof (Nat.mod_upper_bound (im_height dst) 2 ltac:(lia)). lia. }
  assert (RS : image_bounds_check src = Ok tt -> exists sps, ready src sps).
  { intros B. destruct (image_bounds_check_inv src B) as (ps & E & F). exists ps. pose proof (WS ps E).
    split; [exact E|split; assumption]. }
  assert (RD : image_bounds_check dst = Ok tt -> exists dps, ready dst dps).
  { intros B. destruct (image_bounds_check_inv dst B) as (ps & E & F). exists ps. pose proof (WD ps E).
    split; [exact E|split; assumption]. }
  assert (FS : fails (checked (image_bounds_check src) (Ok tt)) \/ image_bounds_check src = Ok tt)
    by (destruct (image_bounds_check src) as [[]| | |]; cbn; auto).
  assert (FD : fails (checked (image_bounds_check dst) (Ok tt)) \/ image_bounds_check dst = Ok tt)
    by (destruct (image_bounds_check dst) as [[]| | |]; cbn; auto).
  unfold convert. rewrite VR. cbn [obind]. fold (same_image_kind src dst).
  assert (FAIL : forall (o : out convert_error) r r' (P : Prop), o = ([], r) -> r = r' -> fails r ->
      (r' <> Ok tt -> o = ([], r')) /\ (r' = Ok tt -> P)).
  { intros o r r' P -> <- F. split; [reflexivity|]. intros ->. destruct F. }
  destruct FS as [FS|BS].
  { assert (CE : forall z, checked (image_bounds_check src) (Ok tt) = checked (image_bounds_check src) z)
      by (intros; destruct (image_bounds_check src); [destruct FS|reflexivity..]).
    destruct (same_image_kind src dst) eqn:SK.
    - eapply FAIL; [|apply CE|exact FS]. apply same_read_fails; [exact FS|].
      unfold same_image_kind in SK. apply andb_true_iff in SK as [SF _]. apply pixel_format_eqb_eq, SF.
    - eapply FAIL; [|apply CE|exact FS]. apply read_fails, FS. }
  destruct (RS BS) as (sps & R). rewrite BS. cbn [checked].
  destruct (same_image_kind src dst) eqn:SK; cbn [negb andb].
  - assert (SF : im_format src = im_format dst)
      by (unfold same_image_kind in SK; apply andb_true_iff in SK as [SF _]; apply pixel_format_eqb_eq, SF).
    destruct FD as [FD|BD].
    + eapply FAIL; [|reflexivity|exact FD]. eapply same_write_fails; eauto.
    + destruct (RD BD) as (dps & R2). rewrite BD. cbn [checked]. split; [congruence|]. intros _.
      split; [eapply same_runs; eauto|]. exists sps, dps. split; [exact R|split; [exact R2|]]. intros ST.
      split; try tauto; assumption.
  - destruct (color_fits (im_format src) (im_color src)) eqn:CS; cbn [andb negb].
    2:{ rewrite (read_color_fails m src sps R CS). eapply FAIL; [reflexivity|reflexivity|exact I]. }
    destruct (read_succeeds m src sps R CS) as (S & E). rewrite E. cbn [obind].
    destruct (color_fits (im_format dst) (im_color dst)) eqn:CD; cbn [negb].
    2:{ rewrite !write_color_fails by exact CD.
        eapply FAIL; [|reflexivity|exact I]. destruct (need_transfer_and_primaries_convert _ _); reflexivity. }
    destruct FD as [FD|BD].
    + rewrite !write_fails by assumption.
      eapply FAIL; [|reflexivity|exact FD]. destruct (need_transfer_and_primaries_convert _ _); reflexivity.
    + destruct (RD BD) as (dps & R2). rewrite BD. cbn [checked]. split; [congruence|]. intros _.
      split; [destruct (need_transfer_and_primaries_convert _ _); eapply write_runs; eauto|].
      exists sps, dps. split; [exact R|split; [exact R2|]]. intros ST.
      split; try tauto; assumption.
Qed.

Lemma convert_result_ok : forall lm b m src dst,
  (forall ps, im_planes src = Ok ps -> wf_planes ps /\ strides_444 (im_format src) ps) ->
  (forall ps, im_planes dst = Ok ps -> wf_planes ps) ->
  snd (convert lm b m src dst) = convert_result src dst /\
  (convert_result src dst <> Ok tt -> fst (convert lm b m src dst) = []) /\
  (convert_result src dst = Ok tt -> exists sps dps, convertible src sps dst dps).
Proof.
  intros lm b m src dst WS WD.
  destruct (convert_fails lm b m src dst (fun ps E => proj1 (WS ps E)) WD) as (F & C).
  assert (D : convert_result src dst = Ok tt \/ convert_result src dst <> Ok tt)
    by (destruct (convert_result src dst) as [[]| | |]; auto; right; discriminate).
  destruct D as [D|D].
  - destruct (C D) as (_ & sps & dps & R & R2 & K). rewrite D.
    assert (CV : convertible src sps dst dps) by (apply K, WS, R).
    destruct (convert_runs lm b m src sps dst dps CV) as (evss & E & _). rewrite E. cbn [fst snd].
    split; [reflexivity|]. split; [congruence|]. eauto.
  - rewrite (F D). cbn. split; [reflexivity|]. split; [reflexivity|]. intros E. destruct (D E).
Qed.

(** * Stores of a failing convert *)

Definition silent {E} (o : out E) : Prop := forall e, snd o = Err e -> fst o = [].

Lemma silent_olift : forall E (o : out noerr), silent (@olift E o).
Proof. intros E [evs [| [] | |]] e; cbn; discriminate. Qed.

Lemma silent_obind : forall E A (r : res E A) k, (forall a, silent (k a)) -> silent (obind r k).
Proof. intros E A r k H e. destruct r; cbn; auto. apply H. Qed.

Lemma convert_silent : forall lm b m src dst, silent (convert lm b m src dst).
Proof.
  intros lm b m src dst.
  assert (W : forall S, silent (rgba_to_any lm b dst S)).
  { intros S. unfold rgba_to_any, i420_write, i422_write, i444_write, nv12_write, yuyv_write, rgba_write, rgb_write.
    destruct (im_format dst); repeat (apply silent_obind; intros); repeat match goal with a : _ * _ |- _ => destruct a end;
      apply silent_olift. }
  unfold convert. apply silent_obind. intros _.
  destruct (pixel_format_eqb _ _ && _).
  - unfold convert_same_color_and_pixel_format, i420_write, i422_write, i444_write, nv12_write, yuyv_write, rgba_write, rgb_write.
    destruct (pixel_format_eqb _ _); [|intros e; discriminate].
    destruct (im_format src); repeat (apply silent_obind; intros); repeat match goal with a : _ * _ |- _ => destruct a end;
      apply silent_olift.
  - apply silent_obind. intros S. destruct (need_transfer_and_primaries_convert _ _); apply W.
Qed.

(** * Stores stay inside the planes *)

Lemma convert_inside : forall lm b m src sps dst dps, convertible src sps dst dps ->
  Forall (store_inside dps) (fst (convert lm b m src dst)).
Proof.
  intros lm b m src sps dst dps C. destruct (convert_runs lm b m src sps dst dps C) as (evss & E & F). rewrite E. cbn [fst].
  apply Forall_forall. intros e I. apply in_concat in I as (evs & I1 & I2).
  destruct (forall2_in_r _ _ _ _ _ _ F I1) as ([[[vi q] X] Y] & _ & J). cbn [block_evs] in J.
  destruct (forall2_in_r _ _ _ _ _ _ J I2) as ([[[p r] c] n] & _ & (pl & N & EB & EO & EL & _)).
  apply nth_error_firstn_some in N as [N _]. exists pl. split; [eapply nth_error_In; eauto|]. split; [exact EB|]. split; [lia|exact EL].
Qed.

(** * The walk, for any vector length *)

Lemma visit_positions_once : forall (vi scalar : vimpl) w h x y, 0 < vi_len vi -> vi_len scalar = 1 ->
  w mod 2 = 0 -> h mod 2 = 0 -> x < w -> y < h ->
  count (fun '(i, px, py) => (px <=? x) && (x <? px + 2 * vi_len i) && (py <=? y) && (y <? py + 2))
    (visit_positions vi scalar w h) = 1.
Proof.
  intros vi scalar w h x y HL HS Ew Eh Hx Hy. unfold visit_positions. rewrite (Nat.mul_comm (vi_len vi) 2).
  set (a := 2 * vi_len vi).
  pose proof (Nat.div_mod w a ltac:(unfold a; lia)) as DW. pose proof (Nat.mod_upper_bound w a ltac:(unfold a; lia)) as MW.
  assert (ER : (w mod a) mod 2 = 0).
  { pose proof (Nat.div_mod w 2 ltac:(lia)) as D2. rewrite Ew in D2.
    apply (mod_is _ 2 (w / 2 - vi_len vi * (w / a)) 0); [|lia]. unfold a in *. nia. }
  replace (w - w mod a) with (w / a * a) by lia.
  rewrite (step_by_div h 2), (step_by_div (w / a * a) a), (step_by_div (w mod a) 2) by (try lia; try assumption; apply Nat.mod_mul; unfold a; lia).
  rewrite Nat.div_mul by (unfold a; lia).
  pose proof (Nat.div_mod h 2 ltac:(lia)) as DH. rewrite Eh in DH.
  pose proof (Nat.div_mod (w mod a) 2 ltac:(lia)) as DR. rewrite ER in DR.
  pose proof (Nat.div_mod x a ltac:(unfold a; lia)) as DX. pose proof (Nat.mod_upper_bound x a ltac:(unfold a; lia)) as MX.
  pose proof (Nat.div_mod y 2 ltac:(lia)) as DY. pose proof (Nat.mod_upper_bound y 2 ltac:(lia)) as MY.
  rewrite flat_map_concat_map, map_map, <- flat_map_concat_map.
  apply (count_flat_map_seq _ _ _ _ (y / 2)); [lia|]. intros k Hk. rewrite count_app, !map_map.
  destruct (Nat.eqb_spec k (y / 2)) as [->|NE].
  - destruct (Nat.lt_ge_cases x (w / a * a)) as [C|C].
    + rewrite (count_map_seq _ _ _ (w / a) (x / a)).
      * rewrite count_none; [reflexivity|]. intros p I. apply in_map_iff in I as (j & <- & _).
        destruct (Nat.leb_spec (j * 2 + w / a * a) x); [lia|reflexivity].
      * apply Nat.div_lt_upper_bound; unfold a in *; lia.
      * intros j Hj. fold a.
        destruct (Nat.leb_spec (y / 2 * 2) y), (Nat.ltb_spec y (y / 2 * 2 + 2)); try lia. rewrite !andb_true_r.
        destruct (Nat.eqb_spec j (x / a)) as [->|NJ].
        -- destruct (Nat.leb_spec (x / a * a) x), (Nat.ltb_spec x (x / a * a + a)); try reflexivity; lia.
        -- destruct (Nat.leb_spec (j * a) x), (Nat.ltb_spec x (j * a + a)); try reflexivity. exfalso. apply NJ.
           symmetry. apply (div_is x a j (x - j * a)); lia.
    + rewrite count_none.
      * rewrite (count_map_seq _ _ _ (w mod a / 2) ((x - w / a * a) / 2)); [reflexivity|..].
        -- apply Nat.div_lt_upper_bound; lia.
        -- intros j Hj. rewrite HS.
           destruct (Nat.leb_spec (y / 2 * 2) y), (Nat.ltb_spec y (y / 2 * 2 + 2)); try lia. rewrite !andb_true_r.
           pose proof (Nat.div_mod (x - w / a * a) 2 ltac:(lia)) as D2. pose proof (Nat.mod_upper_bound (x - w / a * a) 2 ltac:(lia)) as M2.
           destruct (Nat.eqb_spec j ((x - w / a * a) / 2)), (Nat.leb_spec (j * 2 + w / a * a) x), (Nat.ltb_spec x (j * 2 + w / a * a + 2 * 1)); try reflexivity; lia.
      * intros p I. apply in_map_iff in I as (j & <- & I). apply in_seq in I. fold a.
        destruct (Nat.ltb_spec x (j * a + a)); [nia|]. rewrite andb_false_r. reflexivity.
  - rewrite !count_none; [reflexivity|..]; intros p I; apply in_map_iff in I as (j & <- & _);
      (destruct (Nat.leb_spec (k * 2) y), (Nat.ltb_spec y (k * 2 + 2)); rewrite ?andb_false_r; try reflexivity; lia).
Qed.

Lemma visit_positions_inside : forall (vi scalar : vimpl) w h i x y, 0 < vi_len vi -> vi_len scalar = 1 ->
  w mod 2 = 0 -> h mod 2 = 0 -> In (i, x, y) (visit_positions vi scalar w h) -> x + 2 * vi_len i <= w /\ y + 2 <= h.
Proof.
  intros vi scalar w h i x y HL HS Ew Eh. unfold visit_positions. rewrite (Nat.mul_comm (vi_len vi) 2).
  set (a := 2 * vi_len vi).
  pose proof (Nat.div_mod w a ltac:(unfold a; lia)) as DW. pose proof (Nat.mod_upper_bound w a ltac:(unfold a; lia)) as MW.
  assert (ER : (w mod a) mod 2 = 0).
  { pose proof (Nat.div_mod w 2 ltac:(lia)) as D2. rewrite Ew in D2.
    apply (mod_is _ 2 (w / 2 - vi_len vi * (w / a)) 0); [|lia]. unfold a in *. nia. }
  replace (w - w mod a) with (w / a * a) by lia.
  rewrite (step_by_div h 2), (step_by_div (w / a * a) a), (step_by_div (w mod a) 2) by (try lia; try assumption; apply Nat.mod_mul; unfold a; lia).
  rewrite Nat.div_mul by (unfold a; lia).
  pose proof (Nat.div_mod h 2 ltac:(lia)) as DH. rewrite Eh in DH.
  pose proof (Nat.div_mod (w mod a) 2 ltac:(lia)) as DR. rewrite ER in DR.
  intros I. apply in_flat_map in I as (yy & IY & I). apply in_map_iff in IY as (k & <- & IK). apply in_seq in IK.
  apply in_app_or in I as [I|I]; rewrite map_map in I; apply in_map_iff in I as (j & E & J); apply in_seq in J;
    injection E as <- <- <-; fold a; rewrite ?HS; split; nia.
Qed.
