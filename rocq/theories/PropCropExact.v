(** C10: exactly which samples a cropped image shows, for every window. *)

From Coq Require Import List ZArith Bool Arith Lia.
From Verif Require Import Base Types Planes ImageM Crop SpecGeom SpecCrop GeomProofs GeomProofs2 CropProofs PropGeom.
Import ListNotations.

(** Component [c] of pixel (i, j) of a window at ([x], [y]) is component [c'] of
    pixel (x' + i, y' + j) of the image, [shown f x y c = (c', x', y')].
    - Rows: 16-bit formats count every row twice; 4:2:0 chroma of a window that
      starts in the middle of a chroma sample is that of the row above.
    - Columns: planar chroma of a window that starts in the middle of a chroma
      sample is that of the column on the left.  In NV12 and YUYV, which
      interleave U and V, U becomes the V of that column and V the U of the next
      chroma sample. *)
Definition shown (f : pixel_format) (x y : nat) (c : comp) : comp * nat * nat :=
  let k := sample_bytes f in
  match c with
  | CU | CV =>
      let y' := match f with I420 | I010 | I012 | NV12 => 2 * (k * (y / 2)) | _ => k * y end in
      match f with
      | NV12 | YUYV => if Nat.even x then (c, x, y') else match c with CU => (CV, x - 1, y') | _ => (CU, x + 1, y') end
      | I444 | I410 | I412 => (c, x, y')
      | _ => (c, 2 * (x / 2), y')
      end
  | _ => (c, x, k * y)
  end.

Lemma double_div_add : forall a b, (2 * a + b) / 2 = a + b / 2.
Proof. intros a b. rewrite Nat.mul_comm, Nat.div_add_l by lia. reflexivity. Qed.

Lemma component_shown : forall m f ps cps win c i j,
  n_planes f <= length ps ->
  (forall p pl, p < n_planes f -> nth_error ps p = Some pl -> nth_error cps p = Some (crop_slice f win p pl)) ->
  component m f cps c i j =
    let '(c', x', y') := shown f (win_x win) (win_y win) c in component m f ps c' (x' + i) (y' + j).
Proof.
  intros m f ps cps win c i j HL HC.
  assert (KEY : forall p r col, p < n_planes f ->
    match nth_error cps p with Some pl => Some (sample_at m f pl r col) | None => None end =
    match nth_error ps p with Some pl => Some (sample_at m f pl (sample_bytes f * plane_rows f p (win_y win) + r) (plane_cols f p (win_x win) + col)) | None => None end).
  { intros p r col Hp. destruct (nth_error ps p) as [pl|] eqn:En; [|apply nth_error_None in En; lia].
    rewrite (HC p pl Hp En). f_equal. unfold sample_at, sample_addr, crop_slice, crop_off. cbn [fst snd s_buf s_off].
    replace (s_off (fst pl) + (plane_rows f p (win_y win) * snd pl + plane_cols f p (win_x win)) * sample_bytes f + (r * snd pl + col * sample_bytes f))
      with (s_off (fst pl) + ((sample_bytes f * plane_rows f p (win_y win) + r) * snd pl + (plane_cols f p (win_x win) + col) * sample_bytes f)) by nia.
    reflexivity. }
  assert (EO : Nat.even (win_x win) = true /\ win_x win = 2 * (win_x win / 2) \/ Nat.even (win_x win) = false /\ win_x win = 2 * (win_x win / 2) + 1).
  { pose proof (Nat.div_mod (win_x win) 2 ltac:(lia)) as D. pose proof (Nat.mod_upper_bound (win_x win) 2 ltac:(lia)).
    destruct (Nat.even (win_x win)) eqn:E.
    - left. split; [reflexivity|]. apply Nat.even_spec in E as [q Q]. lia.
    - right. split; [reflexivity|]. assert (O : Nat.odd (win_x win) = true) by (unfold Nat.odd; rewrite E; reflexivity).
      apply Nat.odd_spec in O as [q Q]. lia. }
  set (h := win_x win / 2) in *. set (v := win_y win / 2).
  unfold shown. destruct f, c; unfold component; cbn [layout n_planes sample_bytes] in *; try reflexivity;
    destruct EO as [(E & X)|(E & X)]; rewrite ?E; fold h; fold v; cbn [layout]; try reflexivity;
    rewrite KEY by lia; cbn [plane_rows plane_cols Nat.eqb sample_bytes]; fold h; fold v;
    rewrite ?double_div_add;
    repeat match goal with |- match ?a with _ => _ end = match ?a with _ => _ end => destruct a; [|reflexivity] end;
    f_equal; f_equal; try lia; rewrite ?X; rewrite ?double_div_add;
    repeat match goal with |- context [(2 * h + 1 - 1 + i) / 2] => replace (2 * h + 1 - 1 + i) with (2 * h + i) by lia
    | |- context [(2 * h + 1 + 1 + i) / 2] => replace (2 * h + 1 + 1 + i) with (2 * (h + 1) + i) by lia end;
    rewrite ?double_div_add; try lia.
Qed.

(** Every window that is accepted and whose planes exist (when they do not:
    C11_crop_panics_iff) *)
Theorem C10_crop_exact : forall m t win ct ps cps,
  crop_new t win = Ok ct -> im_planes t = Ok ps -> wf_planes ps -> im_planes ct = Ok cps ->
  im_format ct = im_format t /\ im_color ct = im_color t /\ im_width ct = win_width win /\ im_height ct = win_height win /\
  image_bounds_check ct = Ok tt /\
  forall c i j, component m (im_format ct) cps c i j =
    let '(c', x', y') := shown (im_format t) (win_x win) (win_y win) c in component m (im_format t) ps c' (x' + i) (y' + j).
Proof.
  intros m t win ct ps cps HN HP HW HC.
  unfold crop_new in HN. apply bind_ok in HN as (u & BC & HN).
  destruct (image_bounds_check t) as [[]| | |] eqn:BC'; cbn [map_err] in BC; try discriminate.
  apply image_bounds_check_inv in BC' as (ps' & E & FIT). rewrite HP in E. injection E as <-.
  destruct (checked_add_cases (win_x win) (win_width win)) as [[Q1 U1]|[Q1 U1]]; rewrite Q1 in HN; [|discriminate].
  destruct (checked_add_cases (win_y win) (win_height win)) as [[Q2 U2]|[Q2 U2]]; rewrite Q2 in HN; [|discriminate].
  destruct (Nat.ltb_spec (im_width t) (win_x win + win_width win)); cbn [orb] in HN; [discriminate|].
  destruct (Nat.ltb_spec (im_height t) (win_y win + win_height win)); cbn [orb] in HN; [discriminate|].
  injection HN as <-. destruct FIT as [HL FIT].
  destruct (cropped_planes_spec t win ps HP HW HL) as [(cps' & A & B & C)|(_ & q & Q)]; [|congruence].
  rewrite A in HC. injection HC as <-.
  do 4 (split; [reflexivity|]). split.
  - apply image_bounds_check_complete with (ps := cps'); auto.
    + unfold wf_planes. rewrite Forall_forall. intros pl Hin. apply In_nth_error in Hin as [p Hp].
      assert (p < n_planes (im_format t)) by (rewrite <- B; apply nth_error_Some; congruence).
      destruct (nth_error ps p) as [pl0|] eqn:En; [|apply nth_error_None in En; lia].
      destruct (C p pl0 H1 En) as [CF CN]. rewrite CN in Hp. injection Hp as <-.
      unfold wf_planes in HW. rewrite Forall_forall in HW. apply nth_error_In in En.
      apply HW in En as [U3 U4]. unfold crop_slice. cbn [fst snd s_len]. split; auto.
      eapply usize_le; [|exact U3]. unfold crop_fits in CF. lia.
    + split; [cbn [im_format cropped]; lia|]. cbn [im_format im_width im_height cropped].
      intros p pl Hp Hn. destruct (nth_error ps p) as [pl0|] eqn:En; [|apply nth_error_None in En; lia].
      destruct (C p pl0 Hp En) as [CF CN]. rewrite CN in Hn. injection Hn as <-.
      destruct (FIT p pl0 Hp En) as [F1 F2]. unfold plane_fits, crop_slice. cbn [fst snd s_len].
      split; [|lia]. unfold row_bytes in *.
      pose proof (plane_cols_mono (im_format t) p (win_width win) (im_width t) ltac:(lia)). nia.
  - intros c i j. apply component_shown; auto. intros p pl Hp Hn. apply C; auto.
Qed.
Print Assumptions C10_crop_exact.

(** A window at (1, 1) of a 4 x 4 NV12 image with one spare byte: luma is right,
    U shows V of the chroma sample above and on the left *)
Example C10_exact_example : exists ct cps, crop_new imgnv12 (Window 1 1 2 2) = Ok ct /\ im_planes ct = Ok cps /\
  forall m, component m NV12 cps CY 0 0 = component m NV12 [(Slice 0 0 17, 4); (Slice 1 0 9, 4)] CY 1 1 /\
    component m NV12 cps CU 0 0 = component m NV12 [(Slice 0 0 17, 4); (Slice 1 0 9, 4)] SpecGeom.CV 0 0 /\
    component m NV12 cps SpecGeom.CV 0 0 = component m NV12 [(Slice 0 0 17, 4); (Slice 1 0 9, 4)] CU 2 0.
Proof. do 2 eexists. split; [reflexivity|]. split; [reflexivity|]. intros m. repeat split; reflexivity. Qed.

(** The window (0, 2) of the 2 x 8 I410 image shows the rows from 4 on. *)
Example C10_exact_example_16bit : exists ct cps, crop_new img410 (Window 0 2 2 2) = Ok ct /\ im_planes ct = Ok cps /\
  forall c, shown I410 0 2 c = (c, 0, 4).
Proof. do 2 eexists. split; [reflexivity|]. split; [reflexivity|]. intros []; reflexivity. Qed.
