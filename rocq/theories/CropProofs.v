(** Lemmas about cropping. *)

From Coq Require Import List ZArith Bool Arith Lia.
From Verif Require Import Base Types Planes ImageM Crop SpecGeom SpecCrop GeomProofs GeomProofs2 GeomProofs3.
Import ListNotations.

Lemma checked_add_cases : forall a b,
  (checked_add a b = Some (a + b) /\ usize (a + b)) \/ (checked_add a b = None /\ ~ usize (a + b)).
Proof.
  intros. unfold checked_add, fits, usize. rewrite Nat2Z.inj_add.
  destruct (Z.leb_spec (Z.of_nat a + Z.of_nat b) usize_max); [left|right]; split; auto; lia.
Qed.

Lemma crop_new_spec : forall t win,
  usize (im_width t) -> usize (im_height t) ->
  crop_new t win =
  match image_bounds_check t with
  | Ok _ =>
      if (win_x win + win_width win <=? im_width t) && (win_y win + win_height win <=? im_height t)
      then Ok (cropped t win) else Err WindowSizeOutOfBounds
  | Err e => Err (CropBoundsCheck e)
  | Panic p => Panic p
  | UB => UB
  end.
Proof.
  intros t win UW UH. unfold crop_new.
  destruct (image_bounds_check t) as [[]| | |]; cbn [map_err bind]; auto.
  destruct (checked_add_cases (win_x win) (win_width win)) as [[-> U1]|[-> U1]].
  2:{ destruct (Nat.leb_spec (win_x win + win_width win) (im_width t)); auto.
      exfalso; apply U1. eapply usize_le; eauto. }
  destruct (checked_add_cases (win_y win) (win_height win)) as [[-> U2]|[-> U2]].
  2:{ destruct (Nat.leb_spec (win_y win + win_height win) (im_height t)).
      - exfalso; apply U2. eapply usize_le; eauto.
      - rewrite andb_false_r. auto. }
  rewrite !Nat.ltb_antisym.
  destruct (win_x win + win_width win <=? im_width t), (win_y win + win_height win <=? im_height t); reflexivity.
Qed.

(** One plane, in closed form. *)
Definition crop_off (f : pixel_format) (win : window) (p stride : nat) : nat :=
  (plane_rows f p (win_y win) * stride + plane_cols f p (win_x win)) * sample_bytes f.

Definition crop_fits (f : pixel_format) (win : window) (p : nat) (pl : slice * nat) : Prop :=
  crop_off f win p (snd pl) + plane_rows f p (win_height win) * snd pl <= s_len (fst pl).

Definition crop_slice (f : pixel_format) (win : window) (p : nat) (pl : slice * nat) : slice * nat :=
  (Slice (s_buf (fst pl)) (s_off (fst pl) + crop_off f win p (snd pl)) (plane_rows f p (win_height win) * snd pl),
   snd pl).

Lemma crop_plane_spec : forall f win p d pl, nth_error (plane_descs f) p = Some d ->
  usize (s_len (fst pl)) ->
  (crop_fits f win p pl /\ crop_plane win d pl = Ok (crop_slice f win p pl)) \/
  (~ crop_fits f win p pl /\ exists q, crop_plane win d pl = Panic q /\ (q = POverflow \/ q = PSplitAt)).
Proof.
  intros f win p d [s st] Hd U. destruct (desc_spec _ _ _ Hd) as (Hp & Hw & Hh & Hb & Hb1 & Hm).
  unfold crop_fits, crop_slice, crop_off. cbn [fst snd] in *. unfold crop_plane.
  rewrite <- Hw, <- !Hh, <- Hb.
  set (X := opn (width_op d) (win_x win)). set (Y := opn (height_op d) (win_y win)).
  set (H := opn (height_op d) (win_height win)).
  assert (OUT : forall n, n <= (Y * st + X) * bpp d -> ~ usize n -> ~ (Y * st + X) * bpp d + H * st <= s_len s).
  { intros n A B C. apply B. eapply usize_le; [|exact U]. lia. }
  destruct (op_apply_cases noerr (width_op d) (win_x win)) as [[Q _]|[Q N]]; rewrite Q; cbn [bind]; fold X.
  2:{ right. split; eauto. apply (OUT X); auto. nia. }
  rewrite op_apply_mulfree by auto. fold Y. cbn [bind].
  destruct (umul_cases noerr Y st) as [[Q2 _]|[Q2 N]]; rewrite Q2; cbn [bind].
  2:{ right. split; eauto. apply (OUT (Y * st)); auto. nia. }
  destruct (uadd_cases noerr (Y * st) X) as [[Q3 _]|[Q3 N]]; rewrite Q3; cbn [bind].
  2:{ right. split; eauto. apply (OUT (Y * st + X)); auto. nia. }
  destruct (umul_cases noerr (Y * st + X) (bpp d)) as [[Q4 _]|[Q4 N]]; rewrite Q4; cbn [bind].
  2:{ right. split; [apply (OUT ((Y * st + X) * bpp d)); auto|eauto]. }
  unfold split_at. cbn [s_len s_buf s_off].
  destruct (Nat.leb_spec ((Y * st + X) * bpp d) (s_len s)); cbn [bind].
  2:{ right. split; [lia|eauto]. }
  rewrite op_apply_mulfree by auto. fold H. cbn [bind].
  destruct (umul_cases noerr H st) as [[Q5 _]|[Q5 N]]; rewrite Q5; cbn [bind].
  2:{ right. split; [|eauto]. intros C. apply N. eapply usize_le; [|exact U]. lia. }
  cbn [s_len s_buf s_off].
  destruct (Nat.leb_spec (H * st) (s_len s - (Y * st + X) * bpp d)); cbn [bind].
  - left. split; [lia|reflexivity].
  - right. split; [lia|eauto].
Qed.

(** All planes. *)
Lemma mapM_crop : forall f win n descs pls k,
  n = length descs ->
  (forall i d, nth_error descs i = Some d -> nth_error (plane_descs f) (k + i) = Some d) ->
  Forall (fun pl => usize (s_len (fst pl))) pls ->
  (exists ps, mapM (fun dp => crop_plane win (fst dp) (snd dp)) (combine descs pls) = Ok ps /\
     length ps = min n (length pls) /\
     forall i pl, i < n -> nth_error pls i = Some pl ->
        crop_fits f win (k + i) pl /\ nth_error ps i = Some (crop_slice f win (k + i) pl)) \/
  ((exists i pl, i < n /\ nth_error pls i = Some pl /\ ~ crop_fits f win (k + i) pl) /\
     exists q, mapM (fun dp => crop_plane win (fst dp) (snd dp)) (combine descs pls) = Panic q).
Proof.
  intros f win n descs. revert n.
  induction descs as [|d descs IH]; intros n pls k -> HD HU.
  - left. exists []. simpl. repeat split; intros; lia.
  - destruct pls as [|pl pls].
    + left. exists []. simpl. repeat split; intros; destruct i; discriminate.
    + inversion HU as [|? ? U HU']; subst.
      cbn [combine mapM fst snd].
      pose proof (HD 0 d eq_refl) as Hd. rewrite Nat.add_0_r in Hd.
      destruct (crop_plane_spec f win k d pl Hd U) as [[A B]|[A [q [B _]]]]; rewrite B; cbn [bind].
      2:{ right. split; eauto. exists 0, pl. rewrite Nat.add_0_r. simpl. repeat split; auto; lia. }
      destruct (IH (length descs) pls (S k) eq_refl) as [(ps & P1 & P2 & P3)|((i & pl' & I1 & I2 & I3) & q & Q)]; auto.
      * intros i d' Hi. replace (S k + i) with (k + S i) by lia. apply HD. exact Hi.
      * left. rewrite P1. cbn [bind]. eexists. split; [reflexivity|]. split; [simpl; lia|].
        intros i pl' Hi Hn. destruct i as [|i]; simpl in Hn |- *.
        -- injection Hn as <-. rewrite Nat.add_0_r. auto.
        -- replace (k + S i) with (S k + i) by lia. apply P3; auto. simpl in Hi. lia.
      * right. split; [|rewrite Q; simpl; eauto].
        exists (S i), pl'. replace (k + S i) with (S k + i) by lia. simpl. repeat split; auto. lia.
Qed.

Lemma wf_planes_len : forall ps, wf_planes ps -> Forall (fun pl => usize (s_len (fst pl))) ps.
Proof. unfold wf_planes. intros. eapply Forall_impl; [|exact H]. simpl. tauto. Qed.

Lemma cropped_planes_spec : forall t win ps, im_planes t = Ok ps -> wf_planes ps ->
  n_planes (im_format t) <= length ps ->
  (exists cps, im_planes (cropped t win) = Ok cps /\ length cps = n_planes (im_format t) /\
     forall p pl, p < n_planes (im_format t) -> nth_error ps p = Some pl ->
       crop_fits (im_format t) win p pl /\ nth_error cps p = Some (crop_slice (im_format t) win p pl)) \/
  ((exists p pl, p < n_planes (im_format t) /\ nth_error ps p = Some pl /\ ~ crop_fits (im_format t) win p pl) /\
     exists q, im_planes (cropped t win) = Panic q).
Proof.
  intros t win ps E W L. unfold cropped, crop_planes. cbn [im_planes]. rewrite E. cbn [bind].
  destruct (mapM_crop (im_format t) win (n_planes (im_format t)) (plane_descs (im_format t)) ps 0)
    as [(cps & A & B & C)|((p & pl & A & B & C) & q & Q)].
  - symmetry. apply n_planes_descs.
  - intros. exact H.
  - apply wf_planes_len; auto.
  - left. exists cps. split; [exact A|]. split; [lia|]. exact C.
  - right. split; [|eauto]. exists p, pl. auto.
Qed.

Lemma cropped_panic_iff : forall t win ps, im_planes t = Ok ps -> wf_planes ps ->
  n_planes (im_format t) <= length ps ->
  ((exists q, im_planes (cropped t win) = Panic q) <->
   exists p pl, p < n_planes (im_format t) /\ nth_error ps p = Some pl /\
     s_len (fst pl) <
       (plane_rows (im_format t) p (win_y win) * snd pl + plane_cols (im_format t) p (win_x win))
          * sample_bytes (im_format t)
       + plane_rows (im_format t) p (win_height win) * snd pl).
Proof.
  intros t win ps E W L.
  destruct (cropped_planes_spec t win ps E W L) as [(cps & A & B & C)|((p & pl & A & B & C) & Q)].
  - split.
    + intros [q H]. congruence.
    + intros (p & pl & Hp & Hn & Hl). destruct (C p pl Hp Hn) as [F _].
      unfold crop_fits, crop_off in F. lia.
  - split; auto. intros _. exists p, pl. repeat split; auto. unfold crop_fits, crop_off in C. lia.
Qed.

Lemma even_div_add : forall a b, Nat.Even a -> (a + b) / 2 = a / 2 + b / 2.
Proof.
  intros a b [k ->]. rewrite (Nat.mul_comm 2 k), Nat.div_add_l, Nat.div_mul by lia. reflexivity.
Qed.

Lemma component_shift : forall m f ps cps win c i j,
  even_offsets f win ->
  (sample_bytes f = 1 \/ forall p, plane_rows f p (win_y win) = 0) ->
  n_planes f <= length ps ->
  (forall p pl, p < n_planes f -> nth_error ps p = Some pl -> nth_error cps p = Some (crop_slice f win p pl)) ->
  component m f cps c i j = component m f ps c (win_x win + i) (win_y win + j).
Proof.
  intros m f ps cps win c i j HE HB HL HC. unfold component.
  assert (Y2 : Nat.Even (win_y win) -> (win_y win + j) / 2 = win_y win / 2 + j / 2) by (apply even_div_add).
  assert (X2 : Nat.Even (win_x win) -> (win_x win + i) / 2 = win_x win / 2 + i / 2) by (apply even_div_add).
  assert (XX : Nat.Even (win_x win) -> 2 * (win_x win / 2) = win_x win).
  { intros [k ->]. rewrite (Nat.mul_comm 2 k), Nat.div_mul by lia. lia. }
  assert (KEY : forall p r col, p < n_planes f ->
    match nth_error cps p with Some pl => Some (sample_at m f pl r col) | None => None end =
    match nth_error ps p with Some pl => Some (sample_at m f pl (plane_rows f p (win_y win) + r) (plane_cols f p (win_x win) + col)) | None => None end).
  { intros p r col Hp.
    destruct (nth_error ps p) as [pl|] eqn:En.
    2:{ apply nth_error_None in En. lia. }
    rewrite (HC p pl Hp En). f_equal. unfold sample_at, sample_addr, crop_slice, crop_off. cbn [fst snd s_buf s_off].
    assert (EQ : s_off (fst pl) + (plane_rows f p (win_y win) * snd pl + plane_cols f p (win_x win)) * sample_bytes f
              + (r * snd pl + col * sample_bytes f)
            = s_off (fst pl) + ((plane_rows f p (win_y win) + r) * snd pl + (plane_cols f p (win_x win) + col) * sample_bytes f)).
    { destruct HB as [HB|HB]; [rewrite HB|rewrite HB]; lia. }
    rewrite EQ. reflexivity. }
  destruct f, c; cbn [layout n_planes even_offsets] in *; try reflexivity;
  rewrite KEY by lia; cbn [plane_rows plane_cols Nat.eqb] in *;
  repeat match goal with
  | |- match ?a with _ => _ end = match ?a with _ => _ end => destruct a; [|reflexivity]
  end; f_equal; f_equal;
  try match type of HE with
  | _ /\ _ => destruct HE as [HEx HEy]; rewrite ?(Y2 HEy), ?(X2 HEx); specialize (XX HEx); lia
  | Nat.Even _ => rewrite ?(X2 HE); specialize (XX HE); lia
  | True => lia
  end.
Qed.

Lemma plane_cols_mono : forall f p a b, a <= b -> plane_cols f p a <= plane_cols f p b.
Proof.
  intros. assert (a / 2 <= b / 2) by (apply Nat.div_le_mono; lia).
  destruct f; simpl; try lia; destruct (p =? 0); auto.
Qed.

Lemma crop_view : forall m t win ct ps,
  crop_new t win = Ok ct ->
  im_planes t = Ok ps -> wf_planes ps ->
  even_offsets (im_format t) win ->
  (sample_bytes (im_format t) = 1 \/ forall p, plane_rows (im_format t) p (win_y win) = 0) ->
  (forall p pl, p < n_planes (im_format t) -> nth_error ps p = Some pl -> crop_fits (im_format t) win p pl) ->
  exists cps, im_planes ct = Ok cps /\
    im_format ct = im_format t /\ im_color ct = im_color t /\
    im_width ct = win_width win /\ im_height ct = win_height win /\
    image_bounds_check ct = Ok tt /\
    forall c i j, component m (im_format ct) cps c i j =
                  component m (im_format t) ps c (win_x win + i) (win_y win + j).
Proof.
  intros m t win ct ps HN HP HW HE HB HF.
  unfold crop_new in HN. apply bind_ok in HN as (u & BC & HN).
  destruct (image_bounds_check t) as [[]| | |] eqn:BC'; cbn [map_err] in BC; try discriminate.
  apply image_bounds_check_inv in BC' as (ps' & E & FIT). rewrite HP in E. injection E as <-.
  destruct (checked_add_cases (win_x win) (win_width win)) as [[Q1 U1]|[Q1 U1]]; rewrite Q1 in HN; [|discriminate].
  destruct (checked_add_cases (win_y win) (win_height win)) as [[Q2 U2]|[Q2 U2]]; rewrite Q2 in HN; [|discriminate].
  destruct (Nat.ltb_spec (im_width t) (win_x win + win_width win)); cbn [orb] in HN; [discriminate|].
  destruct (Nat.ltb_spec (im_height t) (win_y win + win_height win)); cbn [orb] in HN; [discriminate|].
  injection HN as <-. destruct FIT as [HL FIT].
  destruct (cropped_planes_spec t win ps HP HW HL) as [(cps & A & B & C)|((p & pl & A & B & C) & Q)].
  2:{ exfalso. apply C. apply HF; auto. }
  exists cps. split; [exact A|]. do 4 (split; [reflexivity|]). split.
  - apply image_bounds_check_complete with (ps := cps); auto.
    + unfold wf_planes. rewrite Forall_forall. intros pl Hin. apply In_nth_error in Hin as [p Hp].
      assert (p < n_planes (im_format t)) by (rewrite <- B; apply nth_error_Some; congruence).
      destruct (nth_error ps p) as [pl0|] eqn:En; [|apply nth_error_None in En; lia].
      destruct (C p pl0 H1 En) as [CF CN]. rewrite CN in Hp. injection Hp as <-.
      unfold wf_planes in HW. rewrite Forall_forall in HW. apply nth_error_In in En.
      apply HW in En as [U3 U4]. unfold crop_slice. cbn [fst snd s_len]. split; auto.
      eapply usize_le; [|exact U3]. unfold crop_fits in CF. lia.
    + split; [cbn [im_format cropped]; lia|]. cbn [im_format im_width im_height cropped].
      intros p pl Hp Hn. destruct (nth_error ps p) as [pl0|] eqn:En; [|apply nth_error_None in En; lia].
      destruct (C p pl0 Hp En) as [CF CN]. rewrite CN in Hn. injection Hn as <-.
      destruct (FIT p pl0 Hp En) as [F1 F2]. unfold plane_fits, crop_slice. cbn [fst snd s_len].
      split; [|lia]. unfold row_bytes in *.
      pose proof (plane_cols_mono (im_format t) p (win_width win) (im_width t) ltac:(lia)). nia.
  - intros. apply component_shift; auto. intros p pl Hp Hn. apply C; auto.
Qed.

Lemma not_both_odd_div : forall a b, not_both_odd a b -> (a + b) / 2 = a / 2 + b / 2.
Proof.
  intros a b [H|H]; [apply even_div_add; auto|].
  rewrite (Nat.add_comm a b), even_div_add by auto. lia.
Qed.

Lemma nth_error_ext : forall A (l l' : list A), (forall i, nth_error l i = nth_error l' i) -> l = l'.
Proof.
  induction l as [|a l IH]; intros [|b l'] H; auto.
  - specialize (H 0). discriminate.
  - specialize (H 0). discriminate.
  - f_equal; [specialize (H 0); simpl in H; congruence|]. apply IH. intros i. exact (H (S i)).
Qed.

Lemma crop_compose : forall t w1 w2 ps cps,
  im_planes t = Ok ps -> wf_planes ps -> n_planes (im_format t) <= length ps ->
  not_both_odd (win_x w1) (win_x w2) -> not_both_odd (win_y w1) (win_y w2) ->
  im_planes (cropped (cropped t w1) w2) = Ok cps ->
  cropped (cropped t w1) w2 = cropped t (compose_win w1 w2).
Proof.
  intros t w1 w2 ps cps HP HW HL NX NY HC.
  assert (PR : forall p, plane_rows (im_format t) p (win_y w1 + win_y w2) = plane_rows (im_format t) p (win_y w1) + plane_rows (im_format t) p (win_y w2)).
  { intros. pose proof (not_both_odd_div _ _ NY). destruct (im_format t); simpl; try reflexivity; destruct (p =? 0); auto. }
  assert (PC : forall p, plane_cols (im_format t) p (win_x w1 + win_x w2) = plane_cols (im_format t) p (win_x w1) + plane_cols (im_format t) p (win_x w2)).
  { intros. pose proof (not_both_odd_div _ _ NX). destruct (im_format t); simpl; try lia; destruct (p =? 0); auto. }
  destruct (cropped_planes_spec t w1 ps HP HW HL) as [(c1 & A & B & C)|(_ & q & Q)].
  2:{ unfold cropped in HC at 1. cbn [im_planes] in HC. rewrite Q in HC. discriminate. }
  assert (W1 : wf_planes c1).
  { unfold wf_planes. rewrite Forall_forall. intros pl Hin. apply In_nth_error in Hin as [p Hp].
    assert (p < n_planes (im_format t)) by (rewrite <- B; apply nth_error_Some; congruence).
    destruct (nth_error ps p) as [pl0|] eqn:En; [|apply nth_error_None in En; lia].
    destruct (C p pl0 H En) as [CF CN]. rewrite CN in Hp. injection Hp as <-.
    unfold wf_planes in HW. rewrite Forall_forall in HW. apply nth_error_In in En.
    apply HW in En as [U3 U4]. unfold crop_slice. cbn [fst snd s_len]. split; auto.
    eapply usize_le; [|exact U3]. unfold crop_fits in CF. lia. }
  destruct (cropped_planes_spec (cropped t w1) w2 c1 A W1) as [(c2 & A2 & B2 & C2)|(_ & q & Q)].
  { cbn [im_format cropped]. lia. }
  2:{ congruence. }
  cbn [im_format cropped] in B2, C2.
  assert (STEP : forall p pl, p < n_planes (im_format t) -> nth_error ps p = Some pl ->
     crop_fits (im_format t) (compose_win w1 w2) p pl /\
     nth_error c2 p = Some (crop_slice (im_format t) (compose_win w1 w2) p pl)).
  { intros p pl Hp Hn. destruct (C p pl Hp Hn) as [F1 N1]. destruct (C2 p _ Hp N1) as [F2 N2].
    unfold crop_fits, crop_slice, crop_off in *. cbn [fst snd s_len s_buf s_off win_x win_y win_width win_height compose_win] in *.
    rewrite PR, PC. split; [nia|]. rewrite N2. do 2 f_equal. f_equal. lia. }
  destruct (cropped_planes_spec t (compose_win w1 w2) ps HP HW HL) as [(c3 & A3 & B3 & C3)|((p & pl & D1 & D2 & D3) & _)].
  2:{ exfalso. apply D3. apply STEP; auto. }
  assert (E : c2 = c3).
  { apply nth_error_ext. intros i. destruct (lt_dec i (n_planes (im_format t))).
    - destruct (nth_error ps i) as [pl|] eqn:En; [|apply nth_error_None in En; lia].
      destruct (STEP i pl l En) as [_ ->]. destruct (C3 i pl l En) as [_ ->]. reflexivity.
    - rewrite (proj2 (nth_error_None c2 i)), (proj2 (nth_error_None c3 i)) by lia. reflexivity. }
  subst c3. unfold cropped at 1. unfold cropped at 1. unfold cropped at 2.
  cbn [im_planes im_format im_color im_width im_height] in *.
  unfold cropped in A2, A3. cbn [im_planes im_format] in A2, A3. 
  unfold cropped. cbn [im_planes im_format im_color compose_win win_width win_height].
  rewrite A2, A3. reflexivity.
Qed.

(** Sufficient conditions for not panicking. *)
Lemma crop_fits_left_edge : forall f ps w h win p pl,
  planes_fit f ps w h -> p < n_planes f -> nth_error ps p = Some pl ->
  sample_bytes f = 1 -> win_x win = 0 -> win_y win + win_height win <= h ->
  crop_fits f win p pl.
Proof.
  intros f ps w h win p pl [_ FIT] Hp Hn HB HX HY. destruct (FIT p pl Hp Hn) as [F1 F2].
  unfold crop_fits, crop_off. rewrite HX, HB.
  assert (win_y win / 2 + win_height win / 2 <= h / 2).
  { pose proof (Nat.div_mod (win_y win) 2 ltac:(lia)). pose proof (Nat.div_mod (win_height win) 2 ltac:(lia)).
    apply Nat.div_le_lower_bound; lia. }
  assert (plane_cols f p 0 = 0) by (destruct f; simpl; try reflexivity; destruct (p =? 0); reflexivity).
  rewrite H0.
  assert (plane_rows f p (win_y win) + plane_rows f p (win_height win) <= plane_rows f p h).
  { destruct f; simpl; try lia; destruct (p =? 0); lia. }
  nia.
Qed.

Lemma crop_fits_spare_row : forall f ps w h win p pl,
  planes_fit f ps w h -> p < n_planes f -> nth_error ps p = Some pl ->
  sample_bytes f = 1 -> win_x win <= w -> win_y win + win_height win + 2 <= h ->
  crop_fits f win p pl.
Proof.
  intros f ps w h win p pl [_ FIT] Hp Hn HB HX HY. destruct (FIT p pl Hp Hn) as [F1 F2].
  unfold crop_fits, crop_off. rewrite HB in *. unfold row_bytes in F1. rewrite HB in F1.
  assert (win_y win / 2 + win_height win / 2 + 1 <= h / 2).
  { pose proof (Nat.div_mod (win_y win) 2 ltac:(lia)). pose proof (Nat.div_mod (win_height win) 2 ltac:(lia)).
    apply Nat.div_le_lower_bound; lia. }
  pose proof (plane_cols_mono f p (win_x win) w HX).
  assert (plane_rows f p (win_y win) + plane_rows f p (win_height win) + 1 <= plane_rows f p h).
  { destruct f; simpl; try lia; destruct (p =? 0); lia. }
  nia.
Qed.
