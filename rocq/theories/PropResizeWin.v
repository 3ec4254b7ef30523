(** Property C83: resizing from a window of an image to a window of another. *)

From Coq Require Import List ZArith Bool Arith Lia.
From Verif Require Import Base Types Planes ImageM Crop Copy MultiThread Resize SpecGeom SpecCrop SpecConvert SpecRun SpecExec SpecCopy SpecResize SpecWindow.
From Verif Require Import WriteProofs VisitProofs GeomProofs CropProofs ConvertProofs ResizeProofs CopyProofs WindowProofs PropConvert PropCopy PropResize PropWindow.
Import ListNotations.

(** Sizes that fit the 32 bits of the resampler *)
Definition small_window (win : window) : Prop :=
  (4 * Z.of_nat (win_width win) < 2 ^ 32 /\ Z.of_nat (win_height win) < 2 ^ 32)%Z.

Lemma cols_le : forall f p w, plane_cols f p w <= 4 * w.
Proof. intros f p w. pose proof (Nat.div_le_upper_bound w 2 w ltac:(lia) ltac:(lia)). destruct f; cbn [plane_cols]; try destruct (p =? 0); lia. Qed.
Lemma rows_le : forall f p h, plane_rows f p h <= h.
Proof. intros f p h. pose proof (Nat.div_le_upper_bound h 2 h ltac:(lia) ltac:(lia)). destruct f; cbn [plane_rows]; try destruct (p =? 0); lia. Qed.

Lemma view_resizable : forall t ps win v cps, view_planes t ps win v cps -> n_planes (im_format t) <= length ps ->
  whole_pixels (im_format t) (win_width win) -> strides_positive (im_format t) ps -> small_window win -> resizable v cps.
Proof.
  intros t ps win v cps VP HL WP SP (SW & SH). split; [apply VP|].
  rewrite (vp_format _ _ _ _ _ VP), (vp_width _ _ _ _ _ VP), (vp_height _ _ _ _ _ VP). split; [exact WP|]. split; [apply VP|].
  assert (PL : forall p pl, p < n_planes (im_format t) -> nth_error cps p = Some pl ->
    exists pl0, nth_error ps p = Some pl0 /\ pl = crop_slice (im_format t) win p pl0).
  { intros p pl Hp N. destruct (nth_error ps p) as [pl0|] eqn:EN; [|apply nth_error_None in EN; lia].
    destruct (vp_plane _ _ _ _ _ VP p pl0 Hp EN) as [_ Q]. rewrite Q in N. injection N as <-. eauto. }
  split.
  - intros p pl Hp N. destruct (PL p pl Hp N) as (pl0 & EN & ->). exact (SP p pl0 Hp EN).
  - intros p pl Hp N. destruct (PL p pl Hp N) as (pl0 & EN & ->). pose proof (SP p pl0 Hp EN) as S0.
    unfold whole_rows, crop_slice. cbn [fst snd s_len]. rewrite Nat.div_mul by lia. split; [reflexivity|].
    pose proof (cols_le (im_format t) p (win_width win)). pose proof (rows_le (im_format t) p (win_height win)). lia.
Qed.

Lemma view_aligned : forall addr t ps win v cps, window_of t ps win v -> view_planes t ps win v cps -> n_planes (im_format t) <= length ps ->
  words_aligned addr (im_format t) ps -> words_aligned addr (im_format v) cps.
Proof.
  intros addr t ps win v cps (_ & _ & _ & _ & HB) VP HL AL. rewrite (vp_format _ _ _ _ _ VP). intros S2 pl I.
  apply In_nth_error in I as [p N].
  assert (Hp : p < n_planes (im_format t)) by (rewrite <- (vp_length _ _ _ _ _ VP); apply nth_error_Some; congruence).
  destruct (nth_error ps p) as [pl0|] eqn:EN; [|apply nth_error_None in EN; lia].
  destruct (vp_plane _ _ _ _ _ VP p pl0 Hp EN) as [_ Q]. rewrite Q in N. injection N as <-.
  destruct (AL S2 pl0 (nth_error_In _ _ EN)) as [A B]. unfold crop_slice, crop_off. cbn [fst snd s_buf s_off]. rewrite S2. split; [|exact B].
  rewrite Nat2Z.inj_add, Z.add_assoc, Z.even_add, A, Nat2Z.inj_mul, Z.even_mul, orb_true_r. reflexivity.
Qed.

(** * What the resampler is given *)

(** Row [r] of the view of plane [p] is the part of the row of the image that is
    in the window; there are as many rows as in the window. *)
Theorem C83_views_partial : forall E addr t ps win v,
  window_of t ps win v -> whole_pixels (im_format t) (win_width win) -> strides_positive (im_format t) ps -> small_window win ->
  words_aligned addr (im_format t) ps ->
  exists cps, im_planes v = Ok cps /\ resizable v cps /\
  forall p pl, p < n_planes (im_format t) -> nth_error ps p = Some pl ->
  exists cpl, nth_error cps p = Some cpl /\
  let view := view_of (im_format v) (im_width v) (im_height v) p cpl in
  view_width view = Z.of_nat (plane_cols (im_format t) p (win_width win) / pixel_samples (im_format t) p) /\
  view_height view = Z.of_nat (plane_rows (im_format t) p (win_height win)) /\
  forall r, @view_row E addr view r =
    Ok (if r <? plane_rows (im_format t) p (win_height win)
        then Some (Slice (s_buf (fst pl))
               (snd (sample_addr (im_format t) pl (plane_rows (im_format t) p (win_y win) + r) (plane_cols (im_format t) p (win_x win))))
               (row_bytes (im_format t) p (win_width win)))
        else None).
Proof.
  intros E addr t ps win v WO WP SP SW AL. destruct (window_planes _ _ _ _ WO) as (cps & VP).
  destruct (valid_ready _ _ (proj1 WO)) as (_ & _ & HL & _).
  pose proof (view_resizable _ _ _ _ _ VP HL WP SP SW) as RZ. exists cps. split; [apply (vp_valid _ _ _ _ _ VP)|]. split; [exact RZ|].
  intros p pl Hp N. destruct (vp_plane _ _ _ _ _ VP p pl Hp N) as [_ Q]. eexists. split; [exact Q|].
  pose proof (C45_view_is_plane E addr v cps p _ RZ (view_aligned _ _ _ _ _ _ WO VP HL AL) ltac:(rewrite (vp_format _ _ _ _ _ VP); exact Hp) Q) as X.
  cbv zeta in X |- *. rewrite (vp_format _ _ _ _ _ VP), (vp_width _ _ _ _ _ VP), (vp_height _ _ _ _ _ VP) in *.
  destruct X as (X1 & _ & X2 & _ & X3). split; [exact X1|]. split; [exact X2|]. intros r. rewrite X3.
  destruct (Nat.ltb_spec r (plane_rows (im_format t) p (win_height win))) as [L|L]; [|reflexivity]. do 3 f_equal.
  unfold sample_addr, crop_slice, crop_off. cbn [fst snd s_off].
  destruct WO as (_ & _ & _ & _ & HB).
  assert (Z : sample_bytes (im_format t) = 1 \/ plane_rows (im_format t) p (win_y win) = 0).
  { destruct HB as [HB|HB]; [left; exact HB|right; rewrite HB; apply rows_0]. }
  destruct Z as [Z|Z]; rewrite Z; lia.
Qed.
Print Assumptions C83_views_partial.

(** * What is changed *)

(** Only bytes of pixels of the destination's window are changed. *)
Theorem C83_outside_bytes_partial : forall F addr threads m (rz : resizer F) src sps ws vs dst dps wd vd rz' o,
  stores_in_rows F addr -> window_of src sps ws vs -> window_of dst dps wd vd ->
  whole_pixels (im_format src) (win_width ws) -> whole_pixels (im_format dst) (win_width wd) ->
  strides_positive (im_format src) sps -> strides_positive (im_format dst) dps -> small_window ws -> small_window wd ->
  words_aligned addr (im_format dst) dps ->
  resize F threads m rz vs vd rz' o ->
  forall b i, ~ window_byte (im_format dst) dps wd b i -> apply_all m (fst o) b i = m b i.
Proof.
  intros F addr threads m rz src sps ws vs dst dps wd vd rz' o ST WS WD PS PD SS SD MS MD AL R b i NW.
  destruct (window_planes _ _ _ _ WS) as (scs & VS). destruct (window_planes _ _ _ _ WD) as (dcs & VD).
  destruct (valid_ready _ _ (proj1 WS)) as (_ & _ & LS & _). destruct (valid_ready _ _ (proj1 WD)) as (_ & _ & LD & _).
  apply (C45_only_samples F addr threads m rz vs scs vd dcs rz' o ST (view_aligned _ _ _ _ _ _ WD VD LD AL)
    (view_resizable _ _ _ _ _ VS LS PS SS MS) (view_resizable _ _ _ _ _ VD LD PD SD MD) R).
  intros SB. apply NW. exact (view_bytes _ _ _ _ _ _ _ WD VD SB).
Qed.
Print Assumptions C83_outside_bytes_partial.

(** No pixel beside the window is changed. *)
Theorem C83_outside_pixels_partial : forall F addr threads m (rz : resizer F) src sps ws vs dst dps wd vd rz' o,
  stores_in_rows F addr -> window_of src sps ws vs -> window_of dst dps wd vd -> planes_disjoint dps ->
  whole_pixels (im_format src) (win_width ws) -> whole_pixels (im_format dst) (win_width wd) ->
  strides_positive (im_format src) sps -> strides_positive (im_format dst) dps -> small_window ws -> small_window wd ->
  words_aligned addr (im_format dst) dps ->
  whole_chroma (im_format dst) (im_width dst) (im_height dst) -> whole_chroma (im_format dst) (win_width wd) (win_height wd) ->
  resize F threads m rz vs vd rz' o ->
  forall c x y, x < im_width dst -> y < im_height dst -> ~ in_window wd x y ->
  component (apply_all m (fst o)) (im_format dst) dps c x y = component m (im_format dst) dps c x y.
Proof.
  intros F addr threads m rz src sps ws vs dst dps wd vd rz' o ST WS WD PJ PS PD SS SD MS MD AL WC WW R c x y Hx Hy NI.
  apply component_bytes. intros b i CB.
  apply (C83_outside_bytes_partial F addr threads m rz src sps ws vs dst dps wd vd rz' o ST WS WD PS PD SS SD MS MD AL R).
  exact (beside_window dst dps wd vd c x y b i WD PJ WC WW Hx Hy NI CB).
Qed.
Print Assumptions C83_outside_pixels_partial.

(** * What it depends on *)

(** The pixels of the source beside its window do not matter. *)
Theorem C83_depends_on_window_partial : forall F addr threads m m' (rz : resizer F) src sps ws vs dst dps wd vd rz' o,
  loads_from_rows F addr -> window_of src sps ws vs -> window_of dst dps wd vd ->
  whole_pixels (im_format src) (win_width ws) -> whole_pixels (im_format dst) (win_width wd) ->
  strides_positive (im_format src) sps -> strides_positive (im_format dst) dps -> small_window ws -> small_window wd ->
  words_aligned addr (im_format src) sps ->
  (forall b i, window_byte (im_format src) sps ws b i -> m b i = m' b i) ->
  (resize F threads m rz vs vd rz' o <-> resize F threads m' rz vs vd rz' o).
Proof.
  intros F addr threads m m' rz src sps ws vs dst dps wd vd rz' o LO WS WD PS PD SS SD MS MD AL SM.
  destruct (window_planes _ _ _ _ WS) as (scs & VS). destruct (window_planes _ _ _ _ WD) as (dcs & VD).
  destruct (valid_ready _ _ (proj1 WS)) as (_ & _ & LS & _). destruct (valid_ready _ _ (proj1 WD)) as (_ & _ & LD & _).
  apply (C45_depends_on_source_samples F addr threads m m' rz vs scs vd dcs rz' o LO (view_aligned _ _ _ _ _ _ WS VS LS AL)
    (view_resizable _ _ _ _ _ VS LS PS SS MS) (view_resizable _ _ _ _ _ VD LD PD SD MD)).
  intros b i SB. apply SM. exact (view_bytes _ _ _ _ _ _ _ WS VS SB).
Qed.
Print Assumptions C83_depends_on_window_partial.

(** * Pixels only *)

(** The resampler looks at the pixels of the source only: not at where its rows
    are in memory, and not at what lies between them. *)
Definition looks_at_pixels (F : fir) (addr : nat -> Z) : Prop :=
  forall st alg m m' sv sv' dv,
    ad_type sv = ad_type sv' -> ad_width sv = ad_width sv' -> ad_height sv = ad_height sv' ->
    (forall r, match @view_row unit addr sv r, @view_row unit addr sv' r with
               | Ok (Some row), Ok (Some row') =>
                   s_len row = s_len row' /\ forall k, k < s_len row -> m (s_buf row) (s_off row + k) = m' (s_buf row') (s_off row' + k)
               | Ok None, Ok None => True
               | _, _ => False
               end) ->
    fir_resize F st alg m sv dv = fir_resize F st alg m' sv' dv.

Lemma row_from_pixels : forall m m' f ps ps' w h p pl pl' r k, bytes_ok m -> bytes_ok m' ->
  (forall c x y, x < w -> y < h -> component m f ps c x y = component m' f ps' c x y) ->
  p < n_planes f -> nth_error ps p = Some pl -> nth_error ps' p = Some pl' -> r < plane_rows f p h -> k < row_bytes f p w ->
  m (s_buf (fst pl)) (s_off (fst pl) + r * snd pl + k) = m' (s_buf (fst pl')) (s_off (fst pl') + r * snd pl' + k).
Proof.
  intros m m' f ps ps' w h p pl pl' r k B B' EQ Hp N N' Hr Hk. pose proof (sample_bytes_pos f) as SB.
  assert (S12 : sample_bytes f = 1 \/ sample_bytes f = 2) by (destruct f; auto).
  pose proof (Nat.div_mod k (sample_bytes f) ltac:(lia)) as DK. pose proof (Nat.mod_upper_bound k (sample_bytes f) ltac:(lia)) as MK.
  set (c := k / sample_bytes f) in *. set (j := k mod sample_bytes f) in *. clearbody c j.
  assert (Hc : c < plane_cols f p w) by (unfold row_bytes in Hk; nia).
  pose proof (layout_unlayout f p r c w h Hp Hr Hc) as L. destruct (unlayout f p r c) as [[q x] y]. destruct L as (L & _ & Hx & Hy).
  pose proof (EQ q x y Hx Hy) as E. unfold component in E. rewrite L, N, N' in E. injection E as E. unfold sample_at, sample_addr in E.
  destruct S12 as [S1|S2].
  - rewrite S1 in *. cbn [Nat.eqb] in E. assert (j = 0) by lia. subst j k.
    replace (s_off (fst pl) + r * snd pl + (1 * c + 0)) with (s_off (fst pl) + (r * snd pl + c * 1)) by lia.
    replace (s_off (fst pl') + r * snd pl' + (1 * c + 0)) with (s_off (fst pl') + (r * snd pl' + c * 1)) by lia. exact E.
  - rewrite S2 in *. cbn [Nat.eqb] in E. subst k.
    replace (s_off (fst pl) + r * snd pl + (2 * c + j)) with (s_off (fst pl) + (r * snd pl + c * 2) + j) by lia.
    replace (s_off (fst pl') + r * snd pl' + (2 * c + j)) with (s_off (fst pl') + (r * snd pl' + c * 2) + j) by lia.
    set (a := s_off (fst pl) + _) in *. set (a' := s_off (fst pl') + _) in *.
    pose proof (B (s_buf (fst pl)) a). pose proof (B (s_buf (fst pl)) (S a)). pose proof (B' (s_buf (fst pl')) a'). pose proof (B' (s_buf (fst pl')) (S a')).
    destruct j as [|[|j]]; [rewrite !Nat.add_0_r; lia|rewrite !Nat.add_1_r; lia|lia].
Qed.

(** Sources of the same format and size that show the same picture give the same
    result, whatever their strides, padding and place in memory are. *)
Theorem C83_same_picture : forall F addr threads m m' (rz : resizer F) src sps src' sps' dst dps rz' o,
  looks_at_pixels F addr -> resizable src sps -> resizable src' sps' -> resizable dst dps ->
  words_aligned addr (im_format src) sps -> words_aligned addr (im_format src') sps' ->
  bytes_ok m -> bytes_ok m' ->
  im_format src = im_format src' -> im_width src = im_width src' -> im_height src = im_height src' ->
  (forall c x y, x < im_width src -> y < im_height src -> component m (im_format src) sps c x y = component m' (im_format src') sps' c x y) ->
  (resize F threads m rz src dst rz' o <-> resize F threads m' rz src' dst rz' o).
Proof.
  intros F addr threads m m' rz src sps src' sps' dst dps rz' o LP RS RS' RD AL AL' B B' EF EW EH EQ.
  destruct (pixel_format_eqb (im_format src) (im_format dst)) eqn:FD.
  2:{ unfold resize. rewrite <- EF, FD. reflexivity. }
  apply pixel_format_eqb_eq in FD. assert (FD' : im_format src' = im_format dst) by congruence.
  rewrite (resize_inv F threads m rz src sps dst dps rz' o FD (proj1 (proj1 RS)) (proj1 (proj1 RD))).
  rewrite (resize_inv F threads m' rz src' sps' dst dps rz' o FD' (proj1 (proj1 RS')) (proj1 (proj1 RD))).
  assert (EL : length sps = length sps') by (destruct RS as (_ & _ & L & _), RS' as (_ & _ & L' & _); congruence).
  assert (ES : states_for rz sps = states_for rz sps') by (unfold states_for; rewrite EL; reflexivity). rewrite ES.
  assert (E : runs_for rz m src sps dst dps = runs_for rz m' src' sps' dst dps); [|rewrite E; reflexivity].
  rewrite (runs_are F rz m src sps dst dps FD RS RD), (runs_are F rz m' src' sps' dst dps FD' RS' RD). rewrite <- EF.
  apply map_ext_in. intros p I. apply in_seq in I. f_equal. unfold plane_run.
  assert (Hp : p < n_planes (im_format src)) by lia.
  destruct (nth_error sps p) as [sp|] eqn:NS; [|apply nth_error_None in NS; destruct RS as (_ & _ & L & _); lia].
  destruct (nth_error sps' p) as [sp'|] eqn:NS'; [|apply nth_error_None in NS'; destruct RS' as (_ & _ & L & _); rewrite EF in *; lia].
  destruct (nth_error dps p) as [dp|]; [|reflexivity]. rewrite <- EF, <- EW, <- EH in *.
  apply LP; try reflexivity. intros r.
  pose proof (C45_view_is_plane unit addr src sps p sp RS AL Hp NS) as (_ & _ & _ & _ & R1). rewrite R1.
  pose proof (C45_view_is_plane unit addr src' sps' p sp' RS') as X. rewrite <- EF, <- EW, <- EH in X. destruct (X AL' Hp NS') as (_ & _ & _ & _ & R2). rewrite R2.
  destruct (Nat.ltb_spec r (plane_rows (im_format src) p (im_height src))) as [L|L]; [|exact Logic.I].
  cbn [s_len s_buf s_off]. split; [reflexivity|]. intros k Hk.
  exact (row_from_pixels m m' (im_format src) sps sps' _ _ p sp sp' r k B B' EQ Hp NS NS' L Hk).
Qed.
Print Assumptions C83_same_picture.

(** Resizing a window gives the same as resizing an image that shows what is in
    the window. *)
Theorem C83_window_is_picture_partial : forall F addr threads m m' (rz : resizer F) t ps win v src sps dst dps rz' o,
  looks_at_pixels F addr -> window_of t ps win v -> resizable src sps -> resizable dst dps ->
  whole_pixels (im_format t) (win_width win) -> strides_positive (im_format t) ps -> small_window win ->
  words_aligned addr (im_format t) ps -> words_aligned addr (im_format src) sps -> bytes_ok m -> bytes_ok m' ->
  im_format t = im_format src -> win_width win = im_width src -> win_height win = im_height src ->
  (forall c x y, x < im_width src -> y < im_height src ->
     component m (im_format t) ps c (win_x win + x) (win_y win + y) = component m' (im_format src) sps c x y) ->
  (resize F threads m rz v dst rz' o <-> resize F threads m' rz src dst rz' o).
Proof.
  intros F addr threads m m' rz t ps win v src sps dst dps rz' o LP WO RS RD WP SP SW AL AL' B B' EF EW EH EQ.
  destruct (window_planes _ _ _ _ WO) as (cps & VP). destruct (valid_ready _ _ (proj1 WO)) as (_ & _ & HL & _).
  apply (C83_same_picture F addr threads m m' rz v cps src sps dst dps rz' o LP (view_resizable _ _ _ _ _ VP HL WP SP SW) RS RD
    (view_aligned _ _ _ _ _ _ WO VP HL AL) AL' B B').
  - rewrite (vp_format _ _ _ _ _ VP). exact EF.
  - rewrite (vp_width _ _ _ _ _ VP). exact EW.
  - rewrite (vp_height _ _ _ _ _ VP). exact EH.
  - rewrite (vp_format _ _ _ _ _ VP), (vp_width _ _ _ _ _ VP), (vp_height _ _ _ _ _ VP), EW, EH. intros c x y Hx Hy.
    rewrite (vp_component _ _ _ _ _ VP). apply EQ; assumption.
Qed.
Print Assumptions C83_window_is_picture_partial.

(** * Spare rows *)

(** Every accepted image has a window of its own size, so that an image with
    spare rows (C45_refuted_spare_row) can be resized as such a window. *)
Theorem C83_full_window : forall t ps, valid_image t ps -> usize (im_width t) -> usize (im_height t) ->
  let win := Window 0 0 (im_width t) (im_height t) in
  exists v, window_of t ps win v /\
  forall m c x y, exists cps, im_planes v = Ok cps /\ component m (im_format v) cps c x y = component m (im_format t) ps c x y.
Proof.
  intros t ps V UW UH win. pose proof V as (HP & HW & BC). destruct (valid_ready _ _ V) as (_ & _ & HL & HF).
  assert (WO : window_of t ps win (cropped t win)).
  { split; [exact V|]. split.
    { rewrite crop_new_spec by assumption. rewrite BC. cbn [win_x win_y win_width win_height win Nat.add]. rewrite !Nat.leb_refl. reflexivity. }
    split; [|split; [destruct (im_format t); cbn; auto; try split; exists 0; reflexivity|right; reflexivity]].
    destruct (cropped_planes_spec t win ps HP HW HL) as [(cps & A & _)|((p & pl & Hp & N & C) & _)]; [eauto|exfalso].
    apply C. destruct (HF p pl Hp N) as [_ F]. unfold crop_fits, crop_off. cbn [win_x win_y win_height win].
    rewrite rows_0. assert (E : plane_cols (im_format t) p 0 = 0) by (unfold plane_cols; destruct (im_format t); try reflexivity; destruct (p =? 0); reflexivity).
    rewrite E. lia. }
  exists (cropped t win). split; [exact WO|]. intros m c x y. destruct (window_planes _ _ _ _ WO) as (cps & VP). exists cps.
  split; [apply VP|]. rewrite (vp_format _ _ _ _ _ VP), (vp_component _ _ _ _ _ VP). reflexivity.
Qed.
Print Assumptions C83_full_window.

(** * Example: nearest neighbor (PropResize.v), a window of an I420 image to a
    larger window *)

Lemma near_pixels : looks_at_pixels near addr0.
Proof.
  intros st alg m m' sv sv' dv ET EW EH H. cbn. do 3 f_equal. apply map_ext. intros r. unfold near_row. rewrite EW, EH.
  destruct (view_row addr0 dv r) as [[row|]| | |]; try reflexivity. specialize (H (r * ad_height sv' / ad_height dv)).
  destruct (view_row addr0 sv _) as [[a|]| | |], (view_row addr0 sv' _) as [[a'|]| | |]; try (destruct H; fail); try reflexivity.
  destruct H as [EL H]. do 2 f_equal. apply map_ext. intros k. rewrite EL.
  destruct (Nat.ltb_spec (k / pixel_size (ad_type dv) * ad_width sv' / ad_width dv * pixel_size (ad_type dv) + k mod pixel_size (ad_type dv)) (s_len a')) as [L|]; [|reflexivity].
  apply H. lia.
Qed.

Definition win_big : window := Window 2 2 8 4.

Example C83_example :
  let vs := cropped win_src win_s in let vd := cropped win_copy win_big in
  stores_in_rows near addr0 /\ loads_from_rows near addr0 /\ looks_at_pixels near addr0 /\
  window_of win_src win_src_planes win_s vs /\ window_of win_copy win_copy_planes win_big vd /\
  whole_pixels I420 4 /\ whole_pixels I420 8 /\ small_window win_s /\ small_window win_big /\
  strides_positive I420 win_src_planes /\ strides_positive I420 win_copy_planes /\ planes_disjoint win_copy_planes /\
  whole_chroma I420 10 8 /\ whole_chroma I420 8 4 /\ words_aligned addr0 I420 win_src_planes /\ words_aligned addr0 I420 win_copy_planes /\
  exists rz o, resize near false ex_mem (resizer_new (F := near) tt) vs vd rz o /\ snd o = Ok tt /\
    let m' := apply_all ex_mem (fst o) in
    map (fun x => component m' I420 win_copy_planes CY x 2) [2; 3; 4; 5] = map (fun x => component ex_mem I420 win_src_planes CY x 4) [2; 2; 3; 3] /\
    component m' I420 win_copy_planes CU 8 4 = component ex_mem I420 win_src_planes CU 4 4 /\
    component m' I420 win_copy_planes CU 8 4 <> component ex_mem I420 win_copy_planes CU 8 4 /\
    component m' I420 win_copy_planes CY 1 2 = component ex_mem I420 win_copy_planes CY 1 2.
Proof.
  intros vs vd. split; [exact near_stores|]. split; [exact near_loads|]. split; [exact near_pixels|].
  split; [apply C59_example|]. split.
  { split; [split; [reflexivity|split; [repeat constructor; cbn; unfold usize; cbn; lia|reflexivity]]|].
    split; [reflexivity|]. split; [eexists; reflexivity|]. split; [split; exists 1; reflexivity|left; reflexivity]. }
  split; [exact I|]. split; [exact I|]. split; [split; reflexivity|]. split; [split; reflexivity|].
  split; [intros p pl Hp N; cbn in Hp; destruct p as [|[|[|p]]]; [injection N as <-; cbn; lia..|lia]|].
  split; [intros p pl Hp N; cbn in Hp; destruct p as [|[|[|p]]]; [injection N as <-; cbn; lia..|lia]|].
  split; [apply C60_example|]. split; [apply C60_example|]. split; [split; [exists 4|exists 2]; reflexivity|]. split; [discriminate|]. split; [discriminate|].
  eexists _, _. split; [unfold resize; cbn; eexists; split; reflexivity|]. vm_compute. repeat split; try reflexivity; discriminate.
Qed.

(** The image of C45_refuted_spare_row has such a window. *)
Example C83_example_spare : exists v, window_of (ex_image RGB 4 2 ex_rgb [(Slice 0 0 45, 15)]) [(Slice 0 0 45, 15)] (Window 0 0 4 2) v.
Proof.
  destruct (C83_full_window (ex_image RGB 4 2 ex_rgb [(Slice 0 0 45, 15)]) [(Slice 0 0 45, 15)]) as (v & W & _); [| | |exists v; exact W].
  - split; [reflexivity|split; [repeat constructor; cbn; unfold usize; cbn; lia|reflexivity]].
  - unfold usize; cbn; lia.
  - unfold usize; cbn; lia.
Qed.
