(** Windows of images: the bytes of a view, and of the pixels beside it. *)

From Coq Require Import List ZArith Bool Arith Lia.
From Verif Require Import Base Types Planes ImageM Crop F32 Vector Simd Formats Visit Convert Copy
  SpecGeom SpecCrop SpecVector SpecColor SpecConvert SpecRun SpecCopy SpecWindow
  GeomProofs GeomProofs2 GeomProofs3 CropProofs ReadProofs WriteProofs VisitProofs ConvertProofs CopyProofs.
Import ListNotations.

Lemma window_inside : forall t win v, crop_new t win = Ok v ->
  v = cropped t win /\ win_x win + win_width win <= im_width t /\ win_y win + win_height win <= im_height t.
Proof.
  intros t win v HN. unfold crop_new in HN. apply bind_ok in HN as (u & BC & HN).
  destruct (checked_add_cases (win_x win) (win_width win)) as [[Q1 U1]|[Q1 U1]]; rewrite Q1 in HN; [|discriminate].
  destruct (checked_add_cases (win_y win) (win_height win)) as [[Q2 U2]|[Q2 U2]]; rewrite Q2 in HN; [|discriminate].
  destruct (Nat.ltb_spec (im_width t) (win_x win + win_width win)); cbn [orb] in HN; [discriminate|].
  destruct (Nat.ltb_spec (im_height t) (win_y win + win_height win)); cbn [orb] in HN; [discriminate|].
  injection HN as <-. auto.
Qed.

Lemma rows_0 : forall f p, plane_rows f p 0 = 0.
Proof. intros f p. unfold plane_rows. destruct f; try reflexivity; destruct (p =? 0); reflexivity. Qed.

(** Everything about the planes of a view *)
Record view_planes (t : image) (ps : list (slice * nat)) (win : window) (v : image) (cps : list (slice * nat)) : Prop := {
  vp_valid : valid_image v cps;
  vp_format : im_format v = im_format t;
  vp_color : im_color v = im_color t;
  vp_width : im_width v = win_width win;
  vp_height : im_height v = win_height win;
  vp_x : win_x win + win_width win <= im_width t;
  vp_y : win_y win + win_height win <= im_height t;
  vp_length : length cps = n_planes (im_format t);
  vp_plane : forall p pl, p < n_planes (im_format t) -> nth_error ps p = Some pl ->
    crop_fits (im_format t) win p pl /\ nth_error cps p = Some (crop_slice (im_format t) win p pl);
  vp_component : forall m c i j, component m (im_format t) cps c i j = component m (im_format t) ps c (win_x win + i) (win_y win + j)
}.

Lemma window_planes : forall t ps win v, window_of t ps win v -> exists cps, view_planes t ps win v cps.
Proof.
  intros t ps win v (V & HN & (cps & EC) & HE & HB).
  destruct (window_inside _ _ _ HN) as (EV & HX & HY). pose proof V as (HP & HW & _).
  destruct (valid_ready _ _ V) as (_ & _ & HL & _). subst v.
  assert (HB' : sample_bytes (im_format t) = 1 \/ forall p, plane_rows (im_format t) p (win_y win) = 0).
  { destruct HB as [HB|HB]; [left; exact HB|right; intros p; rewrite HB; apply rows_0]. }
  destruct (cropped_planes_spec t win ps HP HW HL) as [(cps' & A & B & C)|((p & pl & A & B & C) & (q & Q))].
  2:{ rewrite EC in Q. discriminate Q. }
  rewrite EC in A. injection A as <-.
  assert (HF : forall p pl, p < n_planes (im_format t) -> nth_error ps p = Some pl -> crop_fits (im_format t) win p pl).
  { intros p pl Hp Hn. apply (C p pl Hp Hn). }
  destruct (crop_view (fun _ _ => 0%Z) t win _ ps HN HP HW HE HB' HF) as (cps' & A & _ & _ & _ & _ & BC & _).
  rewrite EC in A. injection A as <-.
  exists cps. constructor; try reflexivity; try assumption.
  - split; [exact EC|split; [|exact BC]].
    unfold wf_planes. rewrite Forall_forall. intros pl Hin. apply In_nth_error in Hin as [p Hp].
    assert (Hp' : p < n_planes (im_format t)) by (rewrite <- B; apply nth_error_Some; congruence).
    destruct (nth_error ps p) as [pl0|] eqn:En; [|apply nth_error_None in En; lia].
    destruct (C p pl0 Hp' En) as [CF CN]. rewrite CN in Hp. injection Hp as <-.
    unfold wf_planes in HW. rewrite Forall_forall in HW. apply nth_error_In in En.
    apply HW in En as [U3 U4]. unfold crop_slice. cbn [fst snd s_len]. split; auto.
    eapply usize_le; [|exact U3]. unfold crop_fits in CF. lia.
  - intros m c i j. apply component_shift; auto. intros p pl Hp Hn. apply C; auto.
Qed.

Lemma view_disjoint : forall t ps win v cps, view_planes t ps win v cps -> n_planes (im_format t) <= length ps ->
  planes_disjoint ps -> planes_disjoint cps.
Proof.
  intros t ps win v cps VP HL PD i j a b NE NA NB k.
  assert (Hi : i < n_planes (im_format t)) by (rewrite <- (vp_length _ _ _ _ _ VP); apply nth_error_Some; congruence).
  assert (Hj : j < n_planes (im_format t)) by (rewrite <- (vp_length _ _ _ _ _ VP); apply nth_error_Some; congruence).
  destruct (nth_error ps i) as [a0|] eqn:EA; [|apply nth_error_None in EA; lia].
  destruct (nth_error ps j) as [b0|] eqn:EB; [|apply nth_error_None in EB; lia].
  destruct (vp_plane _ _ _ _ _ VP i a0 Hi EA) as [FA QA]. destruct (vp_plane _ _ _ _ _ VP j b0 Hj EB) as [FB QB].
  rewrite QA in NA. injection NA as <-. rewrite QB in NB. injection NB as <-.
  intros (E & KA & KB). apply (PD i j a0 b0 NE EA EB k).
  unfold crop_fits in FA, FB. unfold crop_slice in *. cbn [fst s_buf s_off s_len] in *. split; [exact E|]. lia.
Qed.

Lemma view_strides : forall t ps win v cps, view_planes t ps win v cps -> n_planes (im_format t) <= length ps ->
  strides_444 (im_format t) ps -> strides_444 (im_format v) cps.
Proof.
  intros t ps win v cps VP HL ST. rewrite (vp_format _ _ _ _ _ VP). intros K p q a b Hp Hq NA NB.
  assert (N3 : n_planes (im_format t) = 3) by (destruct (im_format t); try discriminate K; reflexivity).
  destruct (nth_error ps p) as [a0|] eqn:EA; [|apply nth_error_None in EA; lia].
  destruct (nth_error ps q) as [b0|] eqn:EB; [|apply nth_error_None in EB; lia].
  destruct (vp_plane _ _ _ _ _ VP p a0 ltac:(lia) EA) as [_ QA]. destruct (vp_plane _ _ _ _ _ VP q b0 ltac:(lia) EB) as [_ QB].
  rewrite QA in NA. injection NA as <-. rewrite QB in NB. injection NB as <-.
  exact (ST K p q a0 b0 Hp Hq EA EB).
Qed.

(** The place of a component, seen from the window and from the image *)
Lemma layout_shift : forall f win c x y p r col, even_offsets f win -> layout f c x y = Some (p, r, col) ->
  layout f c (win_x win + x) (win_y win + y) = Some (p, plane_rows f p (win_y win) + r, plane_cols f p (win_x win) + col).
Proof.
  intros f win c x y p r col HE L.
  assert (Y2 : Nat.Even (win_y win) -> (win_y win + y) / 2 = win_y win / 2 + y / 2) by (apply even_div_add).
  assert (X2 : Nat.Even (win_x win) -> (win_x win + x) / 2 = win_x win / 2 + x / 2) by (apply even_div_add).
  assert (XX : Nat.Even (win_x win) -> 2 * (win_x win / 2) = win_x win).
  { intros [k ->]. rewrite (Nat.mul_comm 2 k), Nat.div_mul by lia. lia. }
  destruct f, c; cbn [layout even_offsets] in *; try discriminate L; injection L as <- <- <-; cbn [plane_rows plane_cols Nat.eqb];
  try match type of HE with
  | _ /\ _ => destruct HE as [HEx HEy]; rewrite ?(Y2 HEy), ?(X2 HEx); specialize (XX HEx)
  | Nat.Even _ => rewrite ?(X2 HE); specialize (XX HE)
  | True => idtac
  end;
  match goal with |- Some (_, ?a, ?b) = Some (_, ?c, ?d) => replace a with c by lia; replace b with d by lia; reflexivity end.
Qed.

(** The bytes of a view are bytes of the window. *)
Lemma view_bytes : forall t ps win v cps b i, window_of t ps win v -> view_planes t ps win v cps ->
  sample_byte (im_format v) cps (im_width v) (im_height v) b i -> window_byte (im_format t) ps win b i.
Proof.
  intros t ps win v cps b i (V & _ & _ & HE & HB) VP (p & pl & r & c & Hp & N & Hr & Hc & EB & HI).
  destruct (valid_ready _ _ V) as (_ & _ & HL & _).
  rewrite (vp_format _ _ _ _ _ VP), (vp_width _ _ _ _ _ VP), (vp_height _ _ _ _ _ VP) in *.
  pose proof (layout_unlayout _ p r c _ _ Hp Hr Hc) as L. destruct (unlayout (im_format t) p r c) as [[k x] y].
  destruct L as (L & _ & Hx & Hy).
  destruct (nth_error ps p) as [pl0|] eqn:EN; [|apply nth_error_None in EN; lia].
  destruct (vp_plane _ _ _ _ _ VP p pl0 Hp EN) as [_ Q]. rewrite Q in N. injection N as <-.
  exists k, (win_x win + x), (win_y win + y). split; [unfold in_window; lia|].
  exists p, (plane_rows (im_format t) p (win_y win) + r), (plane_cols (im_format t) p (win_x win) + c), pl0.
  split; [apply layout_shift; assumption|]. split; [exact EN|].
  unfold sample_addr, crop_slice, crop_off in *. cbn [fst snd s_buf s_off] in *. split; [exact EB|].
  assert (Z : sample_bytes (im_format t) = 1 \/ plane_rows (im_format t) p (win_y win) = 0).
  { destruct HB as [HB|HB]; [left; exact HB|right; rewrite HB; apply rows_0]. }
  destruct Z as [Z|Z]; rewrite Z in *; lia.
Qed.

Lemma even_mod : forall n, Nat.Even n -> n mod 2 = 0.
Proof. intros n [k ->]. rewrite Nat.mul_comm. apply Nat.mod_mul. lia. Qed.

Lemma layout_in_image : forall f c x y w h p r col, whole_chroma f w h -> x < w -> y < h ->
  layout f c x y = Some (p, r, col) -> p < n_planes f /\ r < plane_rows f p h /\ col < plane_cols f p w.
Proof.
  intros f c x y w h p r col WC Hx Hy L. unfold whole_chroma in WC.
  pose proof (even_mod w) as MW. pose proof (even_mod h) as MH.
  destruct f, c; cbn [layout sampling_of] in *; try discriminate L; injection L as <- <- <-; cbn [n_planes plane_rows plane_cols Nat.eqb];
    try (pose proof (div2_lt x w) as DX; pose proof (div2_lt y h) as DY; pose proof (Nat.div_mod w 2 ltac:(lia)); pose proof (Nat.div_mod h 2 ltac:(lia));
         try match type of WC with _ /\ _ => destruct WC as [WX WY]; specialize (DX (MW WX) Hx); specialize (DY (MH WY) Hy); specialize (MW WX); specialize (MH WY)
             | Nat.Even _ => specialize (DX (MW WC) Hx); specialize (MW WC) end); lia.
Qed.

Lemma even_whole : forall f w h, Nat.Even w -> Nat.Even h -> whole_chroma f w h.
Proof. intros f w h W H. unfold whole_chroma. destruct (sampling_of f); auto. Qed.

(** A component is shared by pixels of the window only, or by none of them. *)
Lemma layout_window : forall f win c x y c' x' y' q, even_offsets f win ->
  whole_chroma f (win_width win) (win_height win) ->
  layout f c x y = Some q -> layout f c' x' y' = Some q -> in_window win x' y' -> in_window win x y.
Proof.
  intros f win c x y c' x' y' [[p r] col] HE WW L L' [HX HY].
  apply unlayout_layout in L. apply unlayout_layout in L'. rewrite L' in L. injection L as Ec Ex Ey. subst c'.
  pose proof (Nat.div_mod (win_width win) 2 ltac:(lia)) as DW. pose proof (Nat.div_mod (win_height win) 2 ltac:(lia)) as DH.
  pose proof (Nat.div_mod x 2 ltac:(lia)) as Dx. pose proof (Nat.div_mod x' 2 ltac:(lia)) as Dx'.
  pose proof (Nat.div_mod y 2 ltac:(lia)) as Dy. pose proof (Nat.div_mod y' 2 ltac:(lia)) as Dy'.
  pose proof (Nat.mod_upper_bound x 2 ltac:(lia)). pose proof (Nat.mod_upper_bound x' 2 ltac:(lia)).
  pose proof (Nat.mod_upper_bound y 2 ltac:(lia)). pose proof (Nat.mod_upper_bound y' 2 ltac:(lia)).
  unfold in_window. unfold sub_x, sub_y in Ex, Ey.
  unfold whole_chroma in WW. destruct f; cbn [sampling_of even_offsets] in *;
    try match type of WW with _ /\ _ => destruct WW as [[wx WX] [wy WY]] | Nat.Even _ => destruct WW as [wx WX] | _ => idtac end;
    try match type of HE with _ /\ _ => destruct HE as [[kx HEx] [ky HEy]] | Nat.Even _ => destruct HE as [kx HEx] | _ => idtac end;
    destruct c; cbn iota in Ex, Ey; lia.
Qed.

(** Bytes of different samples are different. *)
Lemma sample_bytes_apart : forall f ps w h p r col pl p' r' col' pl' k k',
  planes_fit f ps w h -> planes_disjoint ps ->
  nth_error ps p = Some pl -> nth_error ps p' = Some pl' ->
  p < n_planes f -> r < plane_rows f p h -> col < plane_cols f p w ->
  p' < n_planes f -> r' < plane_rows f p' h -> col' < plane_cols f p' w ->
  k < sample_bytes f -> k' < sample_bytes f ->
  fst (sample_addr f pl r col) = fst (sample_addr f pl' r' col') ->
  snd (sample_addr f pl r col) + k = snd (sample_addr f pl' r' col') + k' -> p = p' /\ r = r' /\ col = col'.
Proof.
  intros f ps w h p r col pl p' r' col' pl' k k' [_ F] PD N N' Hp Hr Hc Hp' Hr' Hc' Hk Hk' EB EI.
  pose proof (F p pl Hp N) as G. pose proof (F p' pl' Hp' N') as G'.
  pose proof (sample_in_slice f pl w h p r col G Hr Hc) as S. pose proof (sample_in_slice f pl' w h p' r' col' G' Hr' Hc') as S'.
  destruct G as [G _]. destruct G' as [G' _]. unfold row_bytes in *. unfold sample_addr in *. cbn [fst snd] in *.
  destruct (Nat.eq_dec p p') as [<-|NE].
  - rewrite N in N'. injection N' as <-. split; [reflexivity|].
    assert (A : col * sample_bytes f + k < snd pl) by nia. assert (A' : col' * sample_bytes f + k' < snd pl) by nia.
    assert (r = r') by nia. subst r'. split; [reflexivity|]. nia.
  - exfalso. apply (PD p p' pl pl' NE N N' (s_off (fst pl) + (r * snd pl + col * sample_bytes f) + k)). split; [exact EB|]. lia.
Qed.

(** A pixel beside the window has no byte in common with the window. *)
Lemma beside_window : forall t ps win v c x y b i, window_of t ps win v -> planes_disjoint ps ->
  whole_chroma (im_format t) (im_width t) (im_height t) -> whole_chroma (im_format t) (win_width win) (win_height win) ->
  x < im_width t -> y < im_height t -> ~ in_window win x y ->
  component_byte (im_format t) ps c x y b i -> ~ window_byte (im_format t) ps win b i.
Proof.
  intros t ps win v c x y b i (V & HN & _ & HE & _) PD WC WW Hx Hy NI (p & r & col & pl & L & N & EB & HI)
    (c' & x' & y' & IW & p' & r' & col' & pl' & L' & N' & EB' & HI').
  destruct (valid_ready _ _ V) as (_ & _ & F). destruct (window_inside _ _ _ HN) as (_ & IX & IY).
  assert (Hx' : x' < im_width t) by (destruct IW; lia). assert (Hy' : y' < im_height t) by (destruct IW; lia).
  destruct (layout_in_image _ _ _ _ _ _ _ _ _ WC Hx Hy L) as (Hp & Hr & Hc).
  destruct (layout_in_image _ _ _ _ _ _ _ _ _ WC Hx' Hy' L') as (Hp' & Hr' & Hc').
  destruct (sample_bytes_apart _ _ _ _ p r col pl p' r' col' pl' (i - snd (sample_addr (im_format t) pl r col))
    (i - snd (sample_addr (im_format t) pl' r' col')) F PD N N' Hp Hr Hc Hp' Hr' Hc' ltac:(lia) ltac:(lia) ltac:(congruence) ltac:(lia)) as (-> & -> & ->).
  exact (NI (layout_window _ _ _ _ _ _ _ _ _ HE WW L L' IW)).
Qed.

(** A component only depends on its bytes. *)
Lemma component_bytes : forall m m' f ps c x y, (forall b i, component_byte f ps c x y b i -> m b i = m' b i) ->
  component m f ps c x y = component m' f ps c x y.
Proof.
  intros m m' f ps c x y H. unfold component. destruct (layout f c x y) as [[[p r] col]|] eqn:L; [|reflexivity].
  destruct (nth_error ps p) as [pl|] eqn:N; [|reflexivity]. f_equal. unfold sample_at.
  assert (A : forall k, k < sample_bytes f -> m (fst (sample_addr f pl r col)) (snd (sample_addr f pl r col) + k)
    = m' (fst (sample_addr f pl r col)) (snd (sample_addr f pl r col) + k)).
  { intros k Hk. apply H. exists p, r, col, pl. split; [exact L|split; [exact N|split; [reflexivity|lia]]]. }
  destruct (sample_addr f pl r col) as [b i]. cbn [fst snd] in A. pose proof (sample_bytes_pos f) as P.
  pose proof (A 0 P) as A0. rewrite Nat.add_0_r in A0. rewrite A0.
  destruct (Nat.eqb_spec (sample_bytes f) 2) as [E|E]; [|reflexivity].
  pose proof (A 1 ltac:(lia)) as A1. rewrite Nat.add_1_r in A1. rewrite A1. reflexivity.
Qed.
