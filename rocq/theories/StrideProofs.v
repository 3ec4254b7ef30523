(** The reader of 4:4:4 planar images with planes of different strides. *)

From Coq Require Import List ZArith Bool Arith Lia.
From Verif Require Import Base Types Planes ImageM F32 Vector Simd SpecVector SimdProofs SpecGeom GeomProofs GeomProofs2
  Color SpecColor SpecConvert SpecRun SpecStride Formats ReadProofs ColorProofs WriteProofs Visit VisitProofs Convert ConvertProofs.
Import ListNotations.

(** * Conversion as a function of what the reader returns *)

Definition rsrc (A : Type) : Type := vimpl -> nat -> nat -> res noerr A.

(** [T] looks at its source at the position it is asked for, nowhere else *)
Definition local {A B} (T : rsrc A -> rsrc B) : Prop :=
  exists F, forall S vi x y, T S vi x y = bind (S vi x y) (F vi x y).
Definition local_visit {A} (T : rsrc A -> visitor) : Prop :=
  exists G, forall S vi x y, T S vi x y = obind (S vi x y) (G vi x y).

Lemma local_then : forall A B C (T : rsrc A -> rsrc B) (U : rsrc B -> rsrc C), local T -> local U -> local (fun S => U (T S)).
Proof.
  intros A B C T U (F & HF) (G & HG). exists (fun vi x y a => bind (F vi x y a) (G vi x y)).
  intros S vi x y. rewrite HG, HF. destruct (S vi x y); reflexivity.
Qed.
Lemma local_visit_then : forall A B (T : rsrc A -> rsrc B) (U : rsrc B -> visitor), local T -> local_visit U -> local_visit (fun S => U (T S)).
Proof.
  intros A B T U (F & HF) (G & HG). exists (fun vi x y a => obind (F vi x y a) (G vi x y)).
  intros S vi x y. rewrite HG, HF. destruct (S vi x y); reflexivity.
Qed.

Lemma local_id : forall A, local (fun S : rsrc A => S).
Proof. intros A. exists (fun _ _ _ a => Ok a). intros S vi x y. destruct (S vi x y); reflexivity. Qed.
Lemma i444_to_rgb_local : forall yc, local (i444_to_rgb_read yc).
Proof. intros yc. eexists. intros S vi x y. unfold i444_to_rgb_read. reflexivity. Qed.
Lemma tp_convert_local : forall a b, local (tp_convert_read a b).
Proof. intros a b. eexists. intros S vi x y. unfold tp_convert_read. reflexivity. Qed.
Lemma rgb_to_i420_local : forall yc, local (rgb_to_i420_read yc).
Proof. intros yc. eexists. intros S vi x y. unfold rgb_to_i420_read. reflexivity. Qed.
Lemma rgb_to_i422_local : forall yc, local (rgb_to_i422_read yc).
Proof. intros yc. eexists. intros S vi x y. unfold rgb_to_i422_read. reflexivity. Qed.
Lemma rgb_to_i444_local : forall yc, local (rgb_to_i444_read yc).
Proof. intros yc. eexists. intros S vi x y. unfold rgb_to_i444_read. reflexivity. Qed.
Lemma i420_visit_local : forall p max py pu pv, local_visit (i420_visit p max py pu pv).
Proof. intros p max [? ?] [? ?] [? ?]. eexists. intros S vi x y. unfold i420_visit. reflexivity. Qed.
Lemma i422_visit_local : forall p max py pu pv, local_visit (i422_visit p max py pu pv).
Proof. intros p max [? ?] [? ?] [? ?]. eexists. intros S vi x y. unfold i422_visit. reflexivity. Qed.
Lemma i444_visit_local : forall p max py pu pv, local_visit (i444_visit p max py pu pv).
Proof. intros p max [? ?] [? ?] [? ?]. eexists. intros S vi x y. unfold i444_visit. reflexivity. Qed.
Lemma nv12_visit_local : forall p max py puv, local_visit (nv12_visit p max py puv).
Proof. intros p max [? ?] [? ?]. eexists. intros S vi x y. unfold nv12_visit. reflexivity. Qed.
Lemma yuyv_visit_local : forall p max pl, local_visit (yuyv_visit p max pl).
Proof. intros p max [? ?]. eexists. intros S vi x y. unfold yuyv_visit. reflexivity. Qed.
Lemma rgba_visit_local : forall r max pl, local_visit (rgba_visit r max pl).
Proof. intros r max [? ?]. eexists. intros S vi x y. unfold rgba_visit. reflexivity. Qed.
Lemma rgb_visit_local : forall r max pl, local_visit (rgb_visit r max pl).
Proof. intros r max [? ?]. eexists. intros S vi x y. unfold rgb_visit. reflexivity. Qed.

(** Outcomes that do not depend on the source, or walk over it *)
Definition walks_over {A} (lm : libm) (b : backend) (w h : nat) (K : rsrc A -> out convert_error) : Prop :=
  (exists r, r <> Ok tt /\ forall S, K S = ([], r)) \/
  exists T, local_visit T /\ forall S, K S = olift (visit lm b w h (T S)).

Lemma walks_then : forall A B lm b w h (T : rsrc A -> rsrc B) (K : rsrc B -> out convert_error), local T -> walks_over lm b w h K ->
  walks_over lm b w h (fun S => K (T S)).
Proof.
  intros A B lm b w h T K L [(r & NR & E)|(U & V & E)].
  - left. exists r. split; [exact NR|]. intros S. apply E.
  - right. exists (fun S => U (T S)). split; [apply local_visit_then; assumption|]. intros S. apply E.
Qed.

Lemma walks_obind : forall A B lm b w h (r : res convert_error A) (K : A -> rsrc B -> out convert_error),
  (forall a, r = Ok a -> walks_over lm b w h (K a)) -> walks_over lm b w h (fun S => obind r (fun a => K a S)).
Proof.
  intros A B lm b w h r K H. destruct r as [a|e|p|]; cbn [obind].
  - apply H. reflexivity.
  - left. exists (Err e). split; [discriminate|reflexivity].
  - left. exists (Panic p). split; [discriminate|reflexivity].
  - left. exists UB. split; [discriminate|reflexivity].
Qed.

Section Writers.
  Variables (lm : libm) (b : backend) (dst : image).
  Local Notation wo := (walks_over lm b (im_width dst) (im_height dst)).

  Ltac writer L := apply walks_obind; intros a _; repeat match goal with p : _ * _ |- _ => destruct p end;
    right; eexists; split; [apply L|]; reflexivity.
  Lemma i420_write_walks : forall p, wo (i420_write lm b p dst).
  Proof. intros p. unfold i420_write. writer i420_visit_local. Qed.
  Lemma i422_write_walks : forall p, wo (i422_write lm b p dst).
  Proof. intros p. unfold i422_write. writer i422_visit_local. Qed.
  Lemma i444_write_walks : forall p, wo (i444_write lm b p dst).
  Proof. intros p. unfold i444_write. writer i444_visit_local. Qed.
  Lemma nv12_write_walks : forall p, wo (nv12_write lm b p dst).
  Proof. intros p. unfold nv12_write. writer nv12_visit_local. Qed.
  Lemma yuyv_write_walks : forall p, wo (yuyv_write lm b p dst).
  Proof. intros p. unfold yuyv_write. writer yuyv_visit_local. Qed.
  Lemma rgba_write_walks : forall r, wo (rgba_write lm b r dst).
  Proof. intros r. unfold rgba_write. writer rgba_visit_local. Qed.
  Lemma rgb_write_walks : forall r, wo (rgb_write lm b r dst).
  Proof. intros r. unfold rgb_write. writer rgb_visit_local. Qed.

  Ltac bind_ok := match goal with |- walks_over _ _ _ _ (fun S => obind (bind ?r _) _) => destruct r as [yc| | |] end;
    cbn [bind obind]; [|left; eexists; split; [|reflexivity]; discriminate..].
  Lemma rgba_to_any_walks : wo (rgba_to_any lm b dst).
  Proof.
    unfold rgba_to_any, rgb_to_i420, rgb_to_i422, rgb_to_i444. destruct (im_format dst); try bind_ok;
      try (apply (walks_then _ _ lm b _ _ (rgb_to_i420_read yc)); [apply rgb_to_i420_local|]);
      try (apply (walks_then _ _ lm b _ _ (rgb_to_i422_read yc)); [apply rgb_to_i422_local|]);
      try (apply (walks_then _ _ lm b _ _ (rgb_to_i444_read yc)); [apply rgb_to_i444_local|]);
      first [apply i420_write_walks | apply i422_write_walks | apply i444_write_walks | apply nv12_write_walks
            | apply yuyv_write_walks | apply rgba_write_walks | apply rgb_write_walks].
  Qed.
End Writers.

(** The part of [convert] that follows the opening of a 4:4:4 planar source *)
Definition conv444 (lm : libm) (b : backend) (f : pixel_format) (c : color_info) (dst : image) (S : i444_src) : out convert_error :=
  if pixel_format_eqb f (im_format dst) && color_info_eqb c (im_color dst) then i444_write lm b (prim_of f) dst S
  else obind (i444_to_rgb c S) (fun reader =>
    if need_transfer_and_primaries_convert c (im_color dst) then rgba_to_any lm b dst (tp_convert_read c (im_color dst) reader)
    else rgba_to_any lm b dst reader).

Lemma conv444_walks : forall lm b f c dst, walks_over lm b (im_width dst) (im_height dst) (conv444 lm b f c dst).
Proof.
  intros lm b f c dst. unfold conv444. destruct (_ && _); [apply i444_write_walks|].
  unfold i444_to_rgb. destruct (yuv_info c) as [yc| | |]; cbn [bind obind]; [|left; eexists; split; [|reflexivity]; discriminate..].
  destruct (need_transfer_and_primaries_convert c (im_color dst)).
  - apply (walks_then _ _ lm b _ _ (fun S => tp_convert_read c (im_color dst) (i444_to_rgb_read yc S))).
    + apply local_then; [apply i444_to_rgb_local|apply tp_convert_local].
    + apply rgba_to_any_walks.
  - apply (walks_then _ _ lm b _ _ (i444_to_rgb_read yc)); [apply i444_to_rgb_local|apply rgba_to_any_walks].
Qed.

Lemma convert_444 : forall lm b m src dst, sampling_of (im_format src) = S444 ->
  convert lm b m src dst = obind (verify_input_windows src dst) (fun _ =>
    obind (i444_reader m (prim_of (im_format src)) src) (conv444 lm b (im_format src) (im_color src) dst)).
Proof.
  intros lm b m src dst K. unfold convert. destruct (verify_input_windows src dst); try reflexivity. cbn [obind].
  unfold conv444, convert_same_color_and_pixel_format, read_any_to_rgba.
  destruct (pixel_format_eqb (im_format src) (im_format dst)) eqn:E, (color_info_eqb (im_color src) (im_color dst)); cbn [andb];
    destruct (im_format src) eqn:EF; try discriminate K; cbn [prim_of sample_bytes Nat.eqb]; try reflexivity;
    destruct (i444_reader m _ src); reflexivity.
Qed.

(** * Two sources that return the same blocks *)

Lemma visit_same : forall A lm b w h (T : rsrc A -> visitor) S S', local_visit T ->
  (forall vi q X Y, vector_spec vi q -> in_image vi w h X Y -> S vi (2 * X) (2 * Y) = S' vi (2 * X) (2 * Y)) ->
  visit lm b w h (T S) = visit lm b w h (T S').
Proof.
  intros A lm b w h T S S' (G & HG) H. unfold visit.
  destruct ((w mod 2 =? 0) && (h mod 2 =? 0)) eqn:E; [|reflexivity]. apply andb_prop in E as [Ew Eh]. apply Nat.eqb_eq in Ew, Eh.
  unfold visit_impl. rewrite (positions_blocks lm b w h Ew Eh), !map_map. f_equal. apply map_ext_in.
  intros [[[vi q] X] Y] I. destruct (blocks_in_image lm b w h vi q X Y Ew Eh I) as [V IM]. rewrite !HG. f_equal. eapply H; eauto.
Qed.

Lemma run_all_ok_inv : forall E (l : list (out E)), snd (run_all l) = Ok tt -> forall o, In o l -> snd o = Ok tt.
Proof.
  induction l as [|[ev r] l IH]; intros H o I; [destruct I|]. cbn in H. destruct r as [[]| | |]; try discriminate H.
  destruct (run_all l) as [ev' r'] eqn:R. cbn in H, IH. destruct I as [<-|I]; [reflexivity|]. apply IH; assumption.
Qed.

(** A walk that ends normally has read every block. *)
Lemma visit_reads : forall A lm b w h (T : rsrc A -> visitor) S, local_visit T -> w mod 2 = 0 -> h mod 2 = 0 ->
  snd (visit lm b w h (T S)) = Ok tt ->
  forall vi q X Y, In (vi, q, X, Y) (blocks lm b w h) -> exists a, S vi (2 * X) (2 * Y) = Ok a.
Proof.
  intros A lm b w h T S (G & HG) Ew Eh H vi q X Y I. unfold visit in H. rewrite Ew, Eh in H. cbn [Nat.eqb andb] in H.
  unfold visit_impl in H. rewrite (positions_blocks lm b w h Ew Eh), map_map in H.
  assert (R : snd (T S vi (2 * X) (2 * Y)) = Ok tt).
  { apply (run_all_ok_inv _ _ H). apply in_map_iff. exists (vi, q, X, Y). auto. }
  rewrite HG in R. destruct (S vi (2 * X) (2 * Y)) as [a|[]|p|]; try discriminate R. eauto.
Qed.

(** * The reader of 4:4:4 planar images *)

Lemma read_bytes_same : forall m m' b b' off off' n, (forall k, k < n -> m b (off + k) = m' b' (off' + k)) ->
  read_bytes m b off n = read_bytes m' b' off' n.
Proof. intros m m' b b' off off' n H. unfold read_bytes. apply map_ext_in. intros k K. apply in_seq in K. apply H. lia. Qed.

Lemma loadv_same : forall vi p m m' s s' off off',
  (forall k, k < vi_len vi * psize p -> m (s_buf s) (s_off s + off + k) = m' (s_buf s') (s_off s' + off' + k)) ->
  loadv vi p m s off = loadv vi p m' s' off'.
Proof. intros vi p m m' s s' off off' H. unfold loadv. rewrite (read_bytes_same m m' _ _ _ _ _ H). reflexivity. Qed.

Lemma as_read_at : forall f ps m b luma pl r c, sampling_of f = S444 -> nth_error ps 0 = Some luma -> nth_error ps b = Some pl -> c < snd luma ->
  as_read_mem f ps m b (r * snd luma + c) = m (s_buf (fst pl)) (s_off (fst pl) + (read_row (snd luma) (snd pl) r + c)).
Proof.
  intros f ps m b luma pl r c S N0 N C. unfold as_read_mem. rewrite S, N0, N.
  rewrite Nat.div_add_l by lia. rewrite (Nat.div_small c) by exact C. rewrite Nat.add_0_r.
  rewrite (Nat.add_comm (r * snd luma) c), Nat.mod_add by lia. rewrite Nat.mod_small by exact C. reflexivity.
Qed.

Lemma read_row_even : forall a b Y, read_row a b (2 * Y) = 2 * Y * b.
Proof. intros. unfold read_row. rewrite Nat.even_mul. reflexivity. Qed.
Lemma read_row_odd : forall a b Y, read_row a b (2 * Y + 1) = (2 * Y + 1) * a.
Proof. intros. unfold read_row. rewrite Nat.even_add, Nat.even_mul. reflexivity. Qed.

Lemma i444_read_same_at : forall m f max (ps : list (slice * nat)) py pu pv w h,
  sampling_of f = S444 -> nth_error ps 0 = Some py -> nth_error ps 1 = Some pu -> nth_error ps 2 = Some pv ->
  pgeom (sample_bytes f) w h py -> pgeom (sample_bytes f) w h pu -> pgeom (sample_bytes f) w h pv ->
  forall vi q X Y, vector_spec vi q -> in_image vi w h X Y ->
  (2 * Y + 1) * snd py + 2 * X * sample_bytes f + 2 * vi_len vi * sample_bytes f <= s_len (fst pu) ->
  (2 * Y + 1) * snd py + 2 * X * sample_bytes f + 2 * vi_len vi * sample_bytes f <= s_len (fst pv) ->
  i444_read m (prim_of f) max py pu pv vi (2 * X) (2 * Y)
    = i444_read (as_read_mem f ps m) (prim_of f) max
        (Slice 0 0 (snd py * h), snd py) (Slice 1 0 (snd py * h), snd py) (Slice 2 0 (snd py * h), snd py) vi (2 * X) (2 * Y).
Proof.
  intros m f max ps (sy, st) (su, ut) (sv, vt) w h SM N0 N1 N2 GY GU GV vi q X Y V (HX & HY) U4 V4.
  pose proof (vs_len _ _ V) as HL. pose proof (psize_pos (prim_of f)) as HP.
  rewrite <- psize_of in *. set (p := prim_of f) in *.
  assert (GZ : forall b, pgeom (psize p) w h (Slice b 0 (st * h), st)).
  { intros b. destruct GY as (A & B & C). cbn [fst snd] in *. split; [exact A|split; [apply Nat.le_refl|]]. cbn. eapply usize_le; eassumption. }
  destruct (geom_rows _ _ _ _ _ (2 * Y + 1) (2 * X) (2 * vi_len vi) GY) as (Y1 & Y2 & Y3); [lia..|].
  destruct (geom_rows _ _ _ _ _ (2 * Y) (2 * X) (2 * vi_len vi) GU) as (U1 & U2 & U3); [lia..|].
  destruct (geom_rows _ _ _ _ _ (2 * Y) (2 * X) (2 * vi_len vi) GV) as (V1 & V2 & V3); [lia..|].
  destruct (geom_rows _ _ _ _ _ (2 * Y + 1) (2 * X) (2 * vi_len vi) (GZ 0)) as (Z1 & Z2 & Z3); [lia..|].
  cbn [fst snd] in *.
  pose proof (cols_bound (psize p) w (w * psize p) (2 * X) (2 * vi_len vi) (Nat.le_refl _) HX) as WB.
  assert (2 * Y + 1 <= (2 * Y + 1) * st) by (apply le_mul; nia).
  cbn [s_len s_buf s_off] in *. rewrite (Nat.mul_comm st h) in *.
  unfold i444_read.
  assert (NM : forall s' b r off k, nth_error ps b = Some s' -> off = r * st + 2 * X * psize p -> k < 2 * vi_len vi * psize p ->
    as_read_mem f ps m b (off + k) = m (s_buf (fst s')) (s_off (fst s') + (read_row st (snd s') r + 2 * X * psize p + k))).
  { intros s' b r off k N -> K. replace (r * st + 2 * X * psize p + k) with (r * st + (2 * X * psize p + k)) by lia.
    pose proof (as_read_at f ps m b (sy, st) s' r (2 * X * psize p + k) SM N0 N) as A. cbn [snd] in A.
    rewrite A by lia. do 2 f_equal. lia. }
  rsteps.
  assert (E : forall s stp b, nth_error ps b = Some (s, stp) ->
     loadv vi p m s (2 * Y * stp + 2 * X * psize p) = loadv vi p (as_read_mem f ps m) (Slice b 0 (h * st)) (2 * Y * st + 2 * X * psize p) /\
     loadv vi p m s (2 * Y * stp + 2 * X * psize p + vi_len vi * psize p)
       = loadv vi p (as_read_mem f ps m) (Slice b 0 (h * st)) (2 * Y * st + 2 * X * psize p + vi_len vi * psize p) /\
     loadv vi p m s ((2 * Y + 1) * st + 2 * X * psize p)
       = loadv vi p (as_read_mem f ps m) (Slice b 0 (h * st)) ((2 * Y + 1) * st + 2 * X * psize p) /\
     loadv vi p m s ((2 * Y + 1) * st + 2 * X * psize p + vi_len vi * psize p)
       = loadv vi p (as_read_mem f ps m) (Slice b 0 (h * st)) ((2 * Y + 1) * st + 2 * X * psize p + vi_len vi * psize p)).
  { intros s stp b N. repeat split; apply loadv_same; intros k K; cbn [s_buf s_off].
    - rewrite (NM _ _ (2 * Y) _ k N) by lia. cbn [fst snd]. rewrite read_row_even. f_equal. lia.
    - replace (0 + (2 * Y * st + 2 * X * psize p + vi_len vi * psize p) + k) with (2 * Y * st + 2 * X * psize p + (vi_len vi * psize p + k)) by lia.
      rewrite (NM _ _ (2 * Y) _ _ N) by lia. cbn [fst snd]. rewrite read_row_even. f_equal. lia.
    - rewrite (NM _ _ (2 * Y + 1) _ k N) by lia. cbn [fst snd]. rewrite read_row_odd. f_equal. lia.
    - replace (0 + ((2 * Y + 1) * st + 2 * X * psize p + vi_len vi * psize p) + k) with ((2 * Y + 1) * st + 2 * X * psize p + (vi_len vi * psize p + k)) by lia.
      rewrite (NM _ _ (2 * Y + 1) _ _ N) by lia. cbn [fst snd]. rewrite read_row_odd. f_equal. lia. }
  destruct (E _ _ _ N0) as (-> & -> & -> & ->). destruct (E _ _ _ N1) as (-> & -> & -> & ->). destruct (E _ _ _ N2) as (-> & -> & -> & ->).
  repeat (rewrite load_ok by (cbn [s_len]; lia); cbn [bind]). reflexivity.
Qed.

Lemma i444_read_same : forall m f max (ps : list (slice * nat)) py pu pv w h,
  sampling_of f = S444 -> nth_error ps 0 = Some py -> nth_error ps 1 = Some pu -> nth_error ps 2 = Some pv ->
  pgeom (sample_bytes f) w h py -> pgeom (sample_bytes f) w h pu -> pgeom (sample_bytes f) w h pv ->
  chroma_inside f ps w h ->
  forall vi q X Y, vector_spec vi q -> in_image vi w h X Y ->
  i444_read m (prim_of f) max py pu pv vi (2 * X) (2 * Y)
    = i444_read (as_read_mem f ps m) (prim_of f) max
        (Slice 0 0 (snd py * h), snd py) (Slice 1 0 (snd py * h), snd py) (Slice 2 0 (snd py * h), snd py) vi (2 * X) (2 * Y).
Proof.
  intros m f max ps py pu pv w h SM N0 N1 N2 GY GU GV CI vi q X Y V IM.
  pose proof (vs_len _ _ V) as HL. destruct IM as (HX & HY).
  pose proof (CI SM ltac:(lia) 1 _ _ (2 * Y + 1) (or_introl eq_refl) N0 N1 ltac:(lia)) as U4.
  pose proof (CI SM ltac:(lia) 2 _ _ (2 * Y + 1) (or_intror eq_refl) N0 N2 ltac:(lia)) as V4.
  rewrite read_row_odd in U4, V4.
  pose proof (cols_bound (sample_bytes f) w (w * sample_bytes f) (2 * X) (2 * vi_len vi) (Nat.le_refl _) HX) as WB.
  eapply i444_read_same_at; eauto; [split; assumption|lia..].
Qed.

(** A block that is read lies inside the slices. *)
Lemma bind_ok_inv : forall E A B (r : res E A) (k : A -> res E B) b, bind r k = Ok b -> exists a, r = Ok a /\ k a = Ok b.
Proof. intros E A B [a| | |] k b H; try discriminate H. eauto. Qed.
Lemma uadd_inv : forall E a b c, @uadd E a b = Ok c -> c = a + b.
Proof. intros E a b c H. unfold uadd in H. destruct (fits _); [congruence|discriminate]. Qed.
Lemma umul_inv : forall E a b c, @umul E a b = Ok c -> c = a * b.
Proof. intros E a b c H. unfold umul in H. destruct (fits _); [congruence|discriminate]. Qed.
Lemma offset_inv : forall r st x sz o, offset r st x sz = Ok o -> o = r * st + x * sz.
Proof.
  intros r st x sz o H. unfold offset in H. apply bind_ok_inv in H as (a & A & H). apply bind_ok_inv in H as (b & B & H).
  apply umul_inv in A, B. apply uadd_inv in H. congruence.
Qed.
Lemma load_inv : forall vi p m s off v, load vi p m s off = Ok v -> off + vi_len vi * psize p <= s_len s.
Proof.
  intros vi p m s off v H. unfold load in H. apply bind_ok_inv in H as (a & A & _). unfold raw_read in A.
  destruct (Nat.leb_spec off (s_len s)); [|discriminate]. destruct (Nat.leb_spec (off + vi_len vi * psize p) (s_len s)); [assumption|discriminate].
Qed.

Lemma i444_read_inv : forall m p max py pu pv vi x y blk, i444_read m p max py pu pv vi x y = Ok blk ->
  (y + 1) * snd py + x * psize p + 2 * vi_len vi * psize p <= s_len (fst pu) /\
  (y + 1) * snd py + x * psize p + 2 * vi_len vi * psize p <= s_len (fst pv).
Proof.
  intros m p max (sy, st) (su, ut) (sv, vt) vi x y blk H. unfold i444_read in H. cbn [fst snd].
  repeat (apply bind_ok_inv in H as (? & ? & H)).
  repeat match goal with
  | A : uadd _ _ = Ok _ |- _ => apply uadd_inv in A
  | A : offset _ _ _ _ = Ok _ |- _ => apply offset_inv in A
  | A : load _ _ _ _ _ = Ok _ |- _ => apply load_inv in A
  end. subst. split; lia.
Qed.

(** * Convert *)

(** Every pixel is in a block *)
Lemma block_with : forall lm b w h x y, w mod 2 = 0 -> h mod 2 = 0 -> x < w -> y < h ->
  exists vi q X Y, In (vi, q, X, Y) (blocks lm b w h) /\ 2 * X <= x < 2 * X + 2 * vi_len vi /\ 2 * Y <= y < 2 * Y + 2.
Proof.
  intros lm b w h x y Ew Eh Hx Hy.
  pose proof (visit_positions_once (impl_of lm b) (scalar_impl lm) w h x y (vlen_pos lm b) eq_refl Ew Eh Hx Hy) as C.
  rewrite (positions_blocks lm b w h Ew Eh) in C. unfold count in C.
  destruct (filter _ _) as [|[[i px] py] l] eqn:F; [discriminate C|].
  assert (I : In (i, px, py) ((i, px, py) :: l)) by (left; reflexivity). rewrite <- F in I. apply filter_In in I as [I P].
  apply in_map_iff in I as ([[[vi q] X] Y] & E & I). injection E as <- <- <-.
  exists vi, q, X, Y. split; [exact I|].
  rewrite !andb_true_iff in P. destruct P as (((P1 & P2) & P3) & P4).
  apply Nat.leb_le in P1, P3. apply Nat.ltb_lt in P2, P4. lia.
Qed.

(** Also for the other formats: nothing changes *)
Lemma as_read_other : forall src ps, im_planes src = Ok ps -> sampling_of (im_format src) <> S444 -> as_read src ps = src.
Proof.
  intros [f w h c pl] ps E N. unfold as_read, as_read_planes. cbn in *. subst pl.
  destruct (sampling_of f); try reflexivity. congruence.
Qed.

Lemma ready_444 : forall src (ps : list (slice * nat)), ready src ps -> sampling_of (im_format src) = S444 ->
  exists py pu pv : slice * nat, open_planes 3 src = Ok [py; pu; pv] /\
    nth_error ps 0 = Some py /\ nth_error ps 1 = Some pu /\ nth_error ps 2 = Some pv /\
    pgeom (sample_bytes (im_format src)) (im_width src) (im_height src) py /\
    pgeom (sample_bytes (im_format src)) (im_width src) (im_height src) pu /\
    pgeom (sample_bytes (im_format src)) (im_width src) (im_height src) pv.
Proof.
  intros src ps R S.
  assert (N3 : n_planes (im_format src) = 3) by (destruct (im_format src); try discriminate S; reflexivity).
  destruct (ready_3 src ps R N3) as (py & pu & pv & O & _ & N0 & N1 & N2). exists py, pu, pv.
  split; [exact O|split; [exact N0|split; [exact N1|split; [exact N2|]]]].
  pose proof (ready_geom src ps 0 py R ltac:(lia) N0) as G0. pose proof (ready_geom src ps 1 pu R ltac:(lia) N1) as G1.
  pose proof (ready_geom src ps 2 pv R ltac:(lia) N2) as G2.
  destruct (im_format src); try discriminate S; auto.
Qed.

Lemma as_read_ready : forall src (ps : list (slice * nat)), ready src ps -> ready (as_read src ps) (as_read_planes (im_format src) ps (im_height src)).
Proof.
  intros src ps R. destruct (sampling_of (im_format src)) eqn:S.
  1, 2, 4: unfold as_read, as_read_planes; rewrite S; destruct R as (E & W & F); (split; [reflexivity|split; assumption]).
  destruct (ready_444 src ps R S) as (py & pu & pv & O & N0 & N1 & N2 & G0 & G1 & G2).
  unfold as_read, as_read_planes. rewrite S. rewrite ?N0. cbn [map].
  assert (US : usize (snd py)).
  { destruct R as (_ & W & _). unfold wf_planes in W. rewrite Forall_forall in W. apply nth_error_In in N0. apply (W py N0). }
  destruct G0 as (A & B & C).
  split; [reflexivity|]. split.
  - repeat constructor; cbn [fst snd s_len]; try exact US; eapply usize_le; try eassumption.
  - split; cbn [as_read im_format im_width im_height].
    + destruct (im_format src); try discriminate S; cbn; lia.
    + intros p pl Hp N. assert (E : snd pl = snd py /\ s_len (fst pl) = snd py * im_height src).
      { destruct p as [|[|[|p]]]; cbn in N; try (injection N as <-; split; reflexivity). destruct p; discriminate N. }
      destruct E as [E1 E2]. unfold plane_fits, row_bytes. cbn [im_width im_height]. rewrite E1, E2.
      destruct (im_format src), p as [|[|[|p]]]; try discriminate S; cbn [n_planes plane_cols plane_rows] in *; try lia;
        (split; [exact A|apply Nat.le_refl]).
Qed.

Lemma as_read_strides : forall src (ps : list (slice * nat)), ready src ps -> strides_444 (im_format src) (as_read_planes (im_format src) ps (im_height src)).
Proof.
  intros src ps R S p q a b Hp Hq A B. destruct (ready_444 src ps R S) as (py & _ & _ & _ & N0 & _).
  unfold as_read_planes in A, B. rewrite S, N0 in A, B. cbn [map] in A, B.
  destruct p as [|[|[|p]]]; try lia; destruct q as [|[|[|q]]]; try lia; cbn in A, B; injection A as <-; injection B as <-; reflexivity.
Qed.

Theorem convert_as_read : forall lm b m src (sps : list (slice * nat)) dst, ready src sps -> chroma_inside (im_format src) sps (im_width src) (im_height src) ->
  convert lm b m src dst = convert lm b (as_read_mem (im_format src) sps m) (as_read src sps) dst.
Proof.
  intros lm b m src sps dst R CI. destruct (sampling_of (im_format src)) eqn:S.
  1, 2, 4: rewrite (as_read_other src sps (proj1 R)) by congruence; unfold as_read_mem; rewrite S; reflexivity.
  rewrite !convert_444 by exact S. cbn [as_read im_format im_color].
      change (verify_input_windows (as_read src sps) dst) with (verify_input_windows src dst).
      destruct (verify_input_windows src dst) eqn:VE; try reflexivity. cbn [obind].
      destruct (ready_444 src sps R S) as (py & pu & pv & O & N0 & N1 & N2 & G0 & G1 & G2).
      destruct (ready_444 _ _ (as_read_ready src sps R) S) as (py' & pu' & pv' & O' & N0' & N1' & N2' & _).
      unfold as_read_planes in N0', N1', N2'. rewrite S, N0 in N0', N1', N2'. cbn in N0', N1', N2'.
      injection N0' as <-. injection N1' as <-. injection N2' as <-.
      unfold i444_reader. rewrite O, O'. cbn [bind planes3 obind]. change (im_max (as_read src sps)) with (im_max src).
      assert (DIM : im_width src = im_width dst /\ im_height src = im_height dst).
      { unfold verify_input_windows in VE. destruct (Nat.eqb_spec (im_width src) (im_width dst)), (Nat.eqb_spec (im_height src) (im_height dst)); try discriminate VE. auto. }
      destruct DIM as [EW EH].
      destruct (conv444_walks lm b (im_format src) (im_color src) dst) as [(r & NR & E)|(T & LT & E)]; rewrite !E; [reflexivity|].
      f_equal. apply visit_same; [exact LT|]. rewrite <- EW, <- EH. intros vi q X Y V IM.
      eapply i444_read_same; eassumption.
Qed.

(** A conversion that ends normally has found all chroma inside. *)
Theorem convert_ok_inside : forall lm b m src (sps : list (slice * nat)) dst, ready src sps -> snd (convert lm b m src dst) = Ok tt ->
  chroma_inside (im_format src) sps (im_width src) (im_height src).
Proof.
  intros lm b m src sps dst R OK S W p luma pl y P N0 N Hy. rewrite (convert_444 lm b m src dst S) in OK.
  destruct (verify_input_windows src dst) eqn:VE; try discriminate OK. cbn [obind] in OK.
  destruct (ready_444 src sps R S) as (py & pu & pv & O & M0 & M1 & M2 & G0 & G1 & G2).
  unfold i444_reader in OK. rewrite O in OK. cbn [bind planes3 obind] in OK.
  assert (DIM : im_width src = im_width dst /\ im_height src = im_height dst /\ im_width src mod 2 = 0 /\ im_height src mod 2 = 0).
  { unfold verify_input_windows in VE. destruct (Nat.eqb_spec (im_width src) (im_width dst)), (Nat.eqb_spec (im_height src) (im_height dst)); try discriminate VE.
    cbn [negb orb] in VE. destruct (Nat.eqb_spec (im_width src mod 2) 1), (Nat.eqb_spec (im_height src mod 2) 1); try discriminate VE.
    pose proof (Nat.mod_upper_bound (im_width src) 2 ltac:(lia)). pose proof (Nat.mod_upper_bound (im_height src) 2 ltac:(lia)). lia. }
  destruct DIM as (EW & EH & Ew & Eh).
  destruct (conv444_walks lm b (im_format src) (im_color src) dst) as [(r & NR & E)|(T & LT & E)]; rewrite E in OK; [destruct (NR OK)|].
  rewrite <- EW, <- EH in OK.
  assert (GP : pgeom (sample_bytes (im_format src)) (im_width src) (im_height src) pl)
    by (destruct P as [-> | ->]; rewrite N in *; congruence).
  assert (EL : luma = py) by congruence. subst luma.
  pose proof (Nat.div_mod y 2 ltac:(lia)) as DY. pose proof (Nat.mod_upper_bound y 2 ltac:(lia)) as MY.
  destruct GP as (A & B & _).
  destruct (Nat.eq_dec (y mod 2) 0) as [E0|E0].
  - assert (EY : y = 2 * (y / 2)) by lia. rewrite EY, read_row_even, <- EY.
    pose proof (row_bound _ _ _ _ B Hy). lia.
  - assert (EY : y = 2 * (y / 2) + 1) by lia.
    destruct (block_with lm b (im_width src) (im_height src) (im_width src - 1) y Ew Eh ltac:(lia) Hy) as (vi & q & X & Y & I & IX & IY).
    destruct (blocks_in_image lm b _ _ vi q X Y Ew Eh I) as [V [WX WY]].
    assert (OK' : snd (visit lm b (im_width src) (im_height src) (T (i444_read m (prim_of (im_format src)) (im_max src) py pu pv))) = Ok tt).
    { unfold olift in OK. cbn [snd] in OK. destruct (snd (visit _ _ _ _ _)) as [[]|[]| |]; try discriminate OK. reflexivity. }
    destruct (visit_reads _ lm b _ _ T _ LT Ew Eh OK' vi q X Y I) as (blk & RB).
    apply i444_read_inv in RB. rewrite psize_of in RB.
    assert (YY : Y = y / 2) by lia. subst Y. rewrite EY, read_row_odd.
    replace (im_width src) with (2 * X + 2 * vi_len vi) by lia.
    destruct RB as [RB1 RB2]. destruct P as [-> | ->].
    + assert (pl = pu) by congruence. subst pl. lia.
    + assert (pl = pv) by congruence. subst pl. lia.
Qed.

(** * Conversions that end early *)

Lemma run_all_prefix : forall E (l l' : list (out E)), length l = length l' ->
  (forall i o o', nth_error l i = Some o -> nth_error l' i = Some o' -> o = o' \/ (fst o = [] /\ snd o <> Ok tt)) ->
  exists k, fst (run_all l') = fst (run_all l) ++ k.
Proof.
  induction l as [|o l IH]; intros [|o' l'] L H; try discriminate L; [exists []; reflexivity|].
  destruct (H 0 o o' eq_refl eq_refl) as [<-|[F N]].
  - destruct o as [ev [[]|e|p|]]; cbn [run_all]; try (exists []; rewrite app_nil_r; reflexivity).
    destruct (IH l' ltac:(cbn in L; lia) (fun i => H (Datatypes.S i))) as [k K]. cbn in *.
    destruct (run_all l), (run_all l'). cbn in *. exists k. rewrite K, app_assoc. reflexivity.
  - destruct o as [ev r]. cbn in F, N. subst ev. destruct r as [[]|e|p|]; [congruence|..]; eexists; reflexivity.
Qed.

Lemma visit_prefix : forall A lm b w h (T : rsrc A -> visitor) S S', local_visit T ->
  (forall vi q X Y a, vector_spec vi q -> in_image vi w h X Y -> S vi (2 * X) (2 * Y) = Ok a -> S' vi (2 * X) (2 * Y) = Ok a) ->
  exists k, fst (visit lm b w h (T S')) = fst (visit lm b w h (T S)) ++ k.
Proof.
  intros A lm b w h T S S' (G & HG) H. unfold visit.
  destruct ((w mod 2 =? 0) && (h mod 2 =? 0)) eqn:E; [|exists []; reflexivity]. apply andb_prop in E as [Ew Eh]. apply Nat.eqb_eq in Ew, Eh.
  unfold visit_impl. rewrite (positions_blocks lm b w h Ew Eh), !map_map. apply run_all_prefix; [rewrite !map_length; reflexivity|].
  intros i o o' N N'. rewrite nth_error_map in N, N'. destruct (nth_error (blocks lm b w h) i) as [[[[vi q] X] Y]|] eqn:NB; [|discriminate N].
  cbn in N, N'. injection N as <-. injection N' as <-. apply nth_error_In in NB.
  destruct (blocks_in_image lm b w h vi q X Y Ew Eh NB) as [V IM].
  rewrite !Nat.add_0_r in *. replace (X + X) with (2 * X) by lia. replace (Y + Y) with (2 * Y) by lia. rewrite !HG.
  specialize (H vi q X Y). destruct (S vi (2 * X) (2 * Y)) as [a|e|p|] eqn:R; cbn [obind]; [|right; split; [reflexivity|discriminate]..].
  left. rewrite (H a V IM eq_refl). reflexivity.
Qed.

Theorem convert_prefix : forall lm b m src (sps : list (slice * nat)) dst, ready src sps ->
  exists k, fst (convert lm b (as_read_mem (im_format src) sps m) (as_read src sps) dst) = fst (convert lm b m src dst) ++ k.
Proof.
  intros lm b m src sps dst R. destruct (sampling_of (im_format src)) eqn:S.
  1, 2, 4: rewrite (as_read_other src sps (proj1 R)) by congruence; exists []; rewrite app_nil_r; unfold as_read_mem; rewrite S; reflexivity.
  rewrite !convert_444 by exact S. cbn [as_read im_format im_color].
      change (verify_input_windows (as_read src sps) dst) with (verify_input_windows src dst).
      destruct (verify_input_windows src dst) eqn:VE; try (exists []; reflexivity). cbn [obind].
      destruct (ready_444 src sps R S) as (py & pu & pv & O & N0 & N1 & N2 & G0 & G1 & G2).
      destruct (ready_444 _ _ (as_read_ready src sps R) S) as (py' & pu' & pv' & O' & N0' & N1' & N2' & _).
      unfold as_read_planes in N0', N1', N2'. rewrite S, N0 in N0', N1', N2'. cbn in N0', N1', N2'.
      injection N0' as <-. injection N1' as <-. injection N2' as <-.
      unfold i444_reader. rewrite O, O'. cbn [bind planes3 obind]. change (im_max (as_read src sps)) with (im_max src).
      assert (DIM : im_width src = im_width dst /\ im_height src = im_height dst).
      { unfold verify_input_windows in VE. destruct (Nat.eqb_spec (im_width src) (im_width dst)), (Nat.eqb_spec (im_height src) (im_height dst)); try discriminate VE. auto. }
      destruct DIM as [EW EH].
      destruct (conv444_walks lm b (im_format src) (im_color src) dst) as [(r & NR & E)|(T & LT & E)]; rewrite !E; [exists []; reflexivity|].
      unfold olift. cbn [fst]. apply visit_prefix; [exact LT|]. rewrite <- EW, <- EH. intros vi q X Y blk V IM RD.
      pose proof (i444_read_inv _ _ _ _ _ _ _ _ _ _ RD) as [B1 B2]. rewrite psize_of in B1, B2.
      rewrite <- RD. symmetry. eapply i444_read_same_at; eassumption.
Qed.
