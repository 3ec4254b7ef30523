(** Conversion depends on the samples of the source only, and therefore not on
    the moment at which they are read. *)

From Coq Require Import Arith Bool List ZArith Lia.
From Verif Require Import Base Types Planes ImageM F32 Vector Simd Formats Visit Convert MultiThread
  SpecGeom SpecVector SpecColor SpecConvert SpecRun SpecThreads SpecExec GeomProofs GeomProofs2 GeomProofs3
  SimdProofs ColorProofs ReadProofs WriteProofs VisitProofs ConvertProofs SplitProofs BandProofs.
Import ListNotations.

(** * Dependence on the source *)

Lemma component_same : forall m m' f ps w h c x y, w mod 2 = 0 -> h mod 2 = 0 -> x < w -> y < h ->
  same_samples f ps w h m m' -> component m f ps c x y = component m' f ps c x y.
Proof.
  intros m m' f ps w h c x y Ew Eh Hx Hy S. unfold component.
  destruct (layout f c x y) as [[[p r] col]|] eqn:L; [|reflexivity].
  destruct (layout_in_plane _ _ _ _ _ _ _ _ _ Ew Eh Hx Hy L) as (Hp & Hr & Hc).
  destruct (nth_error ps p) as [pl|] eqn:N; [|reflexivity]. f_equal.
  assert (B : forall j, j < sample_bytes f -> m (s_buf (fst pl)) (s_off (fst pl) + (r * snd pl + col * sample_bytes f) + j)
                = m' (s_buf (fst pl)) (s_off (fst pl) + (r * snd pl + col * sample_bytes f) + j)).
  { intros j Hj. apply S. exists p, pl, r, col. repeat split; try assumption; lia. }
  unfold sample_at, sample_addr. destruct (Nat.eqb_spec (sample_bytes f) 2) as [E|E].
  - pose proof (B 0 ltac:(lia)) as B0. pose proof (B 1 ltac:(lia)) as B1. rewrite Nat.add_0_r in B0. rewrite Nat.add_1_r in B1.
    rewrite B0, B1. reflexivity.
  - pose proof (B 0 (sample_bytes_pos f)) as B0. rewrite Nat.add_0_r in B0. exact B0.
Qed.

Lemma norm_same : forall m m' f ps w h c x y, w mod 2 = 0 -> h mod 2 = 0 -> x < w -> y < h ->
  same_samples f ps w h m m' -> norm m f ps c x y = norm m' f ps c x y.
Proof. intros m m' f ps w h c x y Ew Eh Hx Hy S. unfold norm. rewrite (component_same m m' f ps w h c x y Ew Eh Hx Hy S). reflexivity. Qed.

Lemma source_pixel_same : forall L m m' f color ps w h x y, w mod 2 = 0 -> h mod 2 = 0 -> x < w -> y < h ->
  same_samples f ps w h m m' -> source_pixel L m f color ps x y = source_pixel L m' f color ps x y.
Proof. intros. unfold source_pixel. rewrite !(norm_same m m' f ps w h) by assumption. reflexivity. Qed.

Lemma code_target_same : forall L n f color pix pix' w h X c x y, w mod 2 = 0 -> h mod 2 = 0 -> x < w -> y < h ->
  X <= x / 2 < X + n -> 2 * X + 2 * n <= w ->
  (forall x y, x < w -> y < h -> pix x y = pix' x y) ->
  code_target L n f color pix X c x y = code_target L n f color pix' X c x y.
Proof.
  intros L n f color pix pix' w h X c x y Ew Eh Hx Hy HX HN H.
  pose proof (Nat.div_mod x 2 ltac:(lia)) as Dx. pose proof (Nat.mod_upper_bound x 2 ltac:(lia)) as Mx.
  pose proof (Nat.div_mod y 2 ltac:(lia)) as Dy. pose proof (Nat.mod_upper_bound y 2 ltac:(lia)) as My.
  pose proof (Nat.div_mod w 2 ltac:(lia)) as Dw. rewrite Ew in Dw.
  pose proof (Nat.div_mod h 2 ltac:(lia)) as Dh. rewrite Eh in Dh.
  assert (H00 := H (2 * (x / 2)) (2 * (y / 2)) ltac:(lia) ltac:(lia)).
  assert (H01 := H (2 * (x / 2)) (2 * (y / 2) + 1) ltac:(lia) ltac:(lia)).
  assert (H10 := H (2 * (x / 2) + 1) (2 * (y / 2)) ltac:(lia) ltac:(lia)).
  assert (H11 := H (2 * (x / 2) + 1) (2 * (y / 2) + 1) ltac:(lia) ltac:(lia)).
  assert (HA := H (X + x / 2) (2 * (y / 2)) ltac:(lia) ltac:(lia)).
  assert (HB := H (X + n + x / 2) (2 * (y / 2)) ltac:(lia) ltac:(lia)).
  assert (HC := H (2 * (x / 2)) y ltac:(lia) ltac:(lia)).
  assert (HD := H (2 * (x / 2) + 1) y ltac:(lia) ltac:(lia)).
  assert (HE := H x y Hx Hy). clear H.
  unfold code_target, target, chroma420, yuv_px.
  destruct (sampling_of f), color as [t p|i]; try reflexivity; destruct c; rewrite ?H00, ?H01, ?H10, ?H11, ?HA, ?HB, ?HC, ?HD, ?HE; reflexivity.
Qed.

Lemma code_value_same : forall m m' src sps dst dps vi X Y c x y, convertible src sps dst dps ->
  in_image vi (im_width dst) (im_height dst) X Y ->
  x < im_width dst -> y < im_height dst -> X <= x / 2 < X + vi_len vi ->
  same_samples (im_format src) sps (im_width src) (im_height src) m m' ->
  code_value m src sps dst vi X c x y = code_value m' src sps dst vi X c x y.
Proof.
  intros m m' src sps dst dps vi X Y c x y C [I1 I2] Hx Hy HX S. unfold code_value.
  pose proof (cv_even_w _ _ _ _ C) as Ew. pose proof (cv_even_h _ _ _ _ C) as Eh.
  rewrite (cv_width _ _ _ _ C), (cv_height _ _ _ _ C) in S.
  destruct (same_image_kind src dst) eqn:SK.
  - unfold same_image_kind in SK. apply andb_true_iff in SK as [SF _]. apply pixel_format_eqb_eq in SF. rewrite SF in S.
    exact (norm_same m m' _ sps _ _ c x y Ew Eh Hx Hy S).
  - apply (code_target_same _ _ _ _ _ _ (im_width dst) (im_height dst)); try assumption. intros x' y' Hx' Hy'. rewrite (source_pixel_same _ m m' _ _ _ _ _ _ _ Ew Eh Hx' Hy' S). reflexivity.
Qed.

(** A store is determined by the values *)
Lemma list_eq_nth : forall (l l' : list Z), length l = length l' -> (forall k, k < length l -> nth k l 0%Z = nth k l' 0%Z) -> l = l'.
Proof.
  induction l as [|a l IH]; intros [|a' l'] L H; cbn in L; try discriminate; [reflexivity|]. f_equal.
  - apply (H 0). cbn. lia.
  - apply IH; [lia|]. intros k Hk. apply (H (S k)). cbn. lia.
Qed.

Lemma row_ev_unique : forall size pls val val' p r c n e e', 0 < size ->
  row_ev size pls val (p, r, c, n) e -> row_ev size pls val' (p, r, c, n) e' ->
  (forall k, k < n -> val p r (c + k) = val' p r (c + k)) -> e = e'.
Proof.
  intros size pls val val' p r c n e e' HS (pl & N & B & O & _ & L & V) (pl' & N' & B' & O' & _ & L' & V') H.
  rewrite N in N'. injection N' as <-. destruct e as [b o bs], e' as [b' o' bs']. cbn in *. f_equal; try congruence.
  apply list_eq_nth; [congruence|]. intros k Hk. rewrite L in Hk.
  pose proof (Nat.div_mod k size ltac:(lia)) as D. pose proof (Nat.mod_upper_bound k size ltac:(lia)) as M.
  assert (Hd : k / size < n) by (apply Nat.div_lt_upper_bound; lia).
  rewrite D, (Nat.mul_comm size). rewrite V, V' by assumption. rewrite (H _ Hd). reflexivity.
Qed.

(** The components in the rows of a block belong to pixels of the block *)
Lemma block_rows_pixels : forall f L X Y w h p r c n k kk x y, 0 < L ->
  In (p, r, c, n) (block_rows f L X Y) -> k < n -> unlayout f p r (c + k) = (kk, x, y) ->
  2 * X + 2 * L <= w -> 2 * Y + 2 <= h -> x < w /\ y < h /\ X <= x / 2 < X + L.
Proof.
  intros f L X Y w h p r c n k kk x y HL I Hk U HW HH.
  assert (DV : forall a n q, 0 < n -> n * q <= a -> a < n * (q + L) -> q <= a / n < q + L).
  { intros a n' q Hn A B. split; [apply Nat.div_le_lower_bound; lia|apply Nat.div_lt_upper_bound; lia]. }
  assert (D2 : forall a, 2 * (a / 2) <= a < 2 * (a / 2) + 2)
    by (intros a; pose proof (Nat.div_mod a 2 ltac:(lia)); pose proof (Nat.mod_upper_bound a 2 ltac:(lia)); lia).
  assert (D3 : forall a, 3 * (a / 3) <= a < 3 * (a / 3) + 3)
    by (intros a; pose proof (Nat.div_mod a 3 ltac:(lia)); pose proof (Nat.mod_upper_bound a 3 ltac:(lia)); lia).
  assert (D4 : forall a, 4 * (a / 4) <= a < 4 * (a / 4) + 4)
    by (intros a; pose proof (Nat.div_mod a 4 ltac:(lia)); pose proof (Nat.mod_upper_bound a 4 ltac:(lia)); lia).
  pose proof (D2 x) as Dx. pose proof (D2 (c + k)). pose proof (D3 (c + k)). pose proof (D4 (c + k)).
  destruct f; cbn [block_rows In] in I;
    repeat match type of I with _ \/ _ => destruct I as [I|I] end; try (exfalso; exact I); injection I as <- <- <- <-;
    cbn [unlayout] in U;
    repeat match type of U with context [if ?b then _ else _] => destruct b end;
    injection U as <- <- <-; lia.
Qed.

Lemma Forall2_unique : forall A B (R R' : A -> B -> Prop) l k k',
  (forall a b b', In a l -> R a b -> R' a b' -> b = b') -> Forall2 R l k -> Forall2 R' l k' -> k = k'.
Proof.
  intros A B R R' l k k' H F. revert k'. induction F as [|a b l k H1 F IH]; intros k' F'.
  - inversion F'. reflexivity.
  - inversion F' as [|a' b' l' k2 H2 F2]; subst. f_equal.
    + apply (H a b b'); [left; reflexivity|exact H1|exact H2].
    + apply IH; [|exact F2]. intros; eapply H; eauto. right; assumption.
Qed.

Theorem convert_same : forall lm b m m' src sps dst dps, convertible src sps dst dps ->
  same_samples (im_format src) sps (im_width src) (im_height src) m m' ->
  convert lm b m src dst = convert lm b m' src dst.
Proof.
  intros lm b m m' src sps dst dps C S.
  destruct (convert_runs lm b m src sps dst dps C) as (evss & E & F).
  destruct (convert_runs lm b m' src sps dst dps C) as (evss' & E' & F'). rewrite E, E'.
  pose proof (cv_even_w _ _ _ _ C) as Ew. pose proof (cv_even_h _ _ _ _ C) as Eh.
  enough (evss = evss') by congruence.
  eapply Forall2_unique; [|exact F|exact F'].
  intros [[[vi q] X] Y] evs evs' I B1 B2. destruct (blocks_in_image lm b _ _ vi q X Y Ew Eh I) as [V IM]. cbn [block_evs] in B1, B2.
  eapply Forall2_unique; [|exact B1|exact B2].
  intros [[[p r] c] n] e e' IR R1 R2. eapply row_ev_unique; [apply sample_bytes_pos|exact R1|exact R2|].
  intros k Hk. unfold stored. destruct (unlayout (im_format dst) p r (c + k)) as [[kk x] y] eqn:U. f_equal.
  destruct (block_rows_pixels _ (vi_len vi) X Y (im_width dst) (im_height dst) p r c n k kk x y (vs_len _ _ V) IR Hk U) as (Hx & Hy & HX); [apply IM|apply IM|].
  eapply code_value_same; eauto.
Qed.

(** The whole outcome, also when it is an error *)
Theorem convert_depends : forall lm b m m' src dst,
  (forall ps, im_planes src = Ok ps -> wf_planes ps /\ strides_444 (im_format src) ps) ->
  (forall ps, im_planes dst = Ok ps -> wf_planes ps) ->
  (forall ps, im_planes src = Ok ps -> same_samples (im_format src) ps (im_width src) (im_height src) m m') ->
  convert lm b m src dst = convert lm b m' src dst.
Proof.
  intros lm b m m' src dst WS WD S.
  destruct (convert_fails lm b m src dst (fun ps E => proj1 (WS ps E)) WD) as (F & C).
  destruct (convert_fails lm b m' src dst (fun ps E => proj1 (WS ps E)) WD) as (F' & _).
  assert (D : convert_result src dst = Ok tt \/ convert_result src dst <> Ok tt)
    by (destruct (convert_result src dst) as [[]| | |]; auto; right; discriminate).
  destruct D as [D|D].
  - destruct (C D) as (_ & sps & dps & R & R2 & K).
    assert (CV : convertible src sps dst dps) by (apply K, WS, R).
    eapply convert_same; [exact CV|]. apply S, R.
  - rewrite (F D), (F' D). reflexivity.
Qed.

(** * Execution with loads and stores taking turns *)

Lemma set_nth_length : forall A (l : list A) j a, length (set_nth l j a) = length l.
Proof. induction l as [|x l IH]; intros [|j] a; cbn; auto. Qed.
Lemma set_nth_same : forall A (l : list A) j a x, nth_error l j = Some x -> nth_error (set_nth l j a) j = Some a.
Proof. induction l as [|y l IH]; intros [|j] a x H; cbn in *; try discriminate; [reflexivity|eapply IH; eauto]. Qed.
Lemma set_nth_other : forall A (l : list A) j a k, k <> j -> nth_error (set_nth l j a) k = nth_error l k.
Proof. induction l as [|y l IH]; intros [|j] a [|k] H; cbn; try congruence; apply IH; lia. Qed.

(** What is left of each thread *)
Definition left_over (ts : list (list wev)) (ks : list nat) : list (list wev) :=
  map (fun p => skipn (snd p) (fst p)) (combine ts ks).

Lemma nth_error_combine_some : forall A B (la : list A) (lb : list B) j a c, nth_error la j = Some a -> nth_error lb j = Some c ->
  nth_error (combine la lb) j = Some (a, c).
Proof.
  induction la as [|x la IH]; intros [|y lb] [|j] a c H1 H2; cbn in *; try discriminate.
  - congruence.
  - apply IH; assumption.
Qed.

Lemma skipn_nth : forall A (l : list A) k e, nth_error l k = Some e -> skipn k l = e :: skipn (S k) l.
Proof. induction l as [|x l IH]; intros [|k] e H; cbn in *; try discriminate; [congruence|apply IH; exact H]. Qed.

Lemma nth_error_ext : forall A (l l' : list A), (forall k, nth_error l k = nth_error l' k) -> l = l'.
Proof.
  induction l as [|a l IH]; intros [|a' l'] H.
  - reflexivity.
  - specialize (H 0). discriminate H.
  - specialize (H 0). discriminate H.
  - pose proof (H 0) as H0. cbn in H0. injection H0 as ->. f_equal. apply IH. intros k. apply (H (S k)).
Qed.

Lemma split_nth : forall A (l : list A) j a, nth_error l j = Some a -> exists before after, l = before ++ a :: after /\ length before = j.
Proof.
  intros A l j a H. apply nth_error_split in H as (x & y & -> & E). eauto.
Qed.

(** Threads whose stores never change what any thread reads: a run on the live
    memory is an interleaving of the stores they perform on the initial memory. *)
Lemma live_interleaving : forall (cs : list (mem -> list wev)) (Inv : mem -> Prop) ts,
  length ts = length cs ->
  (forall j c t m, nth_error cs j = Some c -> nth_error ts j = Some t -> Inv m -> c m = t) ->
  (forall m e t, Inv m -> In t ts -> In e t -> Inv (apply_wev m e)) ->
  forall m ks evs ks', live cs m ks evs ks' -> Inv m -> length ks = length cs ->
  exists ts', interleaving ts' evs /\ Inv (apply_all m evs) /\ length ks' = length cs /\ length ts' = length cs /\
    forall j k k' t, nth_error ks j = Some k -> nth_error ks' j = Some k' -> nth_error ts j = Some t ->
      exists t', nth_error ts' j = Some t' /\ skipn k t = t' ++ skipn k' t.
Proof.
  intros cs Inv ts LT RD ST m ks evs ks' LV. induction LV as [m ks|m ks j c k e evs ks' NC NK NE LV IH]; intros IM LK.
  - exists (map (fun _ => []) ts). split; [apply il_done, Forall_forall; intros t I; apply in_map_iff in I as (? & <- & _); reflexivity|].
    split; [exact IM|]. split; [exact LK|]. split; [rewrite map_length; exact LT|].
    intros j k k' t H1 H2 H3. rewrite H1 in H2. injection H2 as <-. exists []. split; [|reflexivity].
    erewrite map_nth_error by exact H3. reflexivity.
  - destruct (some_nth _ ts j) as (t & NT). { rewrite LT. apply nth_error_Some. congruence. }
    rewrite (RD j c t m NC NT IM) in NE.
    assert (IM' : Inv (apply_wev m e)) by (eapply ST; eauto using nth_error_In).
    destruct (IH IM') as (ts' & IL & IF & L1 & L2 & H); [rewrite set_nth_length; exact LK|].
    destruct (some_nth _ ts' j) as (tj & NTJ). { rewrite L2. apply nth_error_Some. congruence. }
    destruct (split_nth _ _ _ _ NTJ) as (before & after & -> & LB).
    exists (before ++ (e :: tj) :: after). split; [apply il_step; exact IL|]. split; [exact IF|]. split; [exact L1|].
    split; [rewrite app_length in *; cbn in *; exact L2|].
    intros i ki ki' ti H1 H2 H3. destruct (Nat.eq_dec i j) as [->|NI].
    + rewrite NK in H1. injection H1 as <-. rewrite NT in H3. injection H3 as <-.
      destruct (H j (S k) ki' t (set_nth_same _ _ _ _ _ NK) H2 NT) as (t' & N' & EQ).
      rewrite <- LB in N' |- *. rewrite nth_error_at in N' |- *. injection N' as <-.
      eexists. split; [reflexivity|]. rewrite (skipn_nth _ _ _ _ NE), EQ. reflexivity.
    + destruct (H i ki ki' ti) as (t' & N' & EQ); [rewrite set_nth_other by exact NI; exact H1|exact H2|exact H3|].
      exists t'. split; [|exact EQ]. rewrite (nth_error_mid' _ _ _ tj) by lia. exact N'.
Qed.

Lemma live_finished : forall (cs : list (mem -> list wev)) (Inv : mem -> Prop) ts m evs ks',
  length ts = length cs ->
  (forall j c t m, nth_error cs j = Some c -> nth_error ts j = Some t -> Inv m -> c m = t) ->
  (forall m e t, Inv m -> In t ts -> In e t -> Inv (apply_wev m e)) ->
  Inv m -> live cs m (map (fun _ => 0) cs) evs ks' -> finished cs (apply_all m evs) ks' ->
  interleaving ts evs.
Proof.
  intros cs Inv ts m evs ks' LT RD ST IM LV (FL & FN).
  destruct (live_interleaving cs Inv ts LT RD ST _ _ _ _ LV IM) as (ts' & IL & IF & L1 & L2 & H); [apply map_length|].
  assert (E : ts' = ts).
  { apply nth_error_ext. intros j. destruct (nth_error ts j) as [t|] eqn:NT.
    - assert (LJ : j < length cs) by (rewrite <- LT; apply nth_error_Some; congruence).
      destruct (some_nth _ cs j LJ) as (c & NC). destruct (some_nth _ ks' j) as (k' & NK'); [rewrite L1; exact LJ|].
      destruct (H j 0 k' t) as (t' & N' & EQ); [erewrite map_nth_error by exact NC; reflexivity|exact NK'|exact NT|].
      rewrite N'. f_equal. cbn [skipn] in EQ. rewrite EQ.
      rewrite (FN j c k' NC NK'), (RD j c t _ NC NT IF), skipn_all, app_nil_r. reflexivity.
    - apply nth_error_None. rewrite L2, <- LT. apply nth_error_None, NT. }
  subst ts'. exact IL.
Qed.

Lemma same_samples_band : forall f ps w h r0 hb band m m', planes_fit f ps w h -> r0 mod 2 = 0 -> r0 + hb <= h ->
  is_band f ps r0 hb band -> same_samples f ps w h m m' -> same_samples f band w hb m m'.
Proof. intros f ps w h r0 hb band m m' F EV H B S bb i SB. apply S. eapply band_sample; eauto. Qed.

Lemma band_same : forall lm b m m' src sps dst dps hs k pr, convertible src sps dst dps -> 0 < im_width src ->
  band_pair src sps dst dps hs k pr ->
  same_samples (im_format src) sps (im_width src) (im_height src) m m' ->
  convert_band lm b m src dst pr = convert_band lm b m' src dst pr.
Proof.
  intros lm b m m' src sps dst dps hs k pr C W0 Q S.
  rewrite !(convert_band_is lm b _ src sps dst dps hs k pr (cv_src _ _ _ _ C) (cv_dst _ _ _ _ C) (cv_width _ _ _ _ C) (cv_height _ _ _ _ C) W0 Q).
  pose proof Q as (hk & sb & db & -> & NH & P & V & EV & LE & BS & BD). cbn [fst snd].
  eapply convert_same; [eapply band_convertible; eauto|]. cbn [band_image im_format im_width im_height].
  destruct (cv_src _ _ _ _ C) as (_ & _ & F). eapply same_samples_band; eauto.
Qed.

Lemma covers_self : forall e i, w_off e <= i < w_off e + length (w_bytes e) -> covers (w_buf e) i e = true.
Proof. intros e i H. apply covers_iff. auto. Qed.

Lemma times_pos : forall evs e b i, In e evs -> covers b i e = true -> times evs b i <> 0.
Proof.
  intros evs e b i I C. unfold times. assert (I' : In e (filter (covers b i) evs)) by (apply filter_In; auto).
  destruct (filter (covers b i) evs); [destruct I'|discriminate].
Qed.

(** Stores into the destination leave the source alone *)
Lemma store_keeps_samples : forall f sps w h dps fd wd hd m m' evs e, no_alias f sps w h dps -> planes_fit fd dps wd hd ->
  (forall bb i, times evs bb i <> 0 -> sample_byte fd dps wd hd bb i) -> In e evs ->
  same_samples f sps w h m m' -> same_samples f sps w h m (apply_wev m' e).
Proof.
  intros f sps w h dps fd wd hd m m' evs e NA F T I S bb i SB. rewrite apply_wev_covers. destruct (covers bb i e) eqn:C; [|apply S, SB].
  exfalso. apply (NA bb i SB). destruct (sample_byte_slice _ _ _ _ _ _ F (T bb i (times_pos _ _ _ _ I C))) as (p & pl & _ & N & IS).
  exists pl. split; [eapply nth_error_In; eauto|exact IS].
Qed.

(** Executing the stores of [convert] one by one, each computed from the
    memory at that moment, performs the stores computed from the initial memory. *)
Theorem convert_live : forall lm b m src sps dst dps evs ks, convertible src sps dst dps -> planes_disjoint dps ->
  no_alias (im_format src) sps (im_width src) (im_height src) dps ->
  let run := fun m => fst (convert lm b m src dst) in
  live [run] m [0] evs ks -> finished [run] (apply_all m evs) ks -> evs = fst (convert lm b m src dst).
Proof.
  intros lm b m src sps dst dps evs ks C PD NA run LV FI.
  destruct (convert_bytes lm b m _ _ _ _ C PD) as (evs0 & E0 & F1 & _).
  assert (IL : interleaving [run m] evs).
  { eapply (live_finished [run] (fun m' => same_samples (im_format src) sps (im_width src) (im_height src) m m') [run m] m evs ks);
      try assumption; [reflexivity| | |intros bb i _; reflexivity].
    - intros [|[|j]] c t m' NC NT S; cbn in NC, NT; try discriminate. injection NC as <-. injection NT as <-. unfold run.
      rewrite (convert_same lm b m m' _ _ _ _ C S). reflexivity.
    - intros m' e t S [<-|[]] I. unfold run in I. rewrite E0 in I. cbn [fst] in I.
      destruct (cv_dst _ _ _ _ C) as (_ & _ & FD). eapply store_keeps_samples; eauto. }
  unfold run in IL.
  assert (ONE : forall t evs, interleaving [t] evs -> evs = t).
  { clear. intros t evs I. remember [t] as ts eqn:ET. revert t ET. induction I as [ts Z|before e t0 after evs I IH]; intros t ET.
    - subst ts. inversion Z. assumption.
    - destruct before as [|x [|y before]]; try discriminate. injection ET as ET ->. cbn in I. subst t. f_equal. apply IH. reflexivity. }
  apply ONE, IL.
Qed.

(** The same for the bands of convert_multi_thread *)
Theorem bands_live : forall lm b m src sps dst dps bands hs evs ks dbands sbands, convertible src sps dst dps -> planes_disjoint dps ->
  0 < im_width src -> no_alias (im_format src) sps (im_width src) (im_height src) dps ->
  bands = combine sbands dbands ->
  bands_partition (im_format dst) dps (im_height src) dbands ->
  (forall k pr, nth_error bands k = Some pr -> band_pair src sps dst dps hs k pr) ->
  let cs := map (fun pr m => fst (convert_band lm b m src dst pr)) bands in
  live cs m (map (fun _ => 0) cs) evs ks -> finished cs (apply_all m evs) ks ->
  interleaving (map (fun pr => fst (convert_band lm b m src dst pr)) bands) evs.
Proof.
  intros lm b m src sps dst dps bands hs evs ks dbands sbands C PD W0 NA EB PB BP cs LV FI.
  pose proof (cv_height _ _ _ _ C) as EH. destruct (cv_dst _ _ _ _ C) as (ED & WD & FD).
  pose proof (planes_rows_fit _ _ _ _ FD) as RF. rewrite <- EH in RF.
  eapply (live_finished cs (fun m' => same_samples (im_format src) sps (im_width src) (im_height src) m m') _ m evs ks);
    try assumption; [unfold cs; rewrite !map_length; reflexivity| | |intros bb i _; reflexivity].
  - intros j c t m' NC NT S. apply nth_error_map_some in NC as (pr & NP & ->). apply nth_error_map_some in NT as (pr' & NP' & ->).
    rewrite NP in NP'. injection NP' as <-. rewrite (band_same lm b m m' src sps dst dps hs j pr C W0 (BP j pr NP) S). reflexivity.
  - intros m' e t S IT IE. apply in_map_iff in IT as (pr & <- & IP). apply In_nth_error in IP as (k & NP).
    pose proof (BP k pr NP) as Q. pose proof Q as (hk & sb & db & -> & NH & P & V & EV & LE & BS & BD).
    pose proof NP as NP2. rewrite EB in NP2. destruct (nth_error_combine2 _ _ _ _ _ _ NP2) as [_ ND]. cbn [fst snd] in ND.
    pose proof (band_disjoint_planes _ _ _ _ _ _ _ PB RF PD ND) as PDB.
    pose proof (band_convertible _ _ _ _ _ _ _ _ _ C Q) as CB.
    destruct (convert_bytes lm b m _ _ _ _ CB PDB) as (evk & EK & K1 & _).
    rewrite (convert_band_is lm b m src sps dst dps hs k _ (cv_src _ _ _ _ C) (cv_dst _ _ _ _ C) (cv_width _ _ _ _ C) EH W0 Q) in IE.
    cbn [fst snd] in IE. rewrite EK in IE. cbn [fst] in IE.
    eapply (store_keeps_samples _ _ _ _ dps (im_format dst) (im_width dst) (im_height dst) m m' evk e NA FD); eauto.
    intros bb i T. rewrite EH in LE. exact (band_sample _ _ _ _ _ _ _ _ _ FD EV LE BD (K1 bb i T)).
Qed.
