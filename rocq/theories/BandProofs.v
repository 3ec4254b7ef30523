(** Converting the bands of an image in parallel. *)

From Coq Require Import Arith Bool List ZArith Lia.
From Verif Require Import Base Types Planes ImageM F32 Vector Simd Formats Visit Convert MultiThread
  SpecGeom SpecVector SpecColor SpecConvert SpecRun SpecThreads GeomProofs GeomProofs2 GeomProofs3
  SimdProofs ColorProofs ReadProofs WriteProofs VisitProofs ConvertProofs SplitProofs.
Import ListNotations.

(** * Bytes stored by convert *)

Lemma times_in : forall evs b i, times evs b i <> 0 -> exists e, In e evs /\ covers b i e = true.
Proof.
  intros evs b i H. unfold times in H. destruct (filter (covers b i) evs) as [|e l] eqn:E; [destruct (H eq_refl)|].
  exists e. apply filter_In. rewrite E. left. reflexivity.
Qed.

(** Value of byte [j] of sample ([p], [r], [c]) *)
Definition sample_code (lm : libm) (b : backend) (m : mem) (src : image) (sps : list plane) (dst : image) (p r c j : nat) : Z :=
  let '(vi, q, X) := block_at lm b (im_width dst) (c / ucols (im_format dst) p) in
  byte_of (stored q (im_format dst) (code_value m src sps dst vi X) p r c) j.

Lemma convert_bytes : forall lm b m src sps dst dps, convertible src sps dst dps -> planes_disjoint dps ->
  exists evs, convert lm b m src dst = (evs, Ok tt) /\
    (forall bb i, times evs bb i <> 0 -> sample_byte (im_format dst) dps (im_width dst) (im_height dst) bb i) /\
    (forall m' p pl r c j, p < n_planes (im_format dst) -> nth_error dps p = Some pl ->
       r < plane_rows (im_format dst) p (im_height dst) -> c < plane_cols (im_format dst) p (im_width dst) ->
       j < sample_bytes (im_format dst) ->
       times evs (s_buf (fst pl)) (s_off (fst pl) + (r * snd pl + c * sample_bytes (im_format dst)) + j) = 1 /\
       apply_all m' evs (s_buf (fst pl)) (s_off (fst pl) + (r * snd pl + c * sample_bytes (im_format dst)) + j)
         = sample_code lm b m src sps dst p r c j).
Proof.
  intros lm b m src sps dst dps C PD.
  destruct (convert_runs lm b m src sps dst dps C) as (evss & E & F).
  pose proof (ready_dst_planes dst dps (cv_dst _ _ _ _ C) PD) as D.
  pose proof (cv_even_w _ _ _ _ C) as Ew. pose proof (cv_even_h _ _ _ _ C) as Eh.
  exists (concat evss). split; [exact E|]. split.
  - intros bb i T. apply sample_byte_firstn.
    destruct (times_in _ _ _ T) as (e & I & CV). apply in_concat in I as (evs & I1 & I2).
    destruct (forall2_in_r _ _ _ _ _ _ F I1) as ([[[vi q] X] Y] & J1 & J2). cbn [block_evs] in J2.
    destruct (blocks_in_image lm b _ _ vi q X Y Ew Eh J1) as [V [IX IY]].
    destruct (forall2_in_r _ _ _ _ _ _ J2 I2) as ([[[p r] c] n] & K1 & K2).
    destruct (block_rows_range _ (vi_len vi) X Y _ _ p r c n K1 IX IY) as (R1 & R2 & R3).
    eapply row_ev_sample; eauto. apply sample_bytes_pos.
  - intros m' p pl r c j Hp N Hr Hc Hj.
    assert (N' : nth_error (firstn (n_planes (im_format dst)) dps) p = Some pl) by (rewrite nth_error_firstn by exact Hp; exact N).
    split.
    + eapply (walk_once lm b _ _ _ _ _ Ew Eh D evss F); eauto.
    + pose proof (walk_value lm b _ _ _ _ _ Ew Eh D evss F m' p pl r c j Hp N' Hr Hc Hj) as W.
      unfold sample_code. destruct (block_at lm b (im_width dst) (c / ucols (im_format dst) p)) as [[vi q] X]. exact W.
Qed.

(** * A band as an image *)

Lemma combine_split_list : forall A B (l : list (A * B)), combine (map fst l) (map snd l) = l.
Proof. induction l as [|[a c] l IH]; cbn; [reflexivity|]. rewrite IH. reflexivity. Qed.

Definition band_image (im : image) (w h : nat) (band : list plane) : image :=
  Image (im_format im) w h (im_color im) (Ok band).

Lemma band_wf : forall f ps h r0 hb band, wf_planes ps -> rows_fit f ps h -> r0 mod 2 = 0 -> r0 + hb <= h ->
  is_band f ps r0 hb band -> wf_planes band.
Proof.
  intros f ps h r0 hb band W R EV H [L B]. apply Forall_nth_intro. intros p a N.
  assert (Hp : p < n_planes f) by (rewrite <- L; apply nth_error_Some; congruence).
  destruct R as [RL R]. destruct (some_nth _ ps p ltac:(eapply Nat.lt_le_trans; eassumption)) as (pl & NP).
  rewrite (B p pl Hp NP) in N. injection N as <-. cbn. destruct (wf_nth _ _ _ W NP) as [Ua Ub]. split; [|exact Ub].
  eapply usize_le; [|exact Ua]. specialize (R p pl Hp NP).
  pose proof (plane_rows_mono f p (r0 + hb) h H) as M. rewrite plane_rows_add in M by exact EV. nia.
Qed.

Lemma band_fits : forall f ps w h r0 hb band, planes_fit f ps w h -> is_band f ps r0 hb band -> planes_fit f band w hb.
Proof.
  intros f ps w h r0 hb band [L F] [LB B]. split; [lia|]. intros p a Hp N.
  destruct (some_nth _ ps p ltac:(eapply Nat.lt_le_trans; eassumption)) as (pl & NP).
  rewrite (B p pl Hp NP) in N. injection N as <-. destruct (F p pl Hp NP) as [F1 F2]. split; [exact F1|]. cbn. lia.
Qed.

Lemma band_from_planes : forall f ps w h r0 hb band c, wf_planes ps -> planes_fit f ps w h -> r0 mod 2 = 0 -> r0 + hb <= h ->
  is_band f ps r0 hb band -> 0 < w -> 0 < hb ->
  exists oi, from_planes f (map fst band) (Some (map snd band)) w hb c = Ok oi /\
    image_of oi = Image f w hb c (Ok band).
Proof.
  intros f ps w h r0 hb band c W F EV H B Hw Hh. unfold from_planes, image_new.
  destruct (Nat.eqb_spec w 0); [lia|]. destruct (Nat.eqb_spec hb 0); [lia|]. cbn [orb bind].
  set (oi := OwnedImage f (Split (map fst band)) (map snd band) w hb c).
  assert (EI : image_of oi = Image f w hb c (Ok band))
    by (unfold image_of, owned_planes; cbn; rewrite combine_split_list; reflexivity).
  exists oi. split; [|exact EI]. rewrite EI.
  rewrite (image_bounds_check_complete (Image f w hb c (Ok band)) band); [reflexivity|reflexivity| |].
  - eapply band_wf; eauto. eapply planes_rows_fit; eauto.
  - cbn. eapply band_fits; eauto.
Qed.

(** * Values in a band *)

Lemma even_half : forall a y, a mod 2 = 0 -> (a + y) / 2 = a / 2 + y / 2 /\ 2 * (a / 2) = a.
Proof.
  intros a y E. pose proof (Nat.div_mod a 2 ltac:(lia)) as D. rewrite E in D. split; [|lia].
  replace (a + y) with (y + a / 2 * 2) by lia. rewrite Nat.div_add by lia. lia.
Qed.

Lemma layout_band : forall f c x y r0 p r col, r0 mod 2 = 0 -> layout f c x y = Some (p, r, col) ->
  layout f c x (r0 + y) = Some (p, plane_rows f p r0 + r, col).
Proof.
  intros f c x y r0 p r col EV H. destruct (even_half r0 y EV) as [HF _].
  destruct f, c; cbn [layout] in *; try discriminate H; apply some3 in H as (-> & -> & ->); cbn [plane_rows Nat.eqb];
    rewrite ?HF; reflexivity.
Qed.

Lemma layout_plane_bound : forall f c x y p r col, layout f c x y = Some (p, r, col) -> p < n_planes f.
Proof. intros f c x y p r col H. destruct f, c; cbn [layout] in H; try discriminate H; injection H as <- _ _; cbn; lia. Qed.

Lemma layout_none : forall f c x y x' y', layout f c x y = None -> layout f c x' y' = None.
Proof. intros f c x y x' y' H. destruct f, c; cbn in *; congruence. Qed.

Lemma sample_at_band : forall m f p r0 hb pl r c,
  sample_at m f (plane_band f p r0 hb pl) r c = sample_at m f pl (plane_rows f p r0 + r) c.
Proof.
  intros. unfold sample_at, sample_addr. cbn [plane_band fst snd s_buf s_off].
  replace (s_off (fst pl) + snd pl * plane_rows f p r0 + (r * snd pl + c * sample_bytes f))
    with (s_off (fst pl) + ((plane_rows f p r0 + r) * snd pl + c * sample_bytes f)) by nia.
  reflexivity.
Qed.

Lemma component_band : forall m f ps r0 hb band c x y, n_planes f <= length ps -> r0 mod 2 = 0 -> is_band f ps r0 hb band ->
  component m f band c x y = component m f ps c x (r0 + y).
Proof.
  intros m f ps r0 hb band c x y L EV [LB B]. unfold component.
  destruct (layout f c x y) as [[[p r] col]|] eqn:E.
  - rewrite (layout_band _ _ _ _ _ _ _ _ EV E). pose proof (layout_plane_bound _ _ _ _ _ _ _ E) as Hp.
    destruct (some_nth _ ps p ltac:(eapply Nat.lt_le_trans; eassumption)) as (pl & NP).
    rewrite (B p pl Hp NP). unfold plane in *. rewrite NP. rewrite sample_at_band. reflexivity.
  - rewrite (layout_none _ _ _ _ x (r0 + y) E). reflexivity.
Qed.

Lemma norm_band : forall m f ps r0 hb band c x y, n_planes f <= length ps -> r0 mod 2 = 0 -> is_band f ps r0 hb band ->
  norm m f band c x y = norm m f ps c x (r0 + y).
Proof. intros. unfold norm. erewrite component_band by eassumption. reflexivity. Qed.

Lemma source_pixel_band : forall L m f color ps r0 hb band x y, n_planes f <= length ps -> r0 mod 2 = 0 -> is_band f ps r0 hb band ->
  source_pixel L m f color band x y = source_pixel L m f color ps x (r0 + y).
Proof. intros. unfold source_pixel. rewrite !(norm_band m f ps r0 hb band) by assumption. reflexivity. Qed.

Lemma code_target_shift : forall L n f color pix pix' X c x y r0, r0 mod 2 = 0 ->
  (forall x y, pix' x y = pix x (r0 + y)) ->
  code_target L n f color pix' X c x y = code_target L n f color pix X c x (r0 + y).
Proof.
  intros L n f color pix pix' X c x y r0 EV H. destruct (even_half r0 y EV) as [HF H2].
  assert (E0 : 2 * (r0 / 2 + y / 2) = r0 + 2 * (y / 2)) by lia.
  assert (E1 : r0 + 2 * (y / 2) + 1 = r0 + (2 * (y / 2) + 1)) by lia.
  unfold code_target, target, chroma420, yuv_px.
  destruct (sampling_of f), color as [t p|i]; try reflexivity; destruct c; rewrite ?HF, ?E0, ?E1, ?H; try reflexivity.
Qed.

Lemma code_value_band : forall m src sps dst w r0 hb band dband vi X c x y, n_planes (im_format src) <= length sps -> r0 mod 2 = 0 ->
  is_band (im_format src) sps r0 hb band -> (same_image_kind src dst = true -> im_format src = im_format dst) ->
  code_value m (band_image src w hb band) band (band_image dst w hb dband) vi X c x y = code_value m src sps dst vi X c x (r0 + y).
Proof.
  intros m src sps dst w r0 hb band dband vi X c x y L EV B SF. unfold code_value.
  change (same_image_kind (band_image src w hb band) (band_image dst w hb dband)) with (same_image_kind src dst).
  cbn [band_image im_format im_color].
  destruct (same_image_kind src dst).
  - rewrite <- SF by reflexivity. eapply norm_band; eassumption.
  - apply code_target_shift; [exact EV|]. intros x' y'. rewrite (source_pixel_band _ _ _ _ sps r0 hb band) by assumption. reflexivity.
Qed.

Lemma unlayout_band : forall f p r c r0, p < n_planes f -> r0 mod 2 = 0 ->
  unlayout f p (plane_rows f p r0 + r) c = (let '(k, x, y) := unlayout f p r c in (k, x, r0 + y)).
Proof.
  intros f p r c r0 Hp EV. destruct (even_half r0 0 EV) as [_ H2].
  assert (E0 : 2 * (r0 / 2 + r) = r0 + 2 * r) by lia.
  destruct f; (destruct p as [|[|[|p]]]; cbn in Hp; try lia; cbn [unlayout plane_rows Nat.eqb]);
    repeat match goal with |- context [if ?b then _ else _] => destruct b end;
    repeat match goal with |- context [match ?n with 0 => _ | S _ => _ end] => destruct n end; rewrite ?E0; reflexivity.
Qed.

(** * Interleavings *)

Lemma apply_filter : forall b i evs m, apply_all m evs b i = apply_all m (filter (covers b i) evs) b i.
Proof.
  intros b i evs. induction evs as [|e evs IH]; intros m; [reflexivity|]. cbn [filter].
  change (apply_all m (e :: evs) b i) with (apply_all (apply_wev m e) evs b i).
  destruct (covers b i e) eqn:C.
  - change (apply_all m (e :: filter (covers b i) evs) b i) with (apply_all (apply_wev m e) (filter (covers b i) evs) b i). apply IH.
  - rewrite <- IH. clear IH. assert (A : apply_wev m e b i = m b i) by (rewrite apply_wev_covers, C; reflexivity).
    revert A. generalize (apply_wev m e). intros m' A. revert m m' A. induction evs as [|e' evs IH]; intros m m' A; [exact A|].
    change (apply_all (apply_wev m' e') evs b i = apply_all (apply_wev m e') evs b i). apply IH.
    rewrite !apply_wev_covers. destruct (covers b i e'); [reflexivity|exact A].
Qed.

Lemma nth_error_mid : forall A (l : list A) a r k, nth_error (l ++ a :: r) k =
  if k =? length l then Some a else nth_error (l ++ r) (if k <? length l then k else k - 1).
Proof.
  intros A l a r k. destruct (Nat.eqb_spec k (length l)) as [->|NE].
  - rewrite nth_error_app2, Nat.sub_diag by lia. reflexivity.
  - destruct (Nat.ltb_spec k (length l)) as [L|L].
    + rewrite !nth_error_app1 by lia. reflexivity.
    + rewrite !nth_error_app2 by lia. destruct k; [lia|]. replace (S k - length l) with (S (k - length l)) by lia.
      cbn. f_equal. lia.
Qed.

(** Replacing the middle element *)
Lemma nth_error_mid' : forall A (l : list A) a a' r k, k <> length l -> nth_error (l ++ a :: r) k = nth_error (l ++ a' :: r) k.
Proof.
  intros A l a a' r k NE. rewrite !nth_error_mid. destruct (Nat.eqb_spec k (length l)); [lia|reflexivity].
Qed.
Lemma nth_error_at : forall A (l : list A) a r, nth_error (l ++ a :: r) (length l) = Some a.
Proof. intros. rewrite nth_error_mid, Nat.eqb_refl. reflexivity. Qed.

Lemma interleaving_filter_none : forall P ts evs, interleaving ts evs ->
  (forall k t, nth_error ts k = Some t -> filter P t = []) -> filter P evs = [].
Proof.
  intros P ts evs I. induction I as [ts Z|before e t after evs I IH]; intros H; [reflexivity|].
  pose proof (H (length before) (e :: t) (nth_error_at _ _ _ _)) as H0. cbn [filter] in *.
  destruct (P e); [discriminate H0|]. apply IH. intros k t' N.
  destruct (Nat.eq_dec k (length before)) as [->|NE].
  - rewrite nth_error_at in N. injection N as <-. exact H0.
  - apply (H k). rewrite (nth_error_mid' _ _ _ t) by exact NE. exact N.
Qed.

Lemma interleaving_filter : forall P k ts evs, interleaving ts evs ->
  (forall j t, j <> k -> nth_error ts j = Some t -> filter P t = []) ->
  forall tk, nth_error ts k = Some tk -> filter P evs = filter P tk.
Proof.
  intros P k ts evs I. induction I as [ts Z|before e t after evs I IH]; intros H tk NK.
  - rewrite Forall_forall in Z. apply nth_error_In in NK. rewrite <- (Z tk NK). reflexivity.
  - destruct (Nat.eq_dec (length before) k) as [<-|NE].
    + rewrite nth_error_at in NK. injection NK as <-. cbn [filter].
      rewrite (IH) with (tk := t); [reflexivity| |apply nth_error_at].
      intros j t' NJ N. apply (H j t' NJ). rewrite (nth_error_mid' _ _ _ t) by exact NJ. exact N.
    + pose proof (H (length before) (e :: t) NE (nth_error_at _ _ _ _)) as H0. cbn [filter] in *.
      destruct (P e); [discriminate H0|]. apply IH.
      * intros j t' NJ N. destruct (Nat.eq_dec j (length before)) as [->|NE'].
        -- rewrite nth_error_at in N. injection N as <-. exact H0.
        -- apply (H j t' NJ). rewrite (nth_error_mid' _ _ _ t) by exact NE'. exact N.
      * rewrite (nth_error_mid' _ _ _ (e :: t)) by auto. exact NK.
Qed.

Lemma interleaving_In : forall ts evs e, interleaving ts evs -> In e evs -> exists t, In t ts /\ In e t.
Proof.
  intros ts evs e I. induction I as [ts Z|before e' t after evs I IH]; intros H; [destruct H|].
  destruct H as [->|H].
  - exists (e :: t). split; [apply in_elt|left; reflexivity].
  - destruct (IH H) as (t' & I1 & I2). apply in_app_or in I1 as [I1|[<-|I1]].
    + exists t'. split; [apply in_or_app; left; exact I1|exact I2].
    + exists (e' :: t). split; [apply in_elt|right; exact I2].
    + exists t'. split; [apply in_or_app; right; right; exact I1|exact I2].
Qed.

(** There is a run: one thread after the other *)
Lemma interleaving_concat_gen : forall ts before, Forall (eq []) before -> interleaving (before ++ ts) (concat ts).
Proof.
  induction ts as [|t ts IH]; intros before Z; cbn [concat].
  - apply il_done. rewrite app_nil_r. exact Z.
  - induction t as [|e t IHt]; cbn [app].
    + change (before ++ [] :: ts) with (before ++ [[]] ++ ts). rewrite app_assoc. apply IH.
      apply Forall_app. split; [exact Z|]. constructor; [reflexivity|constructor].
    + apply il_step. exact IHt.
Qed.
Lemma interleaving_concat : forall ts, interleaving ts (concat ts).
Proof. intros ts. apply (interleaving_concat_gen ts []). constructor. Qed.

Lemma interleaving_nil : forall ts evs, interleaving ts evs -> Forall (eq []) ts -> evs = [].
Proof.
  intros ts evs I Z. destruct evs as [|e evs]; [reflexivity|].
  destruct (interleaving_In _ _ e I (or_introl eq_refl)) as (t & I1 & I2).
  rewrite Forall_forall in Z. rewrite <- (Z t I1) in I2. destruct I2.
Qed.

Lemma nth_error_map_some : forall A B (g : A -> B) l k t, nth_error (map g l) k = Some t -> exists a, nth_error l k = Some a /\ t = g a.
Proof. intros A B g l k t N. rewrite nth_error_map in N. destruct (nth_error l k); [|discriminate N]. injection N as <-. eauto. Qed.

(** * Splitting both images *)

Lemma height_usize : forall f ps w h, wf_planes ps -> planes_fit f ps w h -> 0 < w -> usize h.
Proof.
  intros f ps w h W [L F] Hw.
  assert (Hp : 0 < n_planes f) by (destruct f; cbn; lia).
  destruct (some_nth _ ps 0 ltac:(eapply Nat.lt_le_trans; eassumption)) as (pl & N).
  destruct (F 0 pl Hp N) as [F1 F2]. destruct (wf_nth _ _ _ W N) as [U _].
  eapply usize_le; [|exact U]. unfold row_bytes in F1. pose proof (sample_bytes_pos f).
  assert (h <= plane_rows f 0 h) by (destruct f; cbn; lia).
  assert (w <= plane_cols f 0 w) by (destruct f; cbn; lia).
  assert (1 <= snd pl) by nia. nia.
Qed.

(** What the pair of bands [k] looks like *)
Definition band_pair (src : image) (sps : list plane) (dst : image) (dps : list plane) (hs : list nat) (k : nat)
    (pr : (nat * list plane) * (nat * list plane)) : Prop :=
  exists hk sb db, pr = ((hk, sb), (hk, db)) /\ nth_error hs k = Some hk /\ 0 < hk /\ hk mod 2 = 0 /\
    band_start hs k mod 2 = 0 /\ band_start hs k + hk <= im_height src /\
    is_band (im_format src) sps (band_start hs k) hk sb /\ is_band (im_format dst) dps (band_start hs k) hk db.

Lemma nth_error_combine2 : forall A B (la : list A) (lb : list B) p x, nth_error (combine la lb) p = Some x ->
  nth_error la p = Some (fst x) /\ nth_error lb p = Some (snd x).
Proof.
  induction la as [|a la IH]; intros [|c lb] p x H; destruct p; cbn in *; try discriminate.
  - injection H as <-. auto.
  - apply IH. exact H.
Qed.

Lemma band_pairs_spec : forall src sps dst dps threads,
  ready src sps -> ready dst dps -> im_width src = im_width dst -> im_height src = im_height dst ->
  im_height src mod 2 = 0 -> 0 < im_height src -> 0 < im_width src -> 0 < threads ->
  exists sbands dbands hs, band_pairs src dst threads = Ok (combine sbands dbands) /\
    map fst sbands = hs /\ map fst dbands = hs /\ total hs = im_height src /\ length hs = Nat.min threads (im_height src / 2) /\
    bands_partition (im_format src) sps (im_height src) sbands /\
    bands_partition (im_format dst) dps (im_height src) dbands /\
    forall k pr, nth_error (combine sbands dbands) k = Some pr -> band_pair src sps dst dps hs k pr.
Proof.
  intros src sps dst dps threads (ES & WS & FS) (ED & WD & FD) EW EH EV H0 W0 T0.
  pose proof (planes_rows_fit _ _ _ _ FS) as RS. pose proof (planes_rows_fit _ _ _ _ FD) as RD. rewrite <- EH in RD.
  pose proof (height_usize _ _ _ _ WS FS W0) as HU.
  destruct (split_planes_spec convert_error _ _ _ threads WS RS HU EV H0 T0) as (sb & E1 & L1 & P1 & M1).
  destruct (split_planes_spec convert_error _ _ _ threads WD RD HU EV H0 T0) as (db & E2 & L2 & P2 & M2).
  exists sb, db, (map fst sb). unfold band_pairs. rewrite ES, ED. cbn [lift bind]. rewrite E1. cbn [bind]. rewrite E2. cbn [bind].
  split; [reflexivity|]. split; [reflexivity|]. split; [rewrite M1; exact M2|]. split; [apply P1|].
  split; [rewrite map_length; exact L1|]. split; [exact P1|]. split; [exact P2|].
  intros k [[hs sbk] [hd dbk]] N. destruct (nth_error_combine2 _ _ _ _ _ _ N) as [NS ND]. cbn [fst snd] in *.
  destruct P1 as (T1 & EV1 & _ & B1). destruct P2 as (T2 & EV2 & _ & B2).
  assert (EM : map fst db = map fst sb) by (rewrite M1; exact M2).
  assert (NH : nth_error (map fst sb) k = Some hs) by (rewrite nth_error_map, NS; reflexivity).
  assert (NH2 : nth_error (map fst sb) k = Some hd) by (rewrite <- EM, nth_error_map, ND; reflexivity).
  assert (hd = hs) by congruence. subst hd.
  destruct (EV1 hs (nth_error_In _ _ NH)) as [P V].
  exists hs, sbk, dbk. split; [reflexivity|]. split; [exact NH|]. split; [exact P|]. split; [exact V|].
  split; [apply band_start_even; intros; apply EV1; assumption|].
  split; [pose proof (total_split _ _ _ NH); unfold band_start; lia|].
  split; [apply (B1 _ _ _ NS)|]. specialize (B2 _ _ _ ND). rewrite EM in B2. exact B2.
Qed.

Lemma band_ready : forall im ps hb r0 band, ready im ps -> r0 mod 2 = 0 -> r0 + hb <= im_height im ->
  is_band (im_format im) ps r0 hb band -> ready (band_image im (im_width im) hb band) band.
Proof.
  intros im ps hb r0 band (E & W & F) EV H B. split; [reflexivity|]. split.
  - eapply band_wf; eauto. eapply planes_rows_fit; eauto.
  - cbn. eapply band_fits; eauto.
Qed.

Lemma convert_band_is : forall lm b m src sps dst dps hs k pr,
  ready src sps -> ready dst dps -> im_width src = im_width dst -> im_height src = im_height dst -> 0 < im_width src ->
  band_pair src sps dst dps hs k pr ->
  convert_band lm b m src dst pr =
    convert lm b m (band_image src (im_width src) (fst (fst pr)) (snd (fst pr)))
                   (band_image dst (im_width dst) (fst (fst pr)) (snd (snd pr))).
Proof.
  intros lm b m src sps dst dps hs k pr (ES & WS & FS) (ED & WD & FD) EW EH W0 (hk & sb & db & -> & NH & P & V & EV & LE & BS & BD).
  cbn [convert_band fst snd].
  destruct (band_from_planes _ _ _ _ _ _ _ (im_color src) WS FS EV LE BS W0 P) as (si & E1 & I1). rewrite E1. cbn [unwrap bind].
  rewrite EH in LE. rewrite EW in W0.
  destruct (band_from_planes _ _ _ _ _ _ _ (im_color dst) WD FD EV LE BD W0 P) as (di & E2 & I2). rewrite EW, E2. cbn [unwrap bind obind].
  rewrite I1, I2, EW. reflexivity.
Qed.

Lemma band_convertible : forall src sps dst dps hs k hk sb db, convertible src sps dst dps ->
  band_pair src sps dst dps hs k ((hk, sb), (hk, db)) ->
  convertible (band_image src (im_width src) hk sb) sb (band_image dst (im_width dst) hk db) db.
Proof.
  intros src sps dst dps hs k hk sb db C (hk' & sb' & db' & EQ & NH & P & V & EV & LE & BS & BD).
  injection EQ as E_1 E_2 E_0 E_3; subst hk' sb' db'.
  pose proof (cv_height _ _ _ _ C) as EH. split.
  - eapply band_ready; eauto; apply C.
  - eapply band_ready; eauto; [apply C|]. rewrite <- EH. exact LE.
  - apply C.
  - reflexivity.
  - apply C.
  - exact V.
  - apply C.
  - intros S p q a c Hp Hq NA NC. cbn in S.
    assert (N3 : n_planes (im_format src) = 3) by (destruct (im_format src); try discriminate S; reflexivity).
    destruct (cv_src _ _ _ _ C) as (_ & _ & L & _). rewrite N3 in L.
    destruct (some_nth _ sps p ltac:(eapply Nat.lt_le_trans; eassumption)) as (pa & NPA).
    destruct (some_nth _ sps q ltac:(eapply Nat.lt_le_trans; eassumption)) as (qa & NQA).
    destruct BS as [_ B]. rewrite (B p pa ltac:(lia) NPA) in NA. rewrite (B q qa ltac:(lia) NQA) in NC.
    injection NA as <-. injection NC as <-. cbn. apply (cv_strides _ _ _ _ C S p q pa qa); assumption.
Qed.

Lemma band_disjoint_planes : forall f ps h bands k hk band, bands_partition f ps h bands -> rows_fit f ps h -> planes_disjoint ps ->
  nth_error bands k = Some (hk, band) -> planes_disjoint band.
Proof.
  intros f ps h bands k hk band P R PD N p q a c NE NA NC.
  eapply (bands_disjoint f ps h bands k k hk hk band band p q a c); eauto.
Qed.

Lemma sample_byte_slice : forall f ps w h bb i, planes_fit f ps w h -> sample_byte f ps w h bb i ->
  exists p pl, p < n_planes f /\ nth_error ps p = Some pl /\ in_slice (fst pl) bb i.
Proof.
  intros f ps w h bb i [_ F] (p & pl & r & c & Hp & N & Hr & Hc & -> & Hi). exists p, pl. split; [exact Hp|]. split; [exact N|].
  split; [reflexivity|]. pose proof (sample_in_slice f pl w h p r c (F p pl Hp N) Hr Hc). nia.
Qed.

(** A sample byte of a band *)
Lemma band_sample : forall f ps w h r0 hb band bb i, planes_fit f ps w h -> r0 mod 2 = 0 -> r0 + hb <= h ->
  is_band f ps r0 hb band -> sample_byte f band w hb bb i -> sample_byte f ps w h bb i.
Proof.
  intros f ps w h r0 hb band bb i [L F] EV H [LB B] (p & a & r & c & Hp & N & Hr & Hc & -> & Hi).
  destruct (some_nth _ ps p ltac:(eapply Nat.lt_le_trans; eassumption)) as (pl & NP).
  rewrite (B p pl Hp NP) in N. injection N as <-. cbn in Hi |- *.
  pose proof (plane_rows_mono f p (r0 + hb) h H) as M. rewrite plane_rows_add in M by exact EV.
  exists p, pl, (plane_rows f p r0 + r), c. split; [exact Hp|]. split; [exact NP|]. split; [lia|]. split; [exact Hc|].
  split; [reflexivity|]. nia.
Qed.

Lemma plane_rows_0 : forall f p, plane_rows f p 0 = 0.
Proof. intros f p. destruct f; cbn; try reflexivity; destruct (p =? 0); reflexivity. Qed.

(** Every row of a plane is in one of the bands *)
Lemma plane_row_band : forall f p hs r, (forall hk, In hk hs -> hk mod 2 = 0) -> r < plane_rows f p (total hs) ->
  exists k hk, nth_error hs k = Some hk /\
    plane_rows f p (band_start hs k) <= r < plane_rows f p (band_start hs k) + plane_rows f p hk.
Proof.
  intros f p hs. induction hs as [|x l IH]; intros r EV H.
  - cbn in H. rewrite plane_rows_0 in H. lia.
  - cbn [total fold_right] in H. fold (total l) in H.
    rewrite plane_rows_add in H by (apply EV; left; reflexivity).
    destruct (Nat.lt_ge_cases r (plane_rows f p x)) as [C|C].
    + exists 0, x. split; [reflexivity|]. cbn. rewrite plane_rows_0. lia.
    + destruct (IH (r - plane_rows f p x)) as (k & hk & N & B); [intros; apply EV; right; assumption|lia|].
      exists (S k), hk. split; [exact N|]. unfold band_start in *. cbn [firstn total fold_right]. fold (total (firstn k l)).
      rewrite plane_rows_add by (apply EV; left; reflexivity). lia.
Qed.

Lemma sample_code_band : forall lm b m src sps dst dps hs k hk sb db p r c j, convertible src sps dst dps ->
  p < n_planes (im_format dst) ->
  band_pair src sps dst dps hs k ((hk, sb), (hk, db)) ->
  sample_code lm b m (band_image src (im_width src) hk sb) sb (band_image dst (im_width dst) hk db) p r c j
    = sample_code lm b m src sps dst p (plane_rows (im_format dst) p (band_start hs k) + r) c j.
Proof.
  intros lm b m src sps dst dps hs k hk sb db p r c j C Hp (hk' & sb' & db' & EQ & NH & P & V & EV & LE & BS & BD).
  injection EQ as E_1 E_2 E_0 E_3; subst hk' sb' db'. unfold sample_code. cbn [band_image im_width im_format].
  destruct (block_at lm b (im_width dst) (c / ucols (im_format dst) p)) as [[vi q] X]. f_equal. unfold stored.
  rewrite unlayout_band by assumption. destruct (unlayout (im_format dst) p r c) as [[kk x] y]. f_equal.
  destruct (cv_src _ _ _ _ C) as (_ & _ & L & _).
  rewrite (cv_width _ _ _ _ C). eapply code_value_band; eauto.
  intros SK. unfold same_image_kind in SK. apply andb_true_iff in SK as [SF _]. apply pixel_format_eqb_eq, SF.
Qed.

(** * Any order of the stores of the bands leaves the memory convert leaves *)

Lemma bands_memory : forall lm b m src sps dst dps sbands dbands hs evs0,
  convertible src sps dst dps -> planes_disjoint dps ->
  convert lm b m src dst = (evs0, Ok tt) ->
  map fst sbands = hs -> map fst dbands = hs -> total hs = im_height src ->
  bands_partition (im_format dst) dps (im_height src) dbands ->
  (forall k pr, nth_error (combine sbands dbands) k = Some pr -> band_pair src sps dst dps hs k pr) ->
  forall ts evs, 0 < im_width src ->
  Forall (fun c => snd c = Ok tt) (map (convert_band lm b m src dst) (combine sbands dbands)) /\
  (ts = map fst (map (convert_band lm b m src dst) (combine sbands dbands)) -> interleaving ts evs ->
   same_memory (apply_all m evs) (apply_all m evs0)).
Proof.
  intros lm b m src sps dst dps sbands dbands hs evs0 C PD E0 HS HD HT PB BP ts evs W0.
  pose proof (cv_src _ _ _ _ C) as RS. pose proof (cv_dst _ _ _ _ C) as RD.
  pose proof (cv_width _ _ _ _ C) as EW. pose proof (cv_height _ _ _ _ C) as EH.
  destruct RD as (ED & WD & FD). pose proof (planes_rows_fit _ _ _ _ FD) as RF. rewrite <- EH in RF.
  (* each band *)
  assert (BK : forall k pr, nth_error (combine sbands dbands) k = Some pr ->
    exists hk sb db evk, pr = ((hk, sb), (hk, db)) /\ nth_error hs k = Some hk /\ nth_error dbands k = Some (hk, db) /\
      band_pair src sps dst dps hs k ((hk, sb), (hk, db)) /\
      convert_band lm b m src dst pr = (evk, Ok tt) /\
      (forall bb i, times evk bb i <> 0 -> sample_byte (im_format dst) db (im_width dst) hk bb i) /\
      (forall m' p pl r c j, p < n_planes (im_format dst) -> nth_error db p = Some pl ->
         r < plane_rows (im_format dst) p hk -> c < plane_cols (im_format dst) p (im_width dst) -> j < sample_bytes (im_format dst) ->
         apply_all m' evk (s_buf (fst pl)) (s_off (fst pl) + (r * snd pl + c * sample_bytes (im_format dst)) + j)
           = sample_code lm b m src sps dst p (plane_rows (im_format dst) p (band_start hs k) + r) c j)).
  { intros k pr N. pose proof (BP k pr N) as Q. pose proof Q as (hk & sb & db & -> & NH & _).
    destruct (nth_error_combine2 _ _ _ _ _ _ N) as [_ ND]. cbn [fst snd] in ND.
    pose proof (band_convertible _ _ _ _ _ _ _ _ _ C Q) as CB.
    pose proof (band_disjoint_planes _ _ _ _ _ _ _ PB RF PD ND) as PDB.
    destruct (convert_bytes lm b m _ _ _ _ CB PDB) as (evk & EK & K1 & K2).
    exists hk, sb, db, evk. split; [reflexivity|]. split; [exact NH|]. split; [exact ND|]. split; [exact Q|].
    split; [rewrite (convert_band_is lm b m src sps dst dps hs k _ RS (conj ED (conj WD FD)) EW EH W0 Q); exact EK|].
    split; [exact K1|]. intros m' p pl r c j Hp NP Hr Hc Hj.
    rewrite <- (sample_code_band lm b m src sps dst dps hs k hk sb db p r c j C Hp Q). apply K2; assumption. }
  split.
  { apply Forall_forall. intros o I. apply in_map_iff in I as (pr & <- & I). apply In_nth_error in I as (k & N).
    destruct (BK k pr N) as (hk & sb & db & evk & _ & _ & _ & _ & EK & _). rewrite EK. reflexivity. }
  intros -> IL bb i.
  (* traces of the threads *)
  assert (TK : forall k t, nth_error (map fst (map (convert_band lm b m src dst) (combine sbands dbands))) k = Some t ->
    exists pr, nth_error (combine sbands dbands) k = Some pr /\ t = fst (convert_band lm b m src dst pr)).
  { intros k t N. rewrite map_map in N. apply nth_error_map_some in N as (pr & N & ->). eauto. }
  destruct (convert_bytes lm b m _ _ _ _ C PD) as (evs1 & E1 & F1 & F2). rewrite E0 in E1. injection E1 as <-.
  assert (LEN : length sbands = length dbands) by (rewrite <- (map_length fst sbands), <- (map_length fst dbands), HS, HD; reflexivity).
  destruct (Nat.eq_dec (times evs0 bb i) 0) as [Z|NZ].
  - (* a byte convert does not touch *)
    rewrite (apply_untouched _ _ _ _ Z). apply apply_untouched. unfold times.
    rewrite (interleaving_filter_none _ _ _ IL); [reflexivity|]. intros k t N.
    destruct (TK k t N) as (pr & NP & ->). destruct (BK k pr NP) as (hk & sb & db & evk & -> & NH & ND & Q & EK & K1 & _). rewrite EK. cbn [fst].
    destruct (filter (covers bb i) evk) as [|e l] eqn:FE; [reflexivity|]. exfalso.
    assert (SB : sample_byte (im_format dst) db (im_width dst) hk bb i) by (apply K1; unfold times; rewrite FE; cbn [length]; lia).
    destruct Q as (hk' & sb' & db' & EQ & _ & P & V & EV & LE & BS & BD). injection EQ as E_1 E_2 E_0 E_3; subst hk' sb' db'.
    rewrite EH in LE. pose proof (band_sample _ _ _ _ _ _ _ _ _ FD EV LE BD SB) as (p & pl & r & c & Hp & N' & Hr & Hc & -> & Hi).
    destruct (F2 m p pl r c (i - (s_off (fst pl) + (r * snd pl + c * sample_bytes (im_format dst)))) Hp N' Hr Hc ltac:(nia)) as [T _].
    replace (s_off (fst pl) + (r * snd pl + c * sample_bytes (im_format dst)) + (i - (s_off (fst pl) + (r * snd pl + c * sample_bytes (im_format dst))))) with i in T by lia.
    lia.
  - (* a byte of a sample *)
    destruct (F1 bb i NZ) as (p & pl & r & c & Hp & N' & Hr & Hc & -> & Hi).
    set (j := i - (s_off (fst pl) + (r * snd pl + c * sample_bytes (im_format dst)))).
    assert (Hj : j < sample_bytes (im_format dst)) by (unfold j; nia).
    assert (EI : i = s_off (fst pl) + (r * snd pl + c * sample_bytes (im_format dst)) + j) by (unfold j; lia).
    pose proof PB as (PT & PE & PDIFF & PBB).
    assert (EVH : forall hk, In hk hs -> hk mod 2 = 0) by (intros hk I; rewrite <- HD in I; apply PE; exact I).
    destruct (plane_row_band (im_format dst) p hs r EVH) as (k & hk & NH & RB).
    { rewrite HT, EH. exact Hr. }
    destruct (some_nth _ (combine sbands dbands) k) as (pr & NPR).
    { rewrite combine_length, LEN, Nat.min_id, <- (map_length fst dbands), HD. apply nth_error_Some. congruence. }
    destruct (BK k pr NPR) as (hk' & sb & db & evk & -> & NH' & ND & Q & EK & K1 & K2).
    rewrite NH in NH'. injection NH' as <-.
    pose proof Q as (hk' & sb' & db' & EQ & _ & P & V & EV & LE & BS & BD). injection EQ as E_1 E_2 E_0 E_3; subst hk' sb' db'.
    destruct BD as [LBD BD]. pose proof (BD p pl Hp N') as NB.
    rewrite apply_filter. rewrite (interleaving_filter (covers (s_buf (fst pl)) i) k _ _ IL) with (tk := evk).
    + rewrite <- apply_filter.
      destruct (F2 m p pl r c j Hp N' Hr Hc Hj) as [_ FV]. rewrite <- EI in FV. rewrite FV.
      pose proof (K2 m p _ (r - plane_rows (im_format dst) p (band_start hs k)) c j Hp NB ltac:(lia) Hc Hj) as KV.
      cbn [plane_band fst snd s_buf s_off] in KV.
      replace (plane_rows (im_format dst) p (band_start hs k) + (r - plane_rows (im_format dst) p (band_start hs k))) with r in KV by lia.
      rewrite <- KV. f_equal. rewrite EI. rewrite Nat.mul_sub_distr_r. nia.
    + (* the other bands *)
      intros j' t NE NT. destruct (TK j' t NT) as (pr' & NP' & ->).
      destruct (BK j' pr' NP') as (hj & sb' & dbj & evj & -> & NHj & NDj & Qj & EKj & K1j & _). rewrite EKj. cbn [fst].
      destruct (filter (covers (s_buf (fst pl)) i) evj) as [|e l] eqn:FE; [reflexivity|]. exfalso.
      assert (SB : sample_byte (im_format dst) dbj (im_width dst) hj (s_buf (fst pl)) i) by (apply K1j; unfold times; rewrite FE; cbn [length]; lia).
      destruct Qj as (hj' & sbj' & dbj' & EQ & _ & Pj & Vj & EVj & LEj & BSj & BDj). injection EQ as E_1 E_2 E_4 E_3; subst hj' sbj' dbj'.
      pose proof (band_fits _ _ _ _ _ _ _ FD BDj) as FJ.
      destruct (sample_byte_slice _ _ _ _ _ _ FJ SB) as (q & a & Hq & NA & [IA1 IA2]).
      assert (DJ : disjoint_slices (fst (plane_band (im_format dst) p (band_start hs k) hk pl)) (fst a)).
      { eapply (bands_disjoint (im_format dst) dps (im_height src) dbands k j' hk hj db dbj p q); eauto. }
      apply (DJ i). cbn [plane_band fst s_buf s_off s_len]. split; [exact IA1|]. split; [|exact IA2].
      destruct FD as [_ FD]. destruct (FD p pl Hp N') as [FD1 _]. unfold row_bytes in FD1.
      assert (c * sample_bytes (im_format dst) + j < snd pl) by nia.
      rewrite EI. nia.
    + rewrite map_map. erewrite map_nth_error by exact NPR. rewrite EK. reflexivity.
Qed.
