(** C39 - C42, C47: [convert_multi_thread], and what a conversion depends on. *)

From Coq Require Import List ZArith Bool Arith Lia.
From Verif Require Import Base Types Planes ImageM F32 Vector Simd SpecVector SpecGeom GeomProofs GeomProofs2
  SpecColor SpecConvert SpecRun SpecThreads SpecExec Formats Visit Convert MultiThread VisitProofs ConvertProofs
  SplitProofs BandProofs ExecProofs ThreadProofs PropConvert.
Import ListNotations.

(** Concrete images: 4x6, RGB to I420 *)
Definition mt_src_planes : list (slice * nat) := [(Slice 0 0 90, 15)].
Definition mt_src : image := ex_image RGB 4 6 ex_rgb mt_src_planes.
Definition mt_dst_planes : list (slice * nat) := [(Slice 1 0 30, 5); (Slice 1 30 6, 2); (Slice 1 36 9, 3)].
Definition mt_dst : image := ex_image I420 4 6 ex_yuv mt_dst_planes.

Lemma mt_valid : valid_image mt_src mt_src_planes /\ valid_image mt_dst mt_dst_planes /\
  strides_444 (im_format mt_src) mt_src_planes /\ planes_disjoint mt_dst_planes /\
  no_alias RGB mt_src_planes 4 6 mt_dst_planes.
Proof.
  split; [|split; [|split; [discriminate|split]]]; try (split; [reflexivity|split; [repeat constructor; cbn; unfold usize; cbn; lia|reflexivity]]).
  - intros i j a c H Ha Hc k K. destruct i as [|[|[|i]]], j as [|[|[|j]]]; cbn in Ha, Hc; try discriminate Ha; try discriminate Hc;
      try (destruct (H eq_refl)); try (destruct i; discriminate Ha); try (destruct j; discriminate Hc);
      injection Ha as <-; injection Hc as <-; cbn in K; lia.
  - intros b i (p & pl & r & c & Hp & N & _ & _ & -> & _) (ql & [<-|[<-|[<-|[]]]] & [E _]); cbn in Hp; destruct p; [|lia| |lia| |lia];
      cbn in N; injection N as <-; cbn in E; discriminate E.
Qed.

(** * C39 *)

(** Whatever the number of threads and the order in which their stores happen,
    convert_multi_thread returns what convert returns and leaves the memory
    convert leaves.  ([strides_444] as in C15; zero sizes: see C42.) *)
Theorem C39_multi_thread_equals_convert : forall lm b threads m src sps dst dps o,
  valid_image src sps -> valid_image dst dps -> strides_444 (im_format src) sps -> planes_disjoint dps ->
  0 < im_width src -> 0 < im_height src -> 0 < threads ->
  convert_multi_thread lm b threads m src dst o ->
  snd o = snd (convert lm b m src dst) /\
  same_memory (apply_all m (fst o)) (apply_all m (fst (convert lm b m src dst))).
Proof.
  intros lm b threads m src sps dst dps o VS VD ST PD W0 H0 T0 R.
  exact (multi_thread_equal lm b threads m src sps dst dps o (valid_ready _ _ VS) (valid_ready _ _ VD) ST PD W0 H0 T0 R).
Qed.
Print Assumptions C39_multi_thread_equals_convert.

(** Every input has a run. *)
Theorem C39_run_exists : forall lm b threads m src dst, exists o, convert_multi_thread lm b threads m src dst o.
Proof.
  intros lm b threads m src dst. unfold convert_multi_thread.
  destruct (verify_input_windows src dst); try (eexists; reflexivity).
  destruct (_ && _); [eexists; reflexivity|]. destruct (threads =? 1); [eexists; reflexivity|].
  destruct (band_pairs src dst threads); try (eexists; reflexivity). apply try_for_each_exists.
Qed.
Print Assumptions C39_run_exists.

(** The same with loads and stores of all threads taking turns on one memory
    (SpecExec.v): once all threads have finished, memory is as after convert. *)
Theorem C39_live : forall lm b threads m src sps dst dps bands evs ks,
  valid_image src sps -> valid_image dst dps -> strides_444 (im_format src) sps -> planes_disjoint dps ->
  0 < im_width src -> 0 < threads ->
  no_alias (im_format src) sps (im_width src) (im_height src) dps ->
  snd (convert lm b m src dst) = Ok tt ->
  band_pairs src dst threads = Ok bands ->
  let cs := map (fun pr m => fst (convert_band lm b m src dst pr)) bands in
  live cs m (map (fun _ => 0) cs) evs ks -> finished cs (apply_all m evs) ks ->
  same_memory (apply_all m evs) (apply_all m (fst (convert lm b m src dst))).
Proof.
  intros lm b threads m src sps dst dps bands evs ks VS VD ST PD W0 T0 NA OK BP cs L F.
  assert (WS : forall ps, im_planes src = Ok ps -> wf_planes ps /\ strides_444 (im_format src) ps).
  { intros ps E. destruct VS as (E' & W & _). rewrite E in E'. injection E' as ->. auto. }
  assert (WD : forall ps, im_planes dst = Ok ps -> wf_planes ps).
  { intros ps E. destruct VD as (E' & W & _). rewrite E in E'. injection E' as ->. auto. }
  destruct (convert_result_ok lm b m src dst WS WD) as (CR & _ & CC). rewrite OK in CR. symmetry in CR.
  destruct (CC CR) as (sps' & dps' & CV).
  assert (sps' = sps) as -> by (destruct (cv_src _ _ _ _ CV) as (E1 & _); destruct VS as (E2 & _); rewrite E2 in E1; injection E1 as ->; reflexivity).
  assert (dps' = dps) as -> by (destruct (cv_dst _ _ _ _ CV) as (E1 & _); destruct VD as (E2 & _); rewrite E2 in E1; injection E1 as ->; reflexivity).
  destruct (Nat.eq_dec (im_height src) 0) as [Z|NZ].
  { unfold band_pairs in BP. destruct (cv_src _ _ _ _ CV) as (E1 & _). rewrite E1 in BP. cbn [lift bind] in BP.
    rewrite split_planes_zero in BP by lia. discriminate BP. }
  assert (MH : im_height src mod 2 = 0) by (rewrite (cv_height _ _ _ _ CV); exact (cv_even_h _ _ _ _ CV)).
  destruct (band_pairs_spec src sps dst dps threads (cv_src _ _ _ _ CV) (cv_dst _ _ _ _ CV) (cv_width _ _ _ _ CV) (cv_height _ _ _ _ CV)
              MH ltac:(lia) W0 T0) as (sb & db & hs & EB & HS & HD & TOT & LEN & PS & PDs & BPS).
  rewrite EB in BP. injection BP as <-.
  assert (IL : interleaving (map (fun pr => fst (convert_band lm b m src dst pr)) (combine sb db)) evs)
    by (eapply bands_live; eauto).
  destruct (convert lm b m src dst) as [evs0 r0] eqn:EC. cbn [fst snd] in *. subst r0.
  destruct (bands_memory lm b m src sps dst dps sb db hs evs0 CV PD EC HS HD TOT PDs BPS
              (map fst (map (convert_band lm b m src dst) (combine sb db))) evs W0) as (_ & SM).
  apply SM; [reflexivity|]. rewrite map_map. exact IL.
Qed.
Print Assumptions C39_live.

(** Three bands of the example; the runs include ones that are not convert's
    order of stores. *)
Example C39_example :
  valid_image mt_src mt_src_planes /\ valid_image mt_dst mt_dst_planes /\
  (exists bands, band_pairs mt_src mt_dst 8 = Ok bands /\ map (fun '((h, _), _) => h) bands = [2; 2; 2] /\
     map (fun pr => length (fst (convert_band ex_lm AVX2 ex_mem mt_src mt_dst pr))) bands = [8; 8; 8]) /\
  snd (convert ex_lm AVX2 ex_mem mt_src mt_dst) = Ok tt /\
  apply_all ex_mem (fst (convert ex_lm AVX2 ex_mem mt_src mt_dst)) 1 25 <> ex_mem 1 25.
Proof.
  split; [apply mt_valid|split; [apply mt_valid|split; [|vm_compute; split; [reflexivity|discriminate]]]].
  eexists. split; [vm_compute; reflexivity|]. split; vm_compute; reflexivity.
Qed.

(** * C40 *)

Lemma band_slices_consecutive : forall f ps bands p pl r0, p < n_planes f -> nth_error ps p = Some pl -> r0 mod 2 = 0 ->
  (forall hk, In hk (map fst bands) -> hk mod 2 = 0) ->
  (forall k hk band, nth_error bands k = Some (hk, band) -> is_band f ps (r0 + band_start (map fst bands) k) hk band) ->
  forall d, map (fun b => fst (nth p (snd b) d)) bands =
    consecutive (s_buf (fst pl)) (s_off (fst pl) + snd pl * plane_rows f p r0) (map (fun hk => snd pl * plane_rows f p hk) (map fst bands)).
Proof.
  intros f ps bands p pl r0 Hp N. revert r0. induction bands as [|[hk band] bands IH]; intros r0 EV EH B d; [reflexivity|].
  cbn [map fst snd consecutive]. f_equal.
  - destruct (B 0 hk band eq_refl) as [L I]. specialize (I p pl Hp N). cbn in I. rewrite Nat.add_0_r in I.
    rewrite (nth_error_nth _ _ _ I). reflexivity.
  - assert (E0 : hk mod 2 = 0) by (apply EH; left; reflexivity).
    rewrite (IH (r0 + hk)).
    + f_equal. rewrite plane_rows_add by exact EV. lia.
    + rewrite Nat.add_mod, EV, E0 by lia. reflexivity.
    + intros h I. apply EH. right. exact I.
    + intros k h bd NB. specialize (B (S k) h bd NB). unfold band_start in *. cbn [map fst firstn total fold_right] in B.
      fold (total (firstn k (map fst bands))) in B. rewrite Nat.add_assoc in B. exact B.
Qed.

Lemma total_rows : forall f p st hs, (forall hk, In hk hs -> hk mod 2 = 0) ->
  total (map (fun hk => st * plane_rows f p hk) hs) = st * plane_rows f p (total hs).
Proof.
  intros f p st hs. induction hs as [|x l IH]; intros H; [cbn; rewrite plane_rows_0; lia|].
  cbn [map total fold_right]. fold (total (map (fun hk => st * plane_rows f p hk) l)). fold (total l).
  rewrite IH by (intros; apply H; right; assumption). rewrite plane_rows_add by (apply H; left; reflexivity). lia.
Qed.

(** min(threads, h / 2) bands of even positive heights that sum up to the
    height and differ by at most two rows; band k holds the rows after those of
    the bands before it ([bands_partition]); in every plane the slices of the
    bands follow each other without gap or overlap and cover the rows of the
    image. *)
Theorem C40_bands_partition : forall im ps threads,
  valid_image im ps -> im_height im mod 2 = 0 -> 0 < im_height im -> 0 < im_width im -> 0 < threads ->
  let f := im_format im in let h := im_height im in
  exists bands, @split_planes convert_error (plane_descs f) ps h threads = Ok bands /\
    length bands = Nat.min threads (h / 2) /\
    bands_partition f ps h bands /\
    forall p pl, p < n_planes f -> nth_error ps p = Some pl ->
      let sizes := map (fun hk => snd pl * plane_rows f p hk) (map fst bands) in
      (forall d, map (fun b => fst (nth p (snd b) d)) bands = consecutive (s_buf (fst pl)) (s_off (fst pl)) sizes) /\
      total sizes = snd pl * plane_rows f p h.
Proof.
  intros im ps threads V MH H0 W0 T0 f h. destruct (valid_ready _ _ V) as (E & W & F).
  destruct (split_planes_spec convert_error f ps h threads W (planes_rows_fit _ _ _ _ F) (height_usize _ _ _ _ W F W0) MH H0 T0)
    as (bands & EB & L & P & _).
  exists bands. split; [exact EB|]. split; [exact L|]. split; [exact P|].
  intros p pl Hp N sizes. destruct P as (T & EV & _ & B).
  assert (EH : forall hk, In hk (map fst bands) -> hk mod 2 = 0) by (intros hk I; apply (EV hk I)).
  split.
  - intros d. rewrite (band_slices_consecutive f ps bands p pl 0 Hp N eq_refl EH).
    + rewrite plane_rows_0, Nat.mul_0_r, Nat.add_0_r. reflexivity.
    + exact B.
  - unfold sizes. rewrite total_rows by exact EH. rewrite T. reflexivity.
Qed.
Print Assumptions C40_bands_partition.

(** In terms of bytes: a byte belongs to a sample of the image exactly if it
    belongs to a sample of some band, and then of one band only. *)
Theorem C40_samples_in_one_band : forall im ps threads bands,
  valid_image im ps -> planes_disjoint ps ->
  im_height im mod 2 = 0 -> 0 < im_height im -> 0 < im_width im -> 0 < threads ->
  @split_planes convert_error (plane_descs (im_format im)) ps (im_height im) threads = Ok bands ->
  forall buf i,
    (sample_byte (im_format im) ps (im_width im) (im_height im) buf i <->
     exists k hk band, nth_error bands k = Some (hk, band) /\ sample_byte (im_format im) band (im_width im) hk buf i) /\
    (forall j k hj hk bj bk, nth_error bands j = Some (hj, bj) -> nth_error bands k = Some (hk, bk) ->
       sample_byte (im_format im) bj (im_width im) hj buf i -> sample_byte (im_format im) bk (im_width im) hk buf i -> j = k).
Proof.
  intros im ps threads bands V PD MH H0 W0 T0 EB buf i. destruct (valid_ready _ _ V) as (E & W & F).
  set (f := im_format im) in *. set (h := im_height im) in *. set (w := im_width im) in *.
  destruct (split_planes_spec convert_error f ps h threads W (planes_rows_fit _ _ _ _ F) (height_usize _ _ _ _ W F W0) MH H0 T0)
    as (bands' & EB' & L & P & _). rewrite EB in EB'. injection EB' as <-.
  pose proof P as (T & EV & _ & B).
  assert (EH : forall hk, In hk (map fst bands) -> hk mod 2 = 0) by (intros hk I; apply (EV hk I)).
  assert (TOT : forall k hk band, nth_error bands k = Some (hk, band) -> band_start (map fst bands) k + hk <= h).
  { intros k hk band N. assert (X : nth_error (map fst bands) k = Some hk) by (rewrite nth_error_map, N; reflexivity).
    pose proof (total_split _ _ _ X). unfold band_start. lia. }
  split; [split|].
  - intros (p & pl & r & c & Hp & N & Hr & Hc & -> & Hi). rewrite <- T in Hr.
    destruct (plane_row_band f p (map fst bands) r EH Hr) as (k & hk & NK & HR).
    apply nth_error_map_some in NK as ([hk' band] & NB & X). cbn in X. subst hk'.
    exists k, hk, band. split; [exact NB|]. destruct (B k hk band NB) as [LB IB].
    exists p, (plane_band f p (band_start (map fst bands) k) hk pl), (r - plane_rows f p (band_start (map fst bands) k)), c.
    split; [exact Hp|]. split; [apply IB; assumption|]. split; [lia|]. split; [exact Hc|]. split; [reflexivity|].
    unfold plane_band. cbn [fst snd s_off].
    set (R := plane_rows f p (band_start (map fst bands) k)) in *. clearbody R.
    assert (snd pl * R + (r - R) * snd pl = r * snd pl) by (rewrite Nat.mul_sub_distr_r; nia).
    lia.
  - intros (k & hk & band & NB & SB).
    eapply (band_sample f ps w h (band_start (map fst bands) k) hk band); eauto.
    apply band_start_even. exact EH.
  - intros j k hj hk bj bk NJ NK SJ SK. destruct (Nat.eq_dec j k) as [|NE]; [assumption|exfalso].
    assert (FJ : planes_fit f bj w hj) by (eapply band_fits; [exact F|eapply B; exact NJ]).
    assert (FK : planes_fit f bk w hk) by (eapply band_fits; [exact F|eapply B; exact NK]).
    destruct (sample_byte_slice _ _ _ _ _ _ FJ SJ) as (p & a & _ & NA & I1 & I2).
    destruct (sample_byte_slice _ _ _ _ _ _ FK SK) as (q & c & _ & NC & I3 & I4).
    pose proof (bands_disjoint f ps h bands j k hj hk bj bk p q a c P (planes_rows_fit _ _ _ _ F) PD NJ NK (or_introl NE) NA NC i) as D.
    apply D. split; [congruence|]. split; assumption.
Qed.
Print Assumptions C40_samples_in_one_band.

(** Ten rows of I420 for four threads: bands of heights 4, 2, 2 and 2, with
    chroma slices of half as many rows *)
Example C40_example :
  @split_planes convert_error (plane_descs I420) [(Slice 0 0 50, 5); (Slice 1 0 15, 3); (Slice 1 15 10, 2)] 10 4 =
  Ok [(4, [(Slice 0 0 20, 5); (Slice 1 0 6, 3); (Slice 1 15 4, 2)]);
      (2, [(Slice 0 20 10, 5); (Slice 1 6 3, 3); (Slice 1 19 2, 2)]);
      (2, [(Slice 0 30 10, 5); (Slice 1 9 3, 3); (Slice 1 21 2, 2)]);
      (2, [(Slice 0 40 10, 5); (Slice 1 12 3, 3); (Slice 1 23 2, 2)])] /\
  valid_image (ex_image I420 4 10 ex_yuv [(Slice 0 0 50, 5); (Slice 1 0 15, 3); (Slice 1 15 10, 2)])
    [(Slice 0 0 50, 5); (Slice 1 0 15, 3); (Slice 1 15 10, 2)].
Proof. split; [reflexivity|]. split; [reflexivity|split; [repeat constructor; cbn; unfold usize; cbn; lia|reflexivity]]. Qed.

(** * C41 *)

Lemma band_stores : forall lm b m src sps dst dps hs k pr,
  ready src sps -> ready dst dps -> strides_444 (im_format src) sps -> im_width src = im_width dst -> im_height src = im_height dst ->
  im_width src mod 2 = 0 -> 0 < im_width src -> planes_disjoint (snd (snd pr)) ->
  band_pair src sps dst dps hs k pr ->
  forall buf i, times (fst (convert_band lm b m src dst pr)) buf i <> 0 ->
    sample_byte (im_format dst) (snd (snd pr)) (im_width dst) (fst (snd pr)) buf i.
Proof.
  intros lm b m src sps dst dps hs k pr RS RD ST EW EH MW W0 PDk Q buf i T.
  rewrite (convert_band_is lm b m src sps dst dps hs k pr RS RD EW EH W0 Q) in T.
  destruct Q as (hk & sb & db & -> & NH & P & V & EV & LE & BS & BD). cbn [fst snd] in *.
  pose proof (band_ready src sps hk _ sb RS EV LE BS) as RSb. rewrite EH in LE. pose proof (band_ready dst dps hk _ db RD EV LE BD) as RDb.
  set (s := band_image src (im_width src) hk sb) in *. set (d := band_image dst (im_width dst) hk db) in *.
  assert (WS : forall ps, im_planes s = Ok ps -> wf_planes ps /\ strides_444 (im_format s) ps).
  { intros ps E. injection E as <-. split; [apply RSb|].
    intros S4 p q a c Hp Hq Na Nc. destruct BS as [LB IB]. specialize (ST S4).
    destruct RS as (_ & _ & [LS FS]).
    assert (N3 : n_planes (im_format src) = 3) by (revert S4; cbn [s band_image im_format]; destruct (im_format src); cbn; discriminate || reflexivity).
    unfold plane in *. rewrite N3 in *.
    destruct (some_nth _ sps p ltac:(lia)) as (pa & Pa). destruct (some_nth _ sps q ltac:(lia)) as (pc & Pc).
    rewrite (IB p pa ltac:(lia) Pa) in Na. rewrite (IB q pc ltac:(lia) Pc) in Nc. injection Na as <-. injection Nc as <-.
    cbn [plane_band snd]. apply (ST p q pa pc Hp Hq Pa Pc). }
  assert (WD : forall ps, im_planes d = Ok ps -> wf_planes ps) by (intros ps E; injection E as <-; apply RDb).
  destruct (convert_result_ok lm b m s d WS WD) as (_ & CF & CC).
  assert (D : convert_result s d = Ok tt \/ convert_result s d <> Ok tt)
    by (destruct (convert_result s d) as [[]| | |]; auto; right; discriminate).
  destruct D as [D|D]; [|rewrite (CF D) in T; destruct (T eq_refl)].
  destruct (CC D) as (s' & d' & CV).
  assert (d' = db) as -> by (destruct (cv_dst _ _ _ _ CV) as (E1 & _); injection E1 as ->; reflexivity).
  destruct (convert_bytes lm b m s s' d db CV PDk) as (evs & E & INS & _). rewrite E in T. exact (INS buf i T).
Qed.

(** No data race: a byte stored by one thread is not stored by another one,
    whatever the threads read from memory ([m], [m']); and no thread stores to
    a byte of a source sample, the only memory the others read (C47). *)
Theorem C41_no_data_race : forall lm b m m' src sps dst dps threads bands j k pj pk,
  valid_image src sps -> valid_image dst dps -> strides_444 (im_format src) sps -> planes_disjoint dps ->
  verify_input_windows src dst = Ok tt -> 0 < im_width src -> 0 < im_height src -> 0 < threads ->
  band_pairs src dst threads = Ok bands ->
  nth_error bands j = Some pj -> nth_error bands k = Some pk ->
  (j <> k -> forall buf i, times (fst (convert_band lm b m src dst pj)) buf i <> 0 ->
     times (fst (convert_band lm b m' src dst pk)) buf i = 0) /\
  (no_alias (im_format src) sps (im_width src) (im_height src) dps ->
   forall buf i, sample_byte (im_format src) sps (im_width src) (im_height src) buf i ->
     times (fst (convert_band lm b m src dst pj)) buf i = 0).
Proof.
  intros lm b m m' src sps dst dps threads bands j k pj pk VS VD ST PD V W0 H0 T0 EB NJ NK.
  pose proof (valid_ready _ _ VS) as RS. pose proof (valid_ready _ _ VD) as RD.
  destruct (verify_inv _ _ V) as (EW & EH & MW & MH).
  destruct (band_pairs_spec src sps dst dps threads RS RD EW EH MH H0 W0 T0)
    as (sb & db & hs & EB' & HS & HD & TOT & LEN & PS & PDs & BP).
  rewrite EB in EB'. injection EB' as ->.
  pose proof (BP j pj NJ) as QJ. pose proof (BP k pk NK) as QK.
  assert (F : planes_fit (im_format dst) dps (im_width dst) (im_height src)) by (rewrite EH; apply RD).
  assert (DB : forall n pr, nth_error (combine sb db) n = Some pr -> nth_error db n = Some (snd pr)).
  { intros n pr N. apply nth_error_combine2 in N. tauto. }
  assert (PJ : planes_disjoint (snd (snd pj)))
    by (apply DB in NJ; destruct pj as [? [h1 b1]]; eapply band_disjoint_planes; eauto; eapply planes_rows_fit; eauto).
  assert (PK : planes_disjoint (snd (snd pk)))
    by (apply DB in NK; destruct pk as [? [h1 b1]]; eapply band_disjoint_planes; eauto; eapply planes_rows_fit; eauto).
  pose proof (band_stores lm b m src sps dst dps hs j pj RS RD ST EW EH MW W0 PJ QJ) as SJ.
  pose proof (band_stores lm b m' src sps dst dps hs k pk RS RD ST EW EH MW W0 PK QK) as SK.
  apply DB in NJ. apply DB in NK. destruct pj as [sj [hj bj]], pk as [sk [hk bk]]. cbn [fst snd] in *.
  pose proof PDs as (TD & EVD & _ & BD).
  split.
  - intros NE buf i TJ. destruct (Nat.eq_dec (times (fst (convert_band lm b m' src dst (sk, (hk, bk)))) buf i) 0) as [|TK]; [assumption|exfalso].
    assert (FJ : planes_fit (im_format dst) bj (im_width dst) hj) by (eapply band_fits; [exact F|eapply BD; exact NJ]).
    assert (FK : planes_fit (im_format dst) bk (im_width dst) hk) by (eapply band_fits; [exact F|eapply BD; exact NK]).
    destruct (sample_byte_slice _ _ _ _ _ _ FJ (SJ buf i TJ)) as (p & a & _ & NA & I1 & I2).
    destruct (sample_byte_slice _ _ _ _ _ _ FK (SK buf i TK)) as (q & c & _ & NC & I3 & I4).
    pose proof (bands_disjoint _ dps _ db j k hj hk bj bk p q a c PDs (planes_rows_fit _ _ _ _ F) PD NJ NK (or_introl NE) NA NC i) as D.
    apply D. split; [congruence|]. split; assumption.
  - intros NA buf i SB. destruct (Nat.eq_dec (times (fst (convert_band lm b m src dst (sj, (hj, bj)))) buf i) 0) as [|TJ]; [assumption|exfalso].
    apply (NA buf i SB).
    assert (SD : sample_byte (im_format dst) dps (im_width dst) (im_height src) buf i).
    { eapply (band_sample _ dps _ _ (band_start (map fst db) j) hj bj); eauto.
      - apply band_start_even. intros h I. apply (EVD h I).
      - assert (X : nth_error (map fst db) j = Some hj) by (rewrite nth_error_map, NJ; reflexivity).
        pose proof (total_split _ _ _ X). unfold band_start. lia. }
    destruct (sample_byte_slice _ _ _ _ _ _ F SD) as (p & pl & _ & N & IS). exists pl. split; [eapply nth_error_In; eauto|exact IS].
Qed.
Print Assumptions C41_no_data_race.

Example C41_example : exists bands pj pk, band_pairs mt_src mt_dst 2 = Ok bands /\
  verify_input_windows mt_src mt_dst = Ok tt /\
  nth_error bands 0 = Some pj /\ nth_error bands 1 = Some pk /\
  times (fst (convert_band ex_lm AVX2 ex_mem mt_src mt_dst pj)) 1 3 = 1 /\
  times (fst (convert_band ex_lm AVX2 ex_mem mt_src mt_dst pk)) 1 3 = 0 /\
  times (fst (convert_band ex_lm AVX2 ex_mem mt_src mt_dst pj)) 1 23 = 0 /\
  times (fst (convert_band ex_lm AVX2 ex_mem mt_src mt_dst pk)) 1 23 = 1.
Proof. eexists _, _, _. split; [vm_compute; reflexivity|]. repeat split; vm_compute; reflexivity. Qed.

(** * C42 *)

(** Where it holds: for non-empty images accepted by bounds_check no run
    panics. *)
Theorem C42_no_panic_partial : forall lm b threads m src sps dst dps o,
  valid_image src sps -> valid_image dst dps ->
  strides_444 (im_format src) sps -> planes_disjoint dps ->
  0 < im_width src -> 0 < im_height src ->                               (* missing: see C42_panics *)
  0 < threads -> convert_multi_thread lm b threads m src dst o ->
  snd o = Ok tt \/ exists e, snd o = Err e.
Proof.
  intros lm b threads m src sps dst dps o VS VD ST PD W0 H0 T0 R.
  destruct (C39_multi_thread_equals_convert lm b threads m src sps dst dps o VS VD ST PD W0 H0 T0 R) as (-> & _).
  apply (C15_memory_safe_partial lm b m src sps dst dps VS VD ST).
Qed.
Print Assumptions C42_no_panic_partial.

(** Everywhere else it panics: with more than one CPU, for images of equal even
    size that differ in format or color, every run panics without a store if
    a dimension is zero or one of the images is not accepted by bounds_check. *)
Theorem C42_panics : forall lm b threads m src dst o, 1 < threads ->
  im_planes src <> UB -> im_planes dst <> UB ->
  (forall ps, im_planes src = Ok ps -> wf_planes ps) -> (forall ps, im_planes dst = Ok ps -> wf_planes ps) ->
  verify_input_windows src dst = Ok tt -> same_image_kind src dst = false ->
  (im_width src = 0 \/ im_height src = 0 \/ image_bounds_check src <> Ok tt \/ image_bounds_check dst <> Ok tt) ->
  convert_multi_thread lm b threads m src dst o ->
  fst o = [] /\ exists p, snd o = Panic p.
Proof.
  intros lm b threads m src dst o T US UD WS WD V K BAD R. unfold convert_multi_thread in R.
  fold (same_image_kind src dst) in R. rewrite V, K in R. rewrite (proj2 (Nat.eqb_neq threads 1)) in R by lia.
  destruct (verify_inv _ _ V) as (EW & EH & MW & MH).
  pose proof (band_pairs_panic lm b m src dst threads T US UD WS WD EW EH MH BAD) as BP.
  destruct (band_pairs src dst threads) as [bands|e|p|]; try (destruct BP; fail); [|subst o; split; [reflexivity|eexists; reflexivity]].
  destruct BP as (NE & BP).
  assert (ALL : forall c, In c (map (convert_band lm b m src dst) bands) -> exists p, c = ([], Panic p)).
  { intros c I. apply in_map_iff in I as (pr & <- & I). destruct (BP pr I) as (p & ->). eauto. }
  destruct R as (ts & IL & [(-> & AO & _)|(FP & c & IC & NO & SO)]).
  - exfalso. destruct bands as [|pr l]; [congruence|]. cbn [map] in AO, ALL. inversion AO as [|? ? X _]; subst.
    destruct (ALL _ (or_introl eq_refl)) as (p & E). rewrite E in X. discriminate X.
  - destruct (ALL c IC) as (p & ->). split; [|exists p; exact SO].
    apply (interleaving_nil ts (fst o) IL).
    assert (MN : forall t, In t (map fst (map (convert_band lm b m src dst) bands)) -> t = []).
    { intros t I. apply in_map_iff in I as (x & <- & I). destruct (ALL x I) as (q & ->). reflexivity. }
    clear - FP MN. induction FP as [|t c ts cs P F IH]; constructor.
    + rewrite (MN c (or_introl eq_refl)) in P. symmetry. apply prefix_nil, P.
    + apply IH. intros t' I. apply MN. right. exact I.
Qed.
Print Assumptions C42_panics.

(** The three ways in which the claim is false, while convert returns Ok
    twice and an error once: zero height (division by zero), zero width (unwrap
    of an error) and a plane that is too short (split_at). *)
Definition empty_h_src : image := ex_image RGB 4 0 ex_rgb [(Slice 0 0 0, 12)].
Definition empty_h_dst : image := ex_image RGBA 4 0 ex_rgb [(Slice 1 0 0, 16)].
Definition empty_w_src : image := ex_image RGB 0 2 ex_rgb [(Slice 0 0 0, 0)].
Definition empty_w_dst : image := ex_image RGBA 0 2 ex_rgb [(Slice 1 0 0, 0)].
Definition short_src : image := ex_image RGB 4 4 ex_rgb [(Slice 0 0 47, 12)].
Definition short_dst : image := ex_image RGBA 4 4 ex_rgb [(Slice 1 0 64, 16)].

Theorem C42_refuted : forall lm b m o,
  (convert_multi_thread lm b 2 m empty_h_src empty_h_dst o ->
     snd (convert lm b m empty_h_src empty_h_dst) = Ok tt /\ snd o = Panic PDivZero) /\
  (convert_multi_thread lm b 2 m empty_w_src empty_w_dst o ->
     snd (convert lm b m empty_w_src empty_w_dst) = Ok tt /\ snd o = Panic PUnwrap) /\
  (convert_multi_thread lm b 2 m short_src short_dst o ->
     snd (convert lm b m short_src short_dst) = Err (CBoundsCheck (InvalidPlaneSize 0 48 47)) /\ snd o = Panic PSplitAt).
Proof.
  intros lm b m o. split; [|split]; intros R.
  - split; [destruct b; reflexivity|]. unfold convert_multi_thread in R.
    change (verify_input_windows empty_h_src empty_h_dst) with (@Ok convert_error unit tt) in R.
    change (pixel_format_eqb (im_format empty_h_src) (im_format empty_h_dst) && color_info_eqb (im_color empty_h_src) (im_color empty_h_dst)) with false in R.
    change (2 =? 1) with false in R.
    replace (band_pairs empty_h_src empty_h_dst 2) with (@Panic convert_error (list ((nat * list (slice * nat)) * (nat * list (slice * nat)))) PDivZero) in R by reflexivity.
    subst o. reflexivity.
  - split; [destruct b; reflexivity|]. unfold convert_multi_thread in R.
    change (verify_input_windows empty_w_src empty_w_dst) with (@Ok convert_error unit tt) in R.
    change (pixel_format_eqb (im_format empty_w_src) (im_format empty_w_dst) && color_info_eqb (im_color empty_w_src) (im_color empty_w_dst)) with false in R.
    change (2 =? 1) with false in R.
    change (band_pairs empty_w_src empty_w_dst 2) with (@Ok convert_error _ [((2, [(Slice 0 0 0, 0)]), (2, [(Slice 1 0 0, 0)]))]) in R.
    cbn [map] in R.
    change (convert_band lm b m empty_w_src empty_w_dst ((2, [(Slice 0 0 0, 0)]), (2, [(Slice 1 0 0, 0)]))) with
      (@nil wev, @Panic convert_error unit PUnwrap) in R.
    destruct R as (ts & _ & [(_ & A & _)|(_ & c & [<-|[]] & _ & E)]); [inversion A; discriminate|exact E].
  - split; [destruct b; reflexivity|]. unfold convert_multi_thread in R.
    change (verify_input_windows short_src short_dst) with (@Ok convert_error unit tt) in R.
    change (pixel_format_eqb (im_format short_src) (im_format short_dst) && color_info_eqb (im_color short_src) (im_color short_dst)) with false in R.
    change (2 =? 1) with false in R. 
    replace (band_pairs short_src short_dst 2) with (@Panic convert_error (list ((nat * list (slice * nat)) * (nat * list (slice * nat)))) PSplitAt) in R by reflexivity.
    subst o. reflexivity.
Qed.
Print Assumptions C42_refuted.

(** The hypotheses of [C42_panics] hold for these *)
Example C42_example :
  verify_input_windows empty_h_src empty_h_dst = Ok tt /\ same_image_kind empty_h_src empty_h_dst = false /\
  verify_input_windows short_src short_dst = Ok tt /\ image_bounds_check short_src <> Ok tt.
Proof. repeat split; reflexivity || (vm_compute; discriminate). Qed.

(** * C47 *)

(** The stores and the outcome of convert depend on nothing in memory but the
    samples of the source: not on row padding, not on what the destination
    contained, not on other buffers. *)
Theorem C47_depends_on_source_samples : forall lm b m m' src dst,
  (forall ps, im_planes src = Ok ps -> wf_planes ps /\ strides_444 (im_format src) ps) ->
  (forall ps, im_planes dst = Ok ps -> wf_planes ps) ->
  (forall ps, im_planes src = Ok ps -> same_samples (im_format src) ps (im_width src) (im_height src) m m') ->
  convert lm b m src dst = convert lm b m' src dst.
Proof. exact convert_depends. Qed.
Print Assumptions C47_depends_on_source_samples.

(** Consequence for the destination: wherever both memories agree on the
    source samples, the destination samples come out the same. *)
Theorem C47_destination_overwritten : forall lm b m m' src sps dst dps,
  valid_image src sps -> valid_image dst dps -> strides_444 (im_format src) sps -> planes_disjoint dps ->
  same_samples (im_format src) sps (im_width src) (im_height src) m m' ->
  snd (convert lm b m src dst) = Ok tt ->
  same_samples (im_format dst) dps (im_width dst) (im_height dst)
    (apply_all m (fst (convert lm b m src dst))) (apply_all m' (fst (convert lm b m' src dst))).
Proof.
  intros lm b m m' src sps dst dps VS VD ST PD SS OK.
  assert (WS : forall ps, im_planes src = Ok ps -> wf_planes ps /\ strides_444 (im_format src) ps).
  { intros ps E. destruct VS as (E' & W & _). rewrite E in E'. injection E' as ->. auto. }
  assert (WD : forall ps, im_planes dst = Ok ps -> wf_planes ps).
  { intros ps E. destruct VD as (E' & W & _). rewrite E in E'. injection E' as ->. auto. }
  rewrite <- (C47_depends_on_source_samples lm b m m' src dst WS WD)
    by (intros ps E; destruct VS as (E' & _); rewrite E in E'; injection E' as ->; exact SS).
  destruct (convert_result_ok lm b m src dst WS WD) as (CR & _ & CC). rewrite OK in CR. symmetry in CR.
  destruct (CC CR) as (sps' & dps' & CV).
  assert (dps' = dps) as -> by (destruct (cv_dst _ _ _ _ CV) as (E1 & _); destruct VD as (E2 & _); rewrite E2 in E1; injection E1 as ->; reflexivity).
  destruct (convert_bytes lm b m src sps' dst dps CV PD) as (evs & E & _ & B). rewrite E. cbn [fst].
  intros bb i (p & pl & r & c & Hp & N & Hr & Hc & -> & Hi).
  set (o := s_off (fst pl) + (r * snd pl + c * sample_bytes (im_format dst))) in *.
  assert (EQ : i = o + (i - o)) by lia.
  assert (Hj : i - o < sample_bytes (im_format dst)) by lia.
  rewrite EQ. unfold o at 1 3.
  destruct (B m p pl r c (i - o) Hp N Hr Hc Hj) as (_ & ->). destruct (B m' p pl r c (i - o) Hp N Hr Hc Hj) as (_ & ->). reflexivity.
Qed.
Print Assumptions C47_destination_overwritten.

(** When memory is read does not matter either: a convert that computes every
    store from the memory at that moment, its own earlier stores included,
    performs the same stores. *)
Theorem C47_time_of_reading : forall lm b m src sps dst dps evs ks,
  valid_image src sps -> valid_image dst dps -> strides_444 (im_format src) sps -> planes_disjoint dps ->
  no_alias (im_format src) sps (im_width src) (im_height src) dps ->
  snd (convert lm b m src dst) = Ok tt ->
  let run := fun m => fst (convert lm b m src dst) in
  live [run] m [0] evs ks -> finished [run] (apply_all m evs) ks -> evs = fst (convert lm b m src dst).
Proof.
  intros lm b m src sps dst dps evs ks VS VD ST PD NA OK run L F.
  assert (WS : forall ps, im_planes src = Ok ps -> wf_planes ps /\ strides_444 (im_format src) ps).
  { intros ps E. destruct VS as (E' & W & _). rewrite E in E'. injection E' as ->. auto. }
  assert (WD : forall ps, im_planes dst = Ok ps -> wf_planes ps).
  { intros ps E. destruct VD as (E' & W & _). rewrite E in E'. injection E' as ->. auto. }
  destruct (convert_result_ok lm b m src dst WS WD) as (CR & _ & CC). rewrite OK in CR. symmetry in CR.
  destruct (CC CR) as (sps' & dps' & CV).
  assert (sps' = sps) as -> by (destruct (cv_src _ _ _ _ CV) as (E1 & _); destruct VS as (E2 & _); rewrite E2 in E1; injection E1 as ->; reflexivity).
  assert (dps' = dps) as -> by (destruct (cv_dst _ _ _ _ CV) as (E1 & _); destruct VD as (E2 & _); rewrite E2 in E1; injection E1 as ->; reflexivity).
  eapply convert_live; eauto.
Qed.
Print Assumptions C47_time_of_reading.

(** Byte 13 of the example source is padding; changing it changes nothing.
    Byte 3 is a sample, and changing it changes the result. *)
Example C47_example :
  let m' k := fun b i => if (b =? 0) && (i =? k) then 255%Z else ex_mem b i in
  same_samples RGB ex_src_planes 4 2 ex_mem (m' 13) /\
  ex_mem 0 13 <> m' 13 0 13 /\
  fst (convert ex_lm AVX2 ex_mem ex_src ex_dst) <> fst (convert ex_lm AVX2 (m' 3) ex_src ex_dst) /\
  no_alias RGB ex_src_planes 4 2 ex_dst_planes.
Proof.
  split; [|split; [|split]].
  - intros b i (p & pl & r & c & Hp & N & Hr & Hc & -> & Hi). cbn in Hp. destruct p; [|lia]. cbn in N. injection N as <-. cbn in Hr, Hc, Hi |- *.
    destruct (Nat.eqb_spec i 13) as [->|]; [|reflexivity]. exfalso. destruct r as [|[|r]]; lia.
  - vm_compute. discriminate.
  - vm_compute. discriminate.
  - intros b i (p & pl & r & c & Hp & N & _ & _ & -> & _) (ql & [<-|[<-|[<-|[]]]] & [E _]); cbn in Hp; destruct p; [|lia| |lia| |lia];
      cbn in N; injection N as <-; cbn in E; discriminate E.
Qed.
