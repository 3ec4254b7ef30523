(** Runs of [convert_multi_thread]. *)

From Coq Require Import Arith Bool List ZArith Lia.
From Verif Require Import Base Types Planes ImageM F32 Vector Simd Formats Visit Convert MultiThread
  SpecGeom SpecVector SpecColor SpecConvert SpecRun SpecThreads SpecExec GeomProofs GeomProofs2 GeomProofs3
  VisitProofs ConvertProofs SplitProofs BandProofs ExecProofs.
Import ListNotations.

Lemma convert_same_branch : forall lm b m src dst, verify_input_windows src dst = Ok tt ->
  same_image_kind src dst = true -> convert lm b m src dst = convert_same_color_and_pixel_format lm b m src dst.
Proof.
  intros lm b m src dst V K. unfold convert. rewrite V. unfold same_image_kind in K. rewrite K. reflexivity.
Qed.

Lemma convert_verify : forall lm b m src dst, verify_input_windows src dst <> Ok tt ->
  convert lm b m src dst = ([], verify_input_windows src dst).
Proof. intros lm b m src dst V. unfold convert. destruct (verify_input_windows src dst) as [[]| | |]; [congruence|reflexivity..]. Qed.

Lemma verify_inv : forall src dst, verify_input_windows src dst = Ok tt ->
  im_width src = im_width dst /\ im_height src = im_height dst /\ im_width src mod 2 = 0 /\ im_height src mod 2 = 0.
Proof.
  intros src dst H. unfold verify_input_windows in H.
  destruct (Nat.eqb_spec (im_width src) (im_width dst)); [|discriminate H].
  destruct (Nat.eqb_spec (im_height src) (im_height dst)); [|discriminate H]. cbn [negb orb] in H.
  pose proof (Nat.mod_upper_bound (im_width src) 2 ltac:(lia)). pose proof (Nat.mod_upper_bound (im_height src) 2 ltac:(lia)).
  destruct (Nat.eqb_spec (im_width src mod 2) 1); [discriminate H|].
  destruct (Nat.eqb_spec (im_height src mod 2) 1); [discriminate H|]. lia.
Qed.

Lemma verify_yes : forall src dst, im_width src = im_width dst -> im_height src = im_height dst ->
  im_width src mod 2 = 0 -> im_height src mod 2 = 0 -> verify_input_windows src dst = Ok tt.
Proof. intros src dst A B C D. unfold verify_input_windows. rewrite <- A, <- B, !Nat.eqb_refl, C, D. reflexivity. Qed.

Lemma odd_mod : forall n, n mod 2 = 0 -> Nat.odd n = false.
Proof.
  intros n H. rewrite <- Nat.negb_even. replace (Nat.even n) with true; [reflexivity|]. symmetry. apply Nat.even_spec.
  exists (n / 2). pose proof (Nat.div_mod n 2 ltac:(lia)). lia.
Qed.

Lemma result_of_verified : forall src sps dst dps, verify_input_windows src dst = Ok tt ->
  ready src sps -> ready dst dps -> same_image_kind src dst = false ->
  convert_result src dst =
    if color_fits (im_format src) (im_color src) && color_fits (im_format dst) (im_color dst) then Ok tt else Err InvalidColorInfo.
Proof.
  intros src sps dst dps V (E1 & W1 & F1) (E2 & W2 & F2) K. destruct (verify_inv _ _ V) as (A & B & C & D).
  unfold convert_result. rewrite A, B, !Nat.eqb_refl, <- A, <- B, (odd_mod _ C), (odd_mod _ D), K.
  rewrite (image_bounds_check_complete src sps E1 W1 F1), (image_bounds_check_complete dst dps E2 W2 F2). cbn [andb negb orb checked].
  destruct (_ && _); reflexivity.
Qed.

Lemma prefix_nil : forall a, prefix a [] -> a = [].
Proof. intros a (r & E). symmetry in E. apply app_eq_nil in E. tauto. Qed.

(** Non-empty images accepted by bounds_check: every run ends like convert and
    leaves the same memory. *)
Lemma multi_thread_equal : forall lm b threads m src sps dst dps o,
  ready src sps -> ready dst dps -> strides_444 (im_format src) sps -> planes_disjoint dps ->
  0 < im_width src -> 0 < im_height src -> 0 < threads ->
  convert_multi_thread lm b threads m src dst o ->
  snd o = snd (convert lm b m src dst) /\ same_memory (apply_all m (fst o)) (apply_all m (fst (convert lm b m src dst))).
Proof.
  intros lm b threads m src sps dst dps o RS RD ST PD W0 H0 T0 R. unfold convert_multi_thread in R.
  assert (REFL : forall x, same_memory x x) by (intros x ? ?; reflexivity).
  destruct (verify_input_windows src dst) as [[]| | |] eqn:V.
  2-4: rewrite convert_verify by (rewrite V; discriminate); subst o; rewrite V; split; [reflexivity|apply REFL].
  fold (same_image_kind src dst) in R. destruct (same_image_kind src dst) eqn:K.
  { rewrite (convert_same_branch _ _ _ _ _ V K). subst o. split; [reflexivity|apply REFL]. }
  destruct (Nat.eqb_spec threads 1) as [T|T]; [subst o; split; [reflexivity|apply REFL]|].
  destruct (verify_inv _ _ V) as (EW & EH & MW & MH).
  destruct (band_pairs_spec src sps dst dps threads RS RD EW EH MH H0 W0 T0)
    as (sb & db & hs & EB & HS & HD & TOT & LEN & PS & PDs & BP).
  rewrite EB in R.
  assert (WS : forall ps, im_planes src = Ok ps -> wf_planes ps /\ strides_444 (im_format src) ps).
  { intros ps E. destruct RS as (E' & W & _). rewrite E in E'. injection E' as ->. auto. }
  assert (WD : forall ps, im_planes dst = Ok ps -> wf_planes ps).
  { intros ps E. destruct RD as (E' & W & _). rewrite E in E'. injection E' as ->. auto. }
  destruct (convert_result_ok lm b m src dst WS WD) as (CR & CF & CC).
  pose proof (result_of_verified _ _ _ _ V RS RD K) as RV.
  destruct (color_fits (im_format src) (im_color src) && color_fits (im_format dst) (im_color dst)) eqn:CO.
  - (* conversion *)
    destruct (CC RV) as (sps' & dps' & CV).
    assert (sps' = sps) as -> by (destruct (cv_src _ _ _ _ CV) as (E1 & _); destruct RS as (E2 & _); rewrite E2 in E1; injection E1 as ->; reflexivity).
    assert (dps' = dps) as -> by (destruct (cv_dst _ _ _ _ CV) as (E1 & _); destruct RD as (E2 & _); rewrite E2 in E1; injection E1 as ->; reflexivity).
    destruct (convert lm b m src dst) as [evs0 r0] eqn:EC. cbn [fst snd] in *. rewrite RV in CR. subst r0.
    destruct R as (ts & IL & [(-> & AO & SO)|(_ & c & IC & NO & _)]).
    + destruct (bands_memory lm b m src sps dst dps sb db hs evs0 CV PD EC HS HD TOT PDs BP
                  (map fst (map (convert_band lm b m src dst) (combine sb db))) (fst o) W0) as (_ & SM).
      split; [exact SO|]. exact (SM eq_refl IL).
    + exfalso. destruct (bands_memory lm b m src sps dst dps sb db hs evs0 CV PD EC HS HD TOT PDs BP [] [] W0) as (AO & _).
      rewrite Forall_forall in AO. exact (NO (AO c IC)).
  - (* wrong color information *)
    assert (CE : convert lm b m src dst = ([], Err InvalidColorInfo)).
    { destruct (convert lm b m src dst) as [evs r]. cbn [fst snd] in *. rewrite CF by (rewrite RV; discriminate). rewrite CR, RV. reflexivity. }
    rewrite CE. cbn [fst snd].
    assert (ALL : forall c, In c (map (convert_band lm b m src dst) (combine sb db)) -> c = ([], Err InvalidColorInfo)).
    { intros c I. apply in_map_iff in I as (pr & <- & I). apply In_nth_error in I as (k & N). pose proof (BP k pr N) as BPk.
      rewrite (convert_band_is lm b m src sps dst dps hs k pr RS RD EW EH W0 BPk).
      destruct BPk as (hk & sbk & dbk & -> & NH & HP & HE & BE & BL & IS & ID). cbn [fst snd].
      pose proof (band_ready src sps hk _ sbk RS BE BL IS) as RSb.
      rewrite EH in BL. pose proof (band_ready dst dps hk _ dbk RD BE BL ID) as RDb.
      destruct (convert_fails lm b m (band_image src (im_width src) hk sbk) (band_image dst (im_width dst) hk dbk)) as (F & _).
      - intros ps E. destruct RSb as (E' & W & _). rewrite E in E'. injection E' as ->. exact W.
      - intros ps E. destruct RDb as (E' & W & _). rewrite E in E'. injection E' as ->. exact W.
      - assert (RVb : convert_result (band_image src (im_width src) hk sbk) (band_image dst (im_width dst) hk dbk) = Err InvalidColorInfo).
        { erewrite result_of_verified; [cbn [band_image im_format im_color]; rewrite CO; reflexivity| |exact RSb|exact RDb|exact K].
          apply verify_yes; assumption || reflexivity. }
        rewrite F, RVb by (rewrite RVb; discriminate). reflexivity. }
    destruct R as (ts & IL & [(-> & AO & _)|(FP & c & IC & NO & SO)]).
    + exfalso. assert (NE : combine sb db <> []).
      { intros Z. assert (L : length (combine sb db) = 0) by (rewrite Z; reflexivity). rewrite combine_length in L.
        assert (length sb = length hs) by (rewrite <- HS, map_length; reflexivity).
        assert (length db = length hs) by (rewrite <- HD, map_length; reflexivity).
        pose proof (Nat.div_mod (im_height src) 2 ltac:(lia)). lia. }
      destruct (combine sb db) as [|pr l]; [congruence|]. cbn [map] in AO, ALL. inversion AO as [|? ? X _]; subst.
      rewrite (ALL _ (or_introl eq_refl)) in X. discriminate X.
    + split; [rewrite SO, (ALL c IC); reflexivity|].
      rewrite (interleaving_nil ts (fst o) IL); [apply REFL|].
      assert (MN : forall t, In t (map fst (map (convert_band lm b m src dst) (combine sb db))) -> t = []).
      { intros t I. apply in_map_iff in I as (x & <- & I). rewrite (ALL x I). reflexivity. }
      clear - FP MN. induction FP as [|t c ts cs P F IH]; constructor.
      * rewrite (MN c (or_introl eq_refl)) in P. symmetry. apply prefix_nil, P.
      * apply IH. intros t' I. apply MN. right. exact I.
Qed.

(** * Runs that panic *)

Lemma from_planes_unwrap : forall f band w h c,
  match unwrap (E2 := convert_error) (from_planes f (map fst band) (Some (map snd band)) w h c) with
  | Ok _ => w <> 0 /\ planes_fit f band w h
  | Panic _ => True
  | _ => False
  end.
Proof.
  intros f band w h c. destruct (from_planes f (map fst band) (Some (map snd band)) w h c) as [oi|e|p|] eqn:E; cbn; auto.
  - destruct (image_new_ok_inv _ _ _ _ _ _ _ E) as (NW & _ & (st & E1 & ->) & B). split; [exact NW|].
    injection E1 as <-. destruct (image_bounds_check_inv _ B) as (ps & E2 & F). cbn in E2, F.
    rewrite combine_split_list in E2. injection E2 as <-. exact F.
  - unfold from_planes, image_new in E. destruct (_ || _); [discriminate E|]. cbn [bind] in E.
    unfold map_err, image_bounds_check in E. cbn [image_of im_planes owned_planes oi_buffer lift bind] in E.
    pose proof (bounds_check_shape f (combine (map fst band) (map snd band)) w h) as S.
    cbn [image_of im_format im_width im_height oi_format oi_width oi_height oi_strides] in E.
    destruct (bounds_check f (combine (map fst band) (map snd band)) w h); cbn [bind] in E; discriminate E || exact S.
Qed.

Lemma shape_fits : forall f ps w h hk band,
  length band = Nat.min (n_planes f) (length ps) ->
  (forall p pl a, nth_error ps p = Some pl -> nth_error band p = Some a -> snd a = snd pl) ->
  (forall p pl, p < n_planes f -> nth_error ps p = Some pl -> snd pl * plane_rows f p h <= s_len (fst pl)) ->
  planes_fit f band w hk -> planes_fit f ps w h.
Proof.
  intros f ps w h hk band L ST R [LB F]. unfold plane in *. split; [lia|]. intros p pl Hp N.
  destruct (some_nth _ band p ltac:(lia)) as (a & NA). specialize (F p a Hp NA) as [F1 F2].
  rewrite (ST p pl a N NA) in F1. split; [exact F1|]. apply R; assumption.
Qed.

Lemma band_pairs_panic : forall lm b m src dst threads, 1 < threads ->
  im_planes src <> UB -> im_planes dst <> UB ->
  (forall ps, im_planes src = Ok ps -> wf_planes ps) -> (forall ps, im_planes dst = Ok ps -> wf_planes ps) ->
  im_width src = im_width dst -> im_height src = im_height dst -> im_height src mod 2 = 0 ->
  (im_width src = 0 \/ im_height src = 0 \/ image_bounds_check src <> Ok tt \/ image_bounds_check dst <> Ok tt) ->
  match band_pairs src dst threads with
  | Ok bands => bands <> [] /\ forall pr, In pr bands -> exists p, convert_band lm b m src dst pr = ([], Panic p)
  | Panic _ => True
  | _ => False
  end.
Proof.
  intros lm b m src dst threads T US UD WS WD EW EH MH BAD. unfold band_pairs.
  destruct (im_planes src) as [sps|[]|q|] eqn:ES; cbn [lift bind]; try (congruence || exact I).
  destruct (Nat.eq_dec (im_height src) 0) as [Z|NZ].
  { rewrite split_planes_zero by lia. exact I. }
  pose proof (split_planes_shape (im_format src) sps (im_height src) threads ltac:(lia) ltac:(lia) MH) as SS.
  destruct (split_planes (plane_descs (im_format src)) sps (im_height src) threads) as [sb|e|q|]; cbn [bind]; try (exact SS || exact I).
  destruct (im_planes dst) as [dps|[]|q|] eqn:ED; cbn [lift bind]; try (congruence || exact I).
  pose proof (split_planes_shape (im_format dst) dps (im_height src) threads ltac:(lia) ltac:(lia) MH) as DS.
  destruct (split_planes (plane_descs (im_format dst)) dps (im_height src) threads) as [db|e|q|]; cbn [bind]; try (exact DS || exact I).
  destruct SS as (NS & BS & RS & LS). destruct DS as (ND & BD & RD & LD).
  split. { intros Z. destruct sb as [|? ?]; [congruence|]. destruct db as [|? ?]; [congruence|]. discriminate Z. }
  intros [[hs sbk] [hd dbk]] I. cbn [convert_band].
  pose proof (in_combine_l _ _ _ _ I) as IS. pose proof (in_combine_r _ _ _ _ I) as ID.
  destruct (BS hs sbk IS) as (H1 & L1 & ST1). destruct (BD hd dbk ID) as (H2 & L2 & ST2).
  pose proof (from_planes_unwrap (im_format src) sbk (im_width src) hs (im_color src)) as U1.
  destruct (unwrap (from_planes (im_format src) (map fst sbk) (Some (map snd sbk)) (im_width src) hs (im_color src)))
    as [si|e|p|]; cbn [bind obind]; try (exfalso; exact U1).
  2: { exists p. reflexivity. }
  pose proof (from_planes_unwrap (im_format dst) dbk (im_width src) hs (im_color dst)) as U2.
  destruct (unwrap (from_planes (im_format dst) (map fst dbk) (Some (map snd dbk)) (im_width src) hs (im_color dst)))
    as [di|e|p|]; cbn [bind obind]; try (exfalso; exact U2).
  2: { exists p. reflexivity. }
  exfalso. destruct U1 as [NW F1]. destruct U2 as [_ F2]. destruct BAD as [Z|[Z|[Z|Z]]]; [congruence|congruence| |].
  - apply Z. apply (image_bounds_check_complete src sps ES (WS sps eq_refl)).
    exact (shape_fits _ _ _ _ _ _ L1 ST1 RS F1).
  - apply Z. apply (image_bounds_check_complete dst dps ED (WD dps eq_refl)). rewrite <- EW, <- EH.
    exact (shape_fits _ _ _ _ _ _ L2 ST2 RD F2).
Qed.

(** Every run has an end: the bands one after the other. *)
Lemma try_for_each_exists : forall cs, exists o, try_for_each cs o.
Proof.
  intros cs.
  assert (D : Forall (fun c => snd c = Ok tt) cs \/ exists c, In c cs /\ snd c <> Ok tt).
  { induction cs as [|c cs IH]; [left; constructor|].
    assert (DC : snd c = Ok tt \/ snd c <> Ok tt) by (destruct (snd c) as [[]| | |]; auto; right; discriminate).
    destruct DC as [DC|DC]; [|right; exists c; split; [left; reflexivity|exact DC]].
    destruct IH as [IH|(c' & I & N)]; [left; constructor; assumption|right; exists c'; split; [right; exact I|exact N]]. }
  destruct D as [D|(c & I & N)].
  - exists (concat (map fst cs), Ok tt), (map fst cs). split; [apply interleaving_concat|]. left. auto.
  - exists (concat (map fst cs), snd c), (map fst cs). split; [apply interleaving_concat|]. right. split.
    + clear. induction cs as [|a cs IH]; constructor; [exists []; rewrite app_nil_r; reflexivity|exact IH].
    + exists c. auto.
Qed.
