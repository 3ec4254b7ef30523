(** C45, C46: [Resizer::resize]. *)

From Coq Require Import Arith Bool List ZArith Lia.
From Verif Require Import Base Types Planes ImageM F32 Vector Simd Formats Visit Convert Copy MultiThread Resize
  SpecGeom SpecVector SpecColor SpecConvert SpecRun SpecThreads SpecExec SpecCopy SpecResize GeomProofs GeomProofs2 GeomProofs3
  ReadProofs WriteProofs VisitProofs ConvertProofs SplitProofs BandProofs ExecProofs ThreadProofs CopyProofs ResizeProofs
  PropConvert PropFidelity PropCopy.
Import ListNotations.

(** * C46 *)

Lemma plane_views_no_err : forall sw dw j e, plane_views sw dw j <> Err e.
Proof.
  intros sw dw [d [[s sst] [t tst]]] e H. unfold plane_views in H.
  assert (O : forall o n (e : resize_error), op_apply o n <> Err e).
  { intros [k|k|] n e' X; cbn in X; try discriminate X. destruct (strict_mul_cases resize_error n k) as [[Y _]|[Y _]]; rewrite Y in X; discriminate X. }
  destruct (op_apply (width_op d) sw) as [a| | |] eqn:E1; try discriminate H; [|exact (O _ _ _ E1)]. cbn [bind] in H.
  destruct (op_apply (width_op d) dw) as [a'| | |] eqn:E2; try discriminate H; [|exact (O _ _ _ E2)]. cbn [bind] in H.
  destruct (sst =? 0); [discriminate H|]. destruct (tst =? 0); discriminate H.
Qed.

Lemma resize_plane_no_err : forall F alg m sw dw t e, snd (snd (resize_plane F alg m sw dw t)) <> Err e.
Proof.
  intros F alg m sw dw [j st] e H. unfold resize_plane in H. destruct (plane_views sw dw j) as [[sv dv]|e0| |] eqn:E; try discriminate H.
  - destruct (fir_resize _ _ _ _ _ _) as [st' [evs [| | |]]]; discriminate H.
  - exact (plane_views_no_err _ _ _ _ E).
Qed.

(** The error is returned exactly for images of different formats, and names them. *)
Theorem C46_error_iff : forall F threads m (rz : resizer F) src dst rz' o, resize F threads m rz src dst rz' o ->
  forall e, snd o = Err e <-> im_format src <> im_format dst /\ e = DifferentFormats (im_format src) (im_format dst).
Proof.
  intros F threads m rz src dst rz' o R e. split.
  - intros H. destruct (pixel_format_eqb (im_format src) (im_format dst)) eqn:EF.
    + exfalso. destruct (im_planes src) as [sps|[]| |] eqn:ES;
        try (unfold resize in R; rewrite EF, ES in R; cbn in R; destruct R as [_ ->]; discriminate H).
      destruct (im_planes dst) as [dps|[]| |] eqn:ED;
        try (unfold resize in R; rewrite EF, ES, ED in R; cbn in R; destruct R as [_ ->]; discriminate H).
      apply pixel_format_eqb_eq in EF.
      destruct (resize_outcome F threads m rz src sps dst dps rz' o EF ES ED R) as (_ & B & _).
      destruct B as (c & I & _ & E); [rewrite H; discriminate|]. rewrite H in E.
      unfold runs_for in I. apply in_map_iff in I as (t & <- & _). exact (resize_plane_no_err _ _ _ _ _ _ _ (eq_sym E)).
    + unfold resize in R. rewrite EF in R. destruct R as [_ ->]. injection H as <-. split; [|reflexivity].
      intros X. apply pixel_format_eqb_eq in X. congruence.
  - intros [N ->]. unfold resize in R. destruct (pixel_format_eqb (im_format src) (im_format dst)) eqn:EF.
    + apply pixel_format_eqb_eq in EF. contradiction.
    + destruct R as [_ ->]. reflexivity.
Qed.
Print Assumptions C46_error_iff.

(** ... and then neither the resizer nor any byte is changed. *)
Theorem C46_error_untouched : forall F threads m (rz : resizer F) src dst rz' o e, resize F threads m rz src dst rz' o ->
  snd o = Err e -> rz' = rz /\ fst o = [].
Proof.
  intros F threads m rz src dst rz' o e R H. apply (C46_error_iff F threads m rz src dst rz' o R) in H as [N _].
  unfold resize in R. destruct (pixel_format_eqb (im_format src) (im_format dst)) eqn:EF.
  - apply pixel_format_eqb_eq in EF. contradiction.
  - destruct R as [-> ->]. auto.
Qed.
Print Assumptions C46_error_untouched.

(** A call always comes to an end. *)
Theorem C46_returns : forall F threads m (rz : resizer F) src dst, exists rz' o, resize F threads m rz src dst rz' o.
Proof. exact resize_total. Qed.
Print Assumptions C46_returns.

(** * C45 *)

Lemma nth_skipn_add : forall A n (l : list A) i d, nth i (skipn n l) d = nth (n + i) l d.
Proof. intros A n. induction n as [|n IH]; intros [|x l] i d; cbn; try reflexivity; [destruct i; reflexivity|apply IH]. Qed.

(** Every plane is handed to its own resampler, as a view of all its columns and
    rows; whatever has been done with the resizer before. *)
Theorem C45_planes_partial : forall F threads m (rz : resizer F) src sps dst dps rz' o,
  resizable src sps -> resizable dst dps -> im_format src = im_format dst -> resize F threads m rz src dst rz' o ->
  let runs := map (plane_run rz m src sps dst dps) (seq 0 (n_planes (im_format src))) in
  (snd o = Ok tt <-> Forall (fun r => snd (snd r) = Ok tt) runs) /\
  (snd o = Ok tt ->
     interleaving (map (fun r => fst (snd r)) runs) (fst o) /\
     rz_alg rz' = rz_alg rz /\
     forall p, state_of rz' p = if p <? n_planes (im_format src) then fst (plane_run rz m src sps dst dps p) else state_of rz p).
Proof.
  intros F threads m rz src sps dst dps rz' o RS RD EF R runs.
  destruct (resize_outcome F threads m rz src sps dst dps rz' o EF (proj1 (proj1 RS)) (proj1 (proj1 RD)) R) as (A & _ & _ & D).
  assert (ER : runs_for rz m src sps dst dps = map plane_outcome runs).
  { rewrite (runs_are F rz m src sps dst dps EF RS RD). unfold runs. rewrite map_map. reflexivity. }
  rewrite ER in A, D.
  assert (E1 : Forall (fun c => snd (snd c) = Ok tt) (map plane_outcome runs) <-> Forall (fun r => snd (snd r) = Ok tt) runs).
  { clearbody runs. clear. split; intros H; rewrite Forall_forall in *; intros [st [evs r]] I.
    - specialize (H (plane_outcome (st, (evs, r))) (in_map _ _ _ I)). cbn in H |- *. destruct r as [[]| | |]; try discriminate H; reflexivity.
    - apply in_map_iff in I as ([st' [evs' r']] & E & I). specialize (H _ I). cbn in H. subst r'. cbn in E. injection E as <- <- <-. reflexivity. }
  split; [rewrite A; exact E1|]. intros O. destruct (D O) as [IL ->]. split; [|split; [reflexivity|]].
  - rewrite map_map in IL. erewrite map_ext; [exact IL|]. intros [st [evs r]]. reflexivity.
  - intros p. unfold state_of. cbn [rz_fir]. rewrite map_length. unfold runs at 2. rewrite map_length, seq_length.
    assert (LR : length (map fst (map plane_outcome runs)) = n_planes (im_format src)) by (unfold runs; rewrite !map_length, seq_length; reflexivity).
    destruct (Nat.ltb_spec p (n_planes (im_format src))) as [L|L].
    + rewrite app_nth1 by lia. rewrite map_map. unfold runs. rewrite map_map.
      rewrite nth_map_seq by exact L. unfold plane_outcome. destruct (plane_run _ _ _ _ _ _ _) as [st [evs r]]. reflexivity.
    + rewrite app_nth2 by lia. rewrite LR.
      unfold states_for. rewrite nth_skipn_add. replace (n_planes (im_format src) + (p - n_planes (im_format src))) with p by lia.
      unfold resize_with. destruct (Nat.lt_ge_cases p (length (rz_fir rz))) as [L1|L1]; [apply app_nth1, L1|].
      rewrite app_nth2, nth_repeat by exact L1. symmetry. apply nth_overflow, L1.
Qed.
Print Assumptions C45_planes_partial.

(** The view of a plane: all columns and rows are reported, and row [r] of the
    view is row [r] of the samples of the plane. *)
Theorem C45_view_is_plane : forall E addr im ps p pl, resizable im ps -> words_aligned addr (im_format im) ps ->
  p < n_planes (im_format im) -> nth_error ps p = Some pl ->
  let v := view_of (im_format im) (im_width im) (im_height im) p pl in
  view_width v = Z.of_nat (plane_cols (im_format im) p (im_width im) / pixel_samples (im_format im) p) /\
  plane_cols (im_format im) p (im_width im) mod pixel_samples (im_format im) p = 0 /\
  view_height v = Z.of_nat (plane_rows (im_format im) p (im_height im)) /\
  @view_rows E v = Ok (plane_rows (im_format im) p (im_height im)) /\
  forall r, @view_row E addr v r =
    Ok (if r <? plane_rows (im_format im) p (im_height im)
        then Some (Slice (s_buf (fst pl)) (s_off (fst pl) + r * snd pl) (row_bytes (im_format im) p (im_width im)))
        else None).
Proof.
  intros E addr im ps p pl (V & Ew & L & P & H) AL Hp N v. destruct (valid_ready _ _ V) as (_ & W & _ & FT).
  destruct (H p pl Hp N) as (HR & HC & HH). pose proof (P p pl Hp N) as P0.
  destruct (desc_exists (im_format im) p Hp) as (d & D). destruct (desc_pixel _ _ _ D) as (K & G & S & G1).
  pose proof (pixels_all (im_format im) p (im_width im) Hp Ew) as PA.
  split; [|split; [|split; [|split]]].
  - unfold view_width, as_u32, v, view_of. cbn [ad_width]. apply Z.mod_small. split; [lia|].
    eapply Z.le_lt_trans; [|exact HC]. apply inj_le. apply Nat.div_le_upper_bound; nia.
  - pose proof (Nat.div_mod (plane_cols (im_format im) p (im_width im)) (pixel_samples (im_format im) p) ltac:(lia)). lia.
  - unfold view_height, as_u32, v, view_of. cbn [ad_height]. apply Z.mod_small. rewrite HR in HH. lia.
  - unfold view_rows, v, view_of, chunks_exact. cbn [ad_plane ad_stride]. rewrite (proj2 (Nat.eqb_neq _ _)) by lia. cbn [bind].
    rewrite map_length, seq_length. unfold whole_rows in HR. rewrite HR. reflexivity.
  - intros r. apply view_row_true; auto.
    + apply (wf_nth _ _ _ W N).
    + intros S2 q [<-|[]]. apply (AL S2). eapply nth_error_In, N.
Qed.
Print Assumptions C45_view_is_plane.

(** Any images, also such that bounds_check rejects: a view never hands out
    bytes outside of its plane, and its rows have the promised length and number
    (what the unsafe traits of the resampler require). *)
Theorem C45_view_contract : forall E addr F m alg sw dw d sp dp st sv dv,
  plane_views sw dw (d, (sp, dp)) = Ok (sv, dv) ->
  resize_plane F alg m sw dw ((d, (sp, dp)), st) = plane_outcome (fir_resize F st alg m sv dv) /\
  forall v pl, v = sv /\ pl = sp \/ v = dv /\ pl = dp ->
    @view_rows E v = Ok (ad_height v) /\ (view_width v <= Z.of_nat (ad_width v))%Z /\ (view_height v <= Z.of_nat (ad_height v))%Z /\
    forall r row, @view_row E addr v r = Ok (Some row) ->
      s_len row = ad_width v * pixel_size (ad_type v) /\
      forall i, in_slice row (s_buf row) i -> in_slice (fst pl) (s_buf row) i.
Proof.
  intros E addr F m alg sw dw d [s sst] [t tst] st sv dv H. split.
  - unfold resize_plane. rewrite H. destruct (fir_resize _ _ _ _ _ _) as [st' [evs r]]. reflexivity.
  - unfold plane_views in H. destruct (op_apply (width_op d) sw) as [a| | |]; try discriminate H. cbn [bind] in H.
    destruct (op_apply (width_op d) dw) as [c| | |]; try discriminate H. cbn [bind] in H.
    destruct (Nat.eqb_spec sst 0) as [|Z1]; [discriminate H|]. destruct (Nat.eqb_spec tst 0) as [|Z2]; [discriminate H|].
    cbn [bind] in H. injection H as <- <-.
    assert (U : forall n, (as_u32 n <= Z.of_nat n)%Z) by (intros n; unfold as_u32; apply Z.mod_le; lia).
    intros v pl V.
    assert (X : ad_stride v <> 0 /\ ad_height v = s_len (ad_plane v) / ad_stride v /\ ad_plane v = fst pl).
    { destruct V as [[-> ->]|[-> ->]]; cbn; auto. }
    destruct X as (X1 & X2 & X3). split; [|split; [apply U|split; [apply U|]]].
    + unfold view_rows, chunks_exact. rewrite (proj2 (Nat.eqb_neq _ _)) by exact X1. cbn [bind]. rewrite map_length, seq_length, X2. reflexivity.
    + intros r row R. destruct (view_row_inside _ _ _ _ _ R) as (B & O1 & O2 & LN & _). split; [exact LN|].
      intros i [I1 I2]. rewrite <- X3. split; [congruence|lia].
Qed.
Print Assumptions C45_view_contract.

(** The resampler of plane [p] has seen plane [p] of all images of all earlier
    calls, in order, and nothing else. *)
Theorem C45_history : forall F threads alg calls (rz : resizer F), used F threads alg calls rz ->
  (forall m src dst, In (m, src, dst) calls -> im_format src = im_format dst /\
     exists sps dps, resizable src sps /\ resizable dst dps /\
     forall st, Forall (fun p => forall sp dp, nth_error sps p = Some sp -> nth_error dps p = Some dp ->
       snd (snd (fir_resize F st alg m (view_of (im_format src) (im_width src) (im_height src) p sp)
                   (view_of (im_format dst) (im_width dst) (im_height dst) p dp))) = Ok tt) (seq 0 (n_planes (im_format src)))) ->
  rz_alg rz = alg /\ forall p, state_of rz p = seen F alg p calls.
Proof.
  intros F threads alg calls rz U. induction U as [|calls rz m src dst rz' o U IH R]; intros H.
  - split; [reflexivity|]. intros p. unfold state_of. cbn. destruct p; reflexivity.
  - destruct IH as [A S]; [intros; apply H; right; assumption|].
    destruct (H m src dst (or_introl eq_refl)) as (EF & sps & dps & RS & RD & OK).
    destruct (C45_planes_partial F threads m rz src sps dst dps rz' o RS RD EF R) as [C D].
    assert (O : snd o = Ok tt).
    { apply C. apply Forall_forall. intros r I. apply in_map_iff in I as (p & <- & I). unfold plane_run.
      destruct (nth_error sps p) as [sp|] eqn:NS; [|reflexivity]. destruct (nth_error dps p) as [dp|] eqn:ND; [|reflexivity].
      rewrite A. specialize (OK (state_of rz p)). rewrite Forall_forall in OK. apply (OK p I sp dp NS ND). }
    destruct (D O) as (_ & A' & S'). split; [congruence|]. intros p. rewrite S'. cbn [seen].
    rewrite (proj1 (proj1 RS)), (proj1 (proj1 RD)).
    assert (LS : length sps = n_planes (im_format src)) by apply RS.
    destruct (Nat.ltb_spec p (n_planes (im_format src))) as [L|L].
    + unfold plane_run. destruct (nth_error sps p) as [sp|] eqn:NS; [|apply nth_error_None in NS; lia].
      assert (LD : length dps = n_planes (im_format dst)) by apply RD. rewrite <- EF in LD.
      destruct (nth_error dps p) as [dp|] eqn:ND; [|apply nth_error_None in ND; lia]. rewrite A, S. reflexivity.
    + rewrite (proj2 (nth_error_None sps p)) by lia. apply S.
Qed.
Print Assumptions C45_history.

(** If the state of a resampler is only a cache, then a resizer that has been
    used does the same as a new one, for all images. *)
Theorem C45_history_independent : forall F threads alg calls (rz : resizer F) m src dst o,
  state_is_cache F -> used F threads alg calls rz ->
  ((exists rz', resize F threads m rz src dst rz' o) <-> (exists rz', resize F threads m (resizer_new alg) src dst rz' o)).
Proof.
  intros F threads alg calls rz m src dst o CA U.
  assert (A : rz_alg rz = alg).
  { induction U as [|calls rz m0 src0 dst0 rz' o0 U IH R]; [reflexivity|]. rewrite <- IH. unfold resize in R.
    destruct (negb _); [destruct R as [-> _]; reflexivity|].
    destruct (_ <- lift (im_planes src0) ;; _) as [[? ?]| | |]; [destruct R as (? & _ & ->); reflexivity|destruct R as [-> _]; reflexivity..]. }
  assert (G : forall r r' : resizer F, rz_alg r = rz_alg r' -> (exists rz', resize F threads m r src dst rz' o) ->
                exists rz', resize F threads m r' src dst rz' o); [|split; apply G; cbn; congruence].
  clear rz U A. intros r r' EA (rz' & R). unfold resize in R |- *.
  destruct (negb _); [destruct R as [_ ->]; eauto|].
  destruct (_ <- lift (im_planes src) ;; _) as [[sps dps]| | |]; [|destruct R as [_ ->]; eauto..].
  fold (states_for r sps) in R. fold (runs_for r m src sps dst dps) in R.
  fold (states_for r' sps). fold (runs_for r' m src sps dst dps).
  assert (ES : map snd (runs_for r m src sps dst dps) = map snd (runs_for r' m src sps dst dps)).
  { unfold runs_for. rewrite !map_map, EA. apply nth_error_ext. intros p.
    assert (LT : forall q : resizer F, length (map (fun x => snd (resize_plane F (rz_alg r') m (im_width src) (im_width dst) x))
                   (tasks_of F (im_format src) sps dps (states_for q sps)))
                 = Nat.min (n_planes (im_format src)) (Nat.min (length sps) (length dps))) by (intros; rewrite map_length; apply tasks_length).
    destruct (Nat.lt_ge_cases p (Nat.min (n_planes (im_format src)) (Nat.min (length sps) (length dps)))) as [L|L].
    - destruct (nth_error sps p) as [sp|] eqn:NS; [|apply nth_error_None in NS; lia].
      destruct (nth_error dps p) as [dp|] eqn:ND; [|apply nth_error_None in ND; lia].
      rewrite !nth_error_map.
      destruct (task_nth F (im_format src) sps dps r p sp dp ltac:(lia) NS ND) as (d & D & T).
      destruct (task_nth F (im_format src) sps dps r' p sp dp ltac:(lia) NS ND) as (d' & D' & T').
      rewrite D in D'. injection D' as <-. rewrite T, T'. cbn [option_map]. f_equal. unfold resize_plane.
      destruct (plane_views _ _ _) as [[sv dv]| | |]; try reflexivity.
      pose proof (CA (state_of r p) (state_of r' p) (rz_alg r') m sv dv) as X.
      destruct (fir_resize F (state_of r p) _ _ _ _) as [s1 o1], (fir_resize F (state_of r' p) _ _ _ _) as [s2 o2].
      cbn [snd] in X. subst o2. destruct o1. reflexivity.
    - rewrite (proj2 (nth_error_None _ _)), (proj2 (nth_error_None _ _)); [reflexivity|rewrite LT; exact L|rewrite LT; exact L]. }
  assert (EL : length (runs_for r m src sps dst dps) = length (runs_for r' m src sps dst dps))
    by (rewrite <- (map_length snd), ES, map_length; reflexivity).
  destruct R as (st & R & _). destruct threads.
  - destruct R as (IL & _ & C). eexists _, _. split; [|reflexivity]. unfold rayon_scope. split; [|split; [reflexivity|]].
    + assert (E2 : map (fun c => fst (snd c)) (runs_for r' m src sps dst dps) = map (fun c => fst (snd c)) (runs_for r m src sps dst dps)).
      { transitivity (map fst (map snd (runs_for r' m src sps dst dps))); [symmetry; apply map_map|rewrite <- ES; apply map_map]. }
      rewrite E2. exact IL.
    + destruct C as [[C O]|(c & I & N & O)].
      * left. split; [|exact O]. rewrite Forall_forall in C |- *. intros c I.
        assert (I' : In (snd c) (map snd (runs_for r' m src sps dst dps))) by (apply in_map, I). rewrite <- ES in I'.
        clear I. apply in_map_iff in I' as (c' & <- & I). apply (C c' I).
      * right. assert (I' : In (snd c) (map snd (runs_for r m src sps dst dps))) by (apply in_map, I). rewrite ES in I'.
        clear I. apply in_map_iff in I' as (c' & E & I). exists c'. rewrite E. auto.
  - pose proof (states_firstn F r m src sps dst dps) as L1. pose proof (states_firstn F r' m src sps dst dps) as L2.
    assert (X : forall runs runs' olds olds', map snd runs = map snd runs' -> length olds = length runs -> length olds' = length runs' ->
                  snd (stub_scope F runs olds) = snd (stub_scope F runs' olds')).
    { clear. intros runs. induction runs as [|[s1 [e1 r1]] runs IH]; intros [|[s2 [e2 r2]] runs'] olds olds' E L1 L2; try discriminate E.
      - destruct olds; [|discriminate L1]. destruct olds'; [|discriminate L2]. reflexivity.
      - destruct olds as [|x olds]; [discriminate L1|]. destruct olds' as [|x' olds']; [discriminate L2|].
        cbn [map snd] in E. injection E as E1 E2 E3. subst e2 r2. cbn [stub_scope].
        destruct r1 as [[]| | |]; try reflexivity.
        specialize (IH runs' olds olds' E3 ltac:(injection L1 as L1; exact L1) ltac:(injection L2 as L2; exact L2)).
        destruct (stub_scope F runs olds) as [a [b c]], (stub_scope F runs' olds') as [a' [b' c']]. cbn [snd] in *. injection IH as <- <-. reflexivity. }
    specialize (X _ _ _ _ ES L1 L2). rewrite R in X. cbn [snd] in X.
    destruct (stub_scope F (runs_for r' m src sps dst dps) (firstn (length (runs_for r' m src sps dst dps)) (states_for r' sps)))
      as [st' o'] eqn:E. cbn [snd] in X. subst o'. eexists _, st'. split; [reflexivity|reflexivity].
Qed.
Print Assumptions C45_history_independent.

(** * Effect on the memory *)

Lemma task_inv : forall F f sps dps (rz : resizer F) t, In t (tasks_of F f sps dps (states_for rz sps)) ->
  exists p d sp dp st, t = ((d, (sp, dp)), st) /\ p < n_planes f /\ nth_error (plane_descs f) p = Some d /\
    nth_error sps p = Some sp /\ nth_error dps p = Some dp.
Proof.
  intros F f sps dps rz [j st] I. apply In_nth_error in I as (p & N). unfold tasks_of in N.
  apply nth_error_combine2 in N as [N _]. cbn [fst] in N. destruct (jobs_nth f sps dps p j N) as (Hp & d & sp & dp & -> & D & NS & ND).
  exists p, d, sp, dp, st. auto.
Qed.

(** Stores of one closure, for a resampler that keeps to the rows it is given *)
Lemma plane_stores : forall F addr alg m sw dw d sp dp st e, stores_in_rows F addr ->
  In e (fst (snd (resize_plane F alg m sw dw ((d, (sp, dp)), st)))) ->
  w_buf e = s_buf (fst dp) /\ s_off (fst dp) <= w_off e /\ w_off e + length (w_bytes e) <= s_off (fst dp) + s_len (fst dp).
Proof.
  intros F addr alg m sw dw d sp dp st e ST I. unfold resize_plane in I.
  destruct (plane_views sw dw (d, (sp, dp))) as [[sv dv]| | |] eqn:PV; try (destruct I; fail).
  assert (I' : In e (fst (snd (fir_resize F st alg m sv dv)))) by (destruct (fir_resize F st alg m sv dv) as [st' [evs r]]; exact I).
  destruct (ST _ _ _ _ _ _ I') as (r & row & VR & EB & O1 & O2).
  destruct (C45_view_contract unit addr F m alg sw dw d sp dp st sv dv PV) as [_ VC].
  destruct (VC dv dp (or_intror (conj eq_refl eq_refl))) as (_ & _ & _ & ROW). clear ROW.
  destruct (view_row_inside _ _ _ _ _ VR) as (B & A1 & A2 & _).
  assert (X : ad_plane dv = fst dp).
  { destruct sp as [s sst], dp as [t tst]. unfold plane_views in PV. destruct (op_apply (width_op d) sw); try discriminate PV. cbn [bind] in PV.
    destruct (op_apply (width_op d) dw); try discriminate PV. cbn [bind] in PV.
    destruct (sst =? 0); [discriminate PV|]. destruct (tst =? 0); [discriminate PV|]. cbn [bind] in PV. injection PV as _ <-. reflexivity. }
  rewrite X in *. split; [congruence|lia].
Qed.

(** Any images: if the resampler keeps to the rows it is given, nothing outside
    of the destination planes is changed. *)
Theorem C45_inside : forall F addr threads m (rz : resizer F) src dst dps rz' o,
  stores_in_rows F addr -> im_planes dst = Ok dps -> resize F threads m rz src dst rz' o ->
  Forall (store_inside dps) (fst o).
Proof.
  intros F addr threads m rz src dst dps rz' o ST ED R. apply Forall_forall. intros e I.
  destruct (pixel_format_eqb (im_format src) (im_format dst)) eqn:EF; [|unfold resize in R; rewrite EF in R; destruct R as [_ ->]; destruct I].
  destruct (im_planes src) as [sps|[]| |] eqn:ES; try (unfold resize in R; rewrite EF, ES in R; cbn in R; destruct R as [_ ->]; destruct I).
  apply pixel_format_eqb_eq in EF.
  destruct (resize_outcome F threads m rz src sps dst dps rz' o EF ES ED R) as (_ & _ & C & _).
  destruct (C e I) as (c & J & X). unfold runs_for in J. apply in_map_iff in J as (t & <- & J).
  destruct (task_inv _ _ _ _ _ _ J) as (p & d & sp & dp & st & -> & _ & _ & _ & ND).
  destruct (plane_stores _ _ _ _ _ _ _ _ _ _ _ ST X) as (A1 & A2 & A3). exists dp. split; [eapply nth_error_In, ND|auto].
Qed.
Print Assumptions C45_inside.

(** Images without spare rows: only samples of the destination are changed. *)
Theorem C45_only_samples : forall F addr threads m (rz : resizer F) src sps dst dps rz' o,
  stores_in_rows F addr -> words_aligned addr (im_format dst) dps ->
  resizable src sps -> resizable dst dps -> resize F threads m rz src dst rz' o ->
  forall b i, ~ sample_byte (im_format dst) dps (im_width dst) (im_height dst) b i -> apply_all m (fst o) b i = m b i.
Proof.
  intros F addr threads m rz src sps dst dps rz' o ST AL RS RD R b i N. apply apply_untouched.
  destruct (Nat.eq_dec (times (fst o) b i) 0) as [|T]; [assumption|exfalso]. destruct (times_in _ _ _ T) as (e & I & CV). apply N. clear N T.
  destruct (pixel_format_eqb (im_format src) (im_format dst)) eqn:EF; [|unfold resize in R; rewrite EF in R; destruct R as [_ ->]; destruct I].
  apply pixel_format_eqb_eq in EF.
  destruct (resize_outcome F threads m rz src sps dst dps rz' o EF (proj1 (proj1 RS)) (proj1 (proj1 RD)) R) as (_ & _ & C & _).
  destruct (C e I) as (c & J & X). rewrite (runs_are F rz m src sps dst dps EF RS RD) in J.
  apply in_map_iff in J as (p & <- & J). apply in_seq in J. assert (Hp : p < n_planes (im_format src)) by lia. rewrite EF in Hp.
  unfold plane_run in X. destruct (nth_error sps p) as [sp|] eqn:NS; [|destruct X]. destruct (nth_error dps p) as [dp|] eqn:ND; [|destruct X].
  assert (X' : In e (fst (snd (fir_resize F (state_of rz p) (rz_alg rz) m
            (view_of (im_format src) (im_width src) (im_height src) p sp) (view_of (im_format dst) (im_width dst) (im_height dst) p dp)))))
    by (destruct (fir_resize _ _ _ _ _ _) as [st [evs r]]; exact X).
  destruct (ST _ _ _ _ _ _ X') as (r & row & VR & EB & O1 & O2).
  destruct (C45_view_is_plane unit addr dst dps p dp RD AL Hp ND) as (_ & _ & _ & _ & ROW). rewrite ROW in VR.
  destruct (Nat.ltb_spec r (plane_rows (im_format dst) p (im_height dst))) as [L|]; [|discriminate VR]. injection VR as <-.
  cbn [s_buf s_off s_len] in *. unfold covers in CV. rewrite !andb_true_iff, Nat.eqb_eq, Nat.leb_le, Nat.ltb_lt in CV.
  destruct CV as [[-> C1] C2]. apply sample_byte_rows. exists p, dp, r, (i - (s_off (fst dp) + r * snd dp)).
  repeat split; auto; unfold row_byte; lia.
Qed.
Print Assumptions C45_only_samples.

(** The order in which the threads store does not matter: all successful runs
    leave the same memory, with and without threads, and the same resizer. *)
Theorem C45_deterministic : forall F addr th1 th2 m (rz : resizer F) src sps dst dps rz1 o1 rz2 o2,
  stores_in_rows F addr -> im_planes src = Ok sps -> im_planes dst = Ok dps -> planes_disjoint dps -> snd o1 = Ok tt ->
  resize F th1 m rz src dst rz1 o1 -> resize F th2 m rz src dst rz2 o2 ->
  snd o2 = Ok tt /\ rz1 = rz2 /\ same_memory (apply_all m (fst o1)) (apply_all m (fst o2)).
Proof.
  intros F addr th1 th2 m rz src sps dst dps rz1 o1 rz2 o2 ST ES ED PD O1 R1 R2.
  destruct (pixel_format_eqb (im_format src) (im_format dst)) eqn:EF;
    [|unfold resize in R1; rewrite EF in R1; destruct R1 as [_ ->]; discriminate O1].
  apply pixel_format_eqb_eq in EF.
  destruct (resize_outcome F th1 m rz src sps dst dps rz1 o1 EF ES ED R1) as (A1 & _ & _ & D1).
  destruct (resize_outcome F th2 m rz src sps dst dps rz2 o2 EF ES ED R2) as (A2 & _ & _ & D2).
  assert (O2 : snd o2 = Ok tt) by (apply A2, A1, O1). destruct (D1 O1) as [IL1 Z1]. destruct (D2 O2) as [IL2 Z2].
  split; [exact O2|]. split; [congruence|]. intros b i. rewrite (apply_filter b i (fst o1)), (apply_filter b i (fst o2)).
  set (ts := map (fun c : fir_state F * (list wev * res resize_error unit) => fst (snd c)) (runs_for rz m src sps dst dps)) in *.
  assert (TK : forall k t, nth_error ts k = Some t -> exists dp, nth_error dps k = Some dp /\
            forall e, In e t -> covers b i e = true -> in_slice (fst dp) b i).
  { intros k t N. unfold ts in N. apply nth_error_map_some in N as (c & NC & ->).
    unfold runs_for in NC. apply nth_error_map_some in NC as ([j st] & NT & ->). unfold tasks_of in NT. apply nth_error_combine2 in NT as [NT _]. cbn [fst] in NT.
    destruct (jobs_nth _ _ _ _ _ NT) as (Hp & d & sp & dp & -> & D & NS & ND). exists dp. split; [exact ND|].
    intros e I CV. destruct (plane_stores _ _ _ _ _ _ _ _ _ _ _ ST I) as (B1 & B2 & B3).
    unfold covers in CV. rewrite !andb_true_iff, Nat.eqb_eq, Nat.leb_le, Nat.ltb_lt in CV. destruct CV as [[-> C1] C2].
    split; [exact B1|lia]. }
  assert (X : (exists k t, nth_error ts k = Some t /\ exists e, In e t /\ covers b i e = true) \/
              (forall k t, nth_error ts k = Some t -> filter (covers b i) t = [])).
  { clearbody ts. clear - ts. induction ts as [|t ts IH]; [right; intros [|k] t H; discriminate H|].
    destruct (filter (covers b i) t) as [|e l] eqn:FL.
    - destruct IH as [(k & u & N & X)|IH]; [left; exists (S k), u; auto|right].
      intros [|k] u N; [injection N as <-; exact FL|apply (IH k u N)].
    - left. exists 0, t. split; [reflexivity|]. exists e. apply filter_In. rewrite FL. left. reflexivity. }
  destruct X as [(k & t & N & e & I & CE)|X].
  - destruct (TK k t N) as (dp & ND & HC). pose proof (HC e I CE) as IN.
    assert (OTHER : forall k' t', k' <> k -> nth_error ts k' = Some t' -> filter (covers b i) t' = []).
    { intros k' t' NE N'. destruct (filter (covers b i) t') as [|e' l] eqn:FL; [reflexivity|exfalso].
      assert (I' : In e' (filter (covers b i) t')) by (rewrite FL; left; reflexivity). apply filter_In in I' as [I1 I2].
      destruct (TK k' t' N') as (dp' & ND' & HC'). pose proof (HC' e' I1 I2) as IN'.
      destruct IN as [B IN], IN' as [B' IN'].
      apply (PD k' k dp' dp NE ND' ND i). split; [congruence|]. split; assumption. }
    rewrite (interleaving_filter (covers b i) k _ _ IL1) with (tk := t); auto.
    rewrite (interleaving_filter (covers b i) k _ _ IL2) with (tk := t); auto.
  - rewrite (interleaving_filter_none _ _ _ IL1), (interleaving_filter_none _ _ _ IL2); auto.
Qed.
Print Assumptions C45_deterministic.

(** What resize does depends on the samples of the source only. *)
Theorem C45_depends_on_source_samples : forall F addr threads m m' (rz : resizer F) src sps dst dps rz' o,
  loads_from_rows F addr -> words_aligned addr (im_format src) sps -> resizable src sps -> resizable dst dps ->
  same_samples (im_format src) sps (im_width src) (im_height src) m m' ->
  (resize F threads m rz src dst rz' o <-> resize F threads m' rz src dst rz' o).
Proof.
  intros F addr threads m m' rz src sps dst dps rz' o LD AL RS RD SS.
  destruct (pixel_format_eqb (im_format src) (im_format dst)) eqn:EF; [|unfold resize; rewrite EF; reflexivity].
  apply pixel_format_eqb_eq in EF.
  rewrite !(resize_inv F threads _ rz src sps dst dps rz' o EF (proj1 (proj1 RS)) (proj1 (proj1 RD))).
  assert (E : runs_for rz m src sps dst dps = runs_for rz m' src sps dst dps); [|rewrite E; reflexivity].
  rewrite !(runs_are F rz _ src sps dst dps EF RS RD). apply map_ext_in. intros p I. apply in_seq in I. f_equal. unfold plane_run.
  destruct (nth_error sps p) as [sp|] eqn:NS; [|reflexivity]. destruct (nth_error dps p) as [dp|] eqn:ND; [|reflexivity].
  apply LD. intros r row i VR [_ IN].
  destruct (C45_view_is_plane unit addr src sps p sp RS AL ltac:(lia) NS) as (_ & _ & _ & _ & ROW). rewrite ROW in VR.
  destruct (Nat.ltb_spec r (plane_rows (im_format src) p (im_height src))) as [L|]; [|discriminate VR]. injection VR as <-.
  cbn [s_buf s_off s_len] in *. apply SS. apply sample_byte_rows. exists p, sp, r, (i - (s_off (fst sp) + r * snd sp)).
  repeat split; auto; unfold row_byte; lia.
Qed.
Print Assumptions C45_depends_on_source_samples.

(** * A resampler that meets the conditions: nearest neighbor, with a counter
    of the calls as its state *)

Definition addr0 (_ : nat) : Z := 0%Z.
Definition near_row (m : mem) (sv dv : adapter) (r : nat) : list wev :=
  match @view_row unit addr0 dv r with
  | Ok (Some row) =>
      let size := pixel_size (ad_type dv) in
      match @view_row unit addr0 sv (r * ad_height sv / ad_height dv) with
      | Ok (Some from) =>
          [Wev (s_buf row) (s_off row)
             (map (fun k => let j := k / size * ad_width sv / ad_width dv * size + k mod size in
                            if j <? s_len from then m (s_buf from) (s_off from + j) else 0%Z) (seq 0 (s_len row)))]
      | _ => []
      end
  | _ => []
  end.
Definition near : fir := Fir unit nat 0
  (fun calls _ m sv dv => (S calls, (concat (map (near_row m sv dv) (seq 0 (ad_height dv))), Ok tt))).

Lemma near_stores : stores_in_rows near addr0.
Proof.
  intros st alg m sv dv e I. cbn in I. apply in_concat in I as (l & I1 & I2). apply in_map_iff in I1 as (r & <- & _).
  exists r. unfold near_row in I2. destruct (view_row addr0 dv r) as [[row|]| | |] eqn:VR; try (destruct I2; fail).
  exists row. split; [reflexivity|]. destruct (view_row addr0 sv _) as [[from|]| | |]; try (destruct I2; fail).
  destruct I2 as [<-|[]]. cbn [w_buf w_off w_bytes]. rewrite map_length, seq_length. auto.
Qed.

Lemma near_loads : loads_from_rows near addr0.
Proof.
  intros st alg m m' sv dv H. cbn. do 3 f_equal. apply map_ext. intros r. unfold near_row.
  destruct (view_row addr0 dv r) as [[row|]| | |]; try reflexivity.
  destruct (view_row addr0 sv (r * ad_height sv / ad_height dv)) as [[from|]| | |] eqn:VR; try reflexivity.
  do 2 f_equal. apply map_ext. intros k. destruct (Nat.ltb_spec (k / pixel_size (ad_type dv) * ad_width sv / ad_width dv * pixel_size (ad_type dv) + k mod pixel_size (ad_type dv)) (s_len from)) as [L|]; [|reflexivity].
  apply (H _ _ _ VR). split; [reflexivity|lia].
Qed.

Lemma near_cache : state_is_cache near.
Proof. intros st st' alg m sv dv. reflexivity. Qed.

(** A 4 x 2 RGB image with padding after its rows, resized to 2 x 2 *)
Definition rs_src_planes : list (slice * nat) := [(Slice 0 0 30, 15)].
Definition rs_src : image := ex_image RGB 4 2 ex_rgb rs_src_planes.
Definition rs_dst_planes : list (slice * nat) := [(Slice 1 0 14, 7)].
Definition rs_dst : image := ex_image RGB 2 2 ex_rgb rs_dst_planes.

Lemma rs_resizable : resizable rs_src rs_src_planes /\ resizable rs_dst rs_dst_planes.
Proof.
  split; (split; [split; [reflexivity|split; [repeat constructor; cbn; unfold usize; cbn; lia|reflexivity]]|]);
    (split; [exact I|]); (split; [reflexivity|]); split;
    intros p pl Hp N; cbn in Hp; assert (p = 0) by lia; subst p; injection N as <-; vm_compute; repeat split; reflexivity || lia.
Qed.

Example C45_example :
  stores_in_rows near addr0 /\ loads_from_rows near addr0 /\ state_is_cache near /\
  resizable rs_src rs_src_planes /\ resizable rs_dst rs_dst_planes /\ planes_disjoint rs_dst_planes /\
  words_aligned addr0 RGB rs_dst_planes /\
  exists rz1 o1 rz2 o2,
    used near false tt [(ex_mem, rs_src, rs_dst)] rz1 /\ resize near false ex_mem (resizer_new (F := near) tt) rs_src rs_dst rz1 o1 /\
    resize near false ex_mem rz1 rs_src rs_dst rz2 o2 /\ rz_fir rz2 = [2] /\ snd o2 = Ok tt /\
    map (apply_all ex_mem (fst o2) 1) [0; 1; 2; 3; 4; 5; 6; 7]
      = [ex_mem 0 0; ex_mem 0 1; ex_mem 0 2; ex_mem 0 6; ex_mem 0 7; ex_mem 0 8; ex_mem 1 6; ex_mem 0 15].
Proof.
  split; [exact near_stores|]. split; [exact near_loads|]. split; [exact near_cache|].
  split; [apply rs_resizable|]. split; [apply rs_resizable|]. split; [apply one_disjoint|]. split; [discriminate|].
  assert (R1 : exists o, resize near false ex_mem (resizer_new (F := near) tt) rs_src rs_dst (Resizer (F := near) tt [1]) o)
    by (eexists; unfold resize; cbn; eexists; split; reflexivity).
  destruct R1 as (o1 & R1). eexists _, o1, _, _. split; [eapply used_call; [apply used_new|exact R1]|]. split; [exact R1|].
  split; [unfold resize; cbn; eexists; split; reflexivity|]. vm_compute. repeat split; reflexivity.
Qed.

Example C46_example : resize near true ex_mem (resizer_new (F := near) tt) rs_src ex_dst (resizer_new (F := near) tt) ([], Err (DifferentFormats RGB I420)).
Proof. split; reflexivity. Qed.

(** * What is not true *)

(** A resampler that notes the views it is given *)
Definition noter : fir := Fir unit (list (adapter * adapter)) []
  (fun seen _ _ sv dv => (seen ++ [(sv, dv)], ([], Ok tt))).

Lemma noter_run : forall threads m (rz : resizer noter) src sps dst dps rz' o, im_format src = im_format dst ->
  im_planes src = Ok sps -> im_planes dst = Ok dps ->
  Forall (fun c => snd (snd c) = Ok tt) (runs_for rz m src sps dst dps) ->
  resize noter threads m rz src dst rz' o ->
  snd o = Ok tt /\ rz_fir rz' = map fst (runs_for rz m src sps dst dps) ++ skipn (length (runs_for rz m src sps dst dps)) (states_for rz sps).
Proof.
  intros threads m rz src sps dst dps rz' o EF ES ED A R.
  destruct (resize_outcome noter threads m rz src sps dst dps rz' o EF ES ED R) as (B & _ & _ & D).
  assert (O : snd o = Ok tt) by (apply B, A). split; [exact O|]. destruct (D O) as [_ ->]. reflexivity.
Qed.

(** The row count is that of the slice: a plane with room for a third row is
    resized as if the image had three rows. *)
Theorem C45_refuted_spare_row : forall threads m rz' o,
  let src := ex_image RGB 4 2 ex_rgb [(Slice 0 0 45, 15)] in
  valid_image src [(Slice 0 0 45, 15)] /\ resizable rs_dst rs_dst_planes /\
  (resize noter threads m (resizer_new (F := noter) tt) src rs_dst rz' o ->
   snd o = Ok tt /\ exists v w, rz_fir rz' = [[(v, w)]] /\ view_height v = 3%Z /\ plane_rows RGB 0 (im_height src) = 2).
Proof.
  intros threads m rz' o src. split; [split; [reflexivity|split; [repeat constructor; cbn; unfold usize; cbn; lia|reflexivity]]|].
  split; [apply rs_resizable|]. intros R.
  destruct (noter_run threads m (resizer_new (F := noter) tt) src [(Slice 0 0 45, 15)] rs_dst rs_dst_planes rz' o eq_refl eq_refl eq_refl
    ltac:(repeat constructor) R) as [O E].
  split; [exact O|]. rewrite E. do 2 eexists. split; [reflexivity|]. split; reflexivity.
Qed.
Print Assumptions C45_refuted_spare_row.

(** Odd widths of YUYV: a valid 3 x 1 image has 6 bytes in its row; the view has
    one pixel, 4 bytes. *)
Theorem C45_refuted_odd_width : forall threads m rz' o,
  let src := ex_image YUYV 3 1 ex_yuv [(Slice 0 0 6, 6)] in
  let dst := ex_image YUYV 3 1 ex_yuv [(Slice 1 0 6, 6)] in
  valid_image src [(Slice 0 0 6, 6)] /\ valid_image dst [(Slice 1 0 6, 6)] /\
  (resize noter threads m (resizer_new (F := noter) tt) src dst rz' o ->
   snd o = Ok tt /\ exists v w, rz_fir rz' = [[(v, w)]] /\
     @view_row unit addr0 w 0 = Ok (Some (Slice 1 0 4)) /\ row_bytes YUYV 0 3 = 6).
Proof.
  intros threads m rz' o src dst.
  split; [split; [reflexivity|split; [repeat constructor; cbn; unfold usize; cbn; lia|reflexivity]]|].
  split; [split; [reflexivity|split; [repeat constructor; cbn; unfold usize; cbn; lia|reflexivity]]|]. intros R.
  destruct (noter_run threads m (resizer_new (F := noter) tt) src [(Slice 0 0 6, 6)] dst [(Slice 1 0 6, 6)] rz' o eq_refl eq_refl eq_refl
    ltac:(repeat constructor) R) as [O E].
  split; [exact O|]. rewrite E. do 2 eexists. split; [reflexivity|]. split; reflexivity.
Qed.
Print Assumptions C45_refuted_odd_width.

(** Missing planes: an I420 image with the Y plane only, which bounds_check
    rejects, is resized without an error; U and V are left out. *)
Theorem C45_refuted_missing_planes : forall threads m rz' o,
  let im k := ex_image I420 2 2 ex_yuv [(Slice k 0 4, 2)] in
  image_bounds_check (im 0) = Err (InvalidNumberOfPlanes 3 1) /\
  (resize noter threads m (resizer_new (F := noter) tt) (im 0) (im 1) rz' o -> snd o = Ok tt /\ length (rz_fir rz') = 1).
Proof.
  intros threads m rz' o im. split; [reflexivity|]. intros R.
  destruct (noter_run threads m (resizer_new (F := noter) tt) (im 0) [(Slice 0 0 4, 2)] (im 1) [(Slice 1 0 4, 2)] rz' o eq_refl eq_refl eq_refl
    ltac:(repeat constructor) R) as [O E].
  split; [exact O|]. rewrite E. reflexivity.
Qed.
Print Assumptions C45_refuted_missing_planes.

(** Sizes of 2^32 and more: the view reports the remainder. *)
Theorem C45_refuted_u32 : forall n pl, Z.of_nat n = (2 ^ 32 + 2)%Z -> view_width (view_of I420 n 2 0 pl) = 2%Z.
Proof. intros n pl H. unfold view_width, as_u32, view_of. cbn [ad_width pixel_samples plane_cols Nat.eqb]. rewrite Nat.div_1_r, H. reflexivity. Qed.
Print Assumptions C45_refuted_u32.

(** Panics on accepted images: stride 0 (an image without pixels), and 16-bit
    samples at odd addresses *)
Theorem C45_panics :
  (forall F threads m (rz : resizer F) rz' o,
     let empty k := ex_image RGB 0 0 ex_rgb [(Slice k 0 0, 0)] in
     image_bounds_check (empty 0) = Ok tt /\
     (resize F threads m rz (empty 0) (empty 1) rz' o -> snd o = Panic PDivZero)) /\
  (forall E addr, Z.even (addr 0%nat) = true ->
     let pl := (Slice 0 1 8, 4) in
     image_bounds_check (ex_image I010 2 2 ex_yuv [pl; pl; pl]) = Ok tt /\
     @view_row E addr (view_of I010 2 2 0 pl) 0 = Panic PAssert).
Proof.
  split.
  - intros F threads m rz rz' o empty. split; [reflexivity|]. intros R.
    destruct (resize_outcome F threads m rz (empty 0) [(Slice 0 0 0, 0)] (empty 1) [(Slice 1 0 0, 0)] rz' o eq_refl eq_refl eq_refl R)
      as (A & B & _).
    assert (RU : forall c, In c (runs_for rz m (empty 0) [(Slice 0 0 0, 0)] (empty 1) [(Slice 1 0 0, 0)]) -> snd (snd c) = Panic PDivZero).
    { intros c I. apply in_map_iff in I as (t & <- & I). destruct (task_inv _ _ _ _ _ _ I) as (p & d & sp & dp & st & -> & Hp & D & NS & ND).
      cbn in Hp. assert (p = 0) by lia. subst p. injection D as <-. injection NS as <-. injection ND as <-. reflexivity. }
    assert (NO : snd o <> Ok tt).
    { intros O. apply A in O. rewrite Forall_forall in O.
      destruct (task_nth F RGB [(Slice 0 0 0, 0)] [(Slice 1 0 0, 0)] rz 0 (Slice 0 0 0, 0) (Slice 1 0 0, 0) ltac:(cbn; lia) eq_refl eq_refl)
        as (d & D & T).
      pose proof (in_map (resize_plane F (rz_alg rz) m 0 0) _ _ (nth_error_In _ _ T)) as I.
      pose proof (eq_trans (eq_sym (RU _ I)) (O _ I)) as X. discriminate X. }
    destruct (B NO) as (c & I & _ & ->). apply RU, I.
  - intros E addr EV pl. split; [reflexivity|].
    assert (EO : Z.even (addr 0%nat + 1) = false) by (rewrite Z.even_add, EV; reflexivity).
    transitivity (if Z.even (addr 0%nat + 1) || false then Ok (Some (Slice 0 1 4)) else @Panic E (option slice) PAssert); [reflexivity|].
    rewrite EO. reflexivity.
Qed.
Print Assumptions C45_panics.
