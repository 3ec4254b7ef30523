(** [split_planes] divides an image into bands. *)

From Coq Require Import Arith Bool List ZArith Lia.
From Verif Require Import Base Types Planes ImageM F32 Vector Simd Formats Visit Convert MultiThread
  SpecGeom SpecVector SpecColor SpecConvert SpecRun SpecThreads GeomProofs GeomProofs2 GeomProofs3.
Import ListNotations.

Lemma plane_rows_add : forall f p a h, a mod 2 = 0 -> plane_rows f p (a + h) = plane_rows f p a + plane_rows f p h.
Proof.
  intros f p a h E. pose proof (Nat.div_mod a 2 ltac:(lia)) as D. rewrite E in D.
  assert ((a + h) / 2 = a / 2 + h / 2).
  { replace (a + h) with (h + a / 2 * 2) by lia. rewrite Nat.div_add by lia. lia. }
  destruct f; cbn [plane_rows]; try reflexivity; destruct (p =? 0); lia.
Qed.

Lemma plane_rows_mono : forall f p a b, a <= b -> plane_rows f p a <= plane_rows f p b.
Proof.
  intros f p a b H. pose proof (Nat.div_le_mono a b 2 ltac:(lia) H).
  destruct f; cbn [plane_rows]; try assumption; destruct (p =? 0); assumption.
Qed.

(** * One band *)

Lemma split_band_spec : forall E descs planes h,
  length descs <= length planes -> wf_planes planes -> Forall (fun d => mulfree (height_op d)) descs ->
  (forall p d pl, nth_error descs p = Some d -> nth_error planes p = Some pl ->
     snd pl * opn (height_op d) h <= s_len (fst pl)) ->
  exists o rest, @split_band E descs planes h = Ok (o, rest) /\
    length o = length descs /\ length rest = length planes /\
    (forall p d pl, nth_error descs p = Some d -> nth_error planes p = Some pl ->
       nth_error o p = Some (Slice (s_buf (fst pl)) (s_off (fst pl)) (snd pl * opn (height_op d) h), snd pl) /\
       nth_error rest p = Some (Slice (s_buf (fst pl)) (s_off (fst pl) + snd pl * opn (height_op d) h)
                                  (s_len (fst pl) - snd pl * opn (height_op d) h), snd pl)) /\
    (forall p, length descs <= p -> nth_error rest p = nth_error planes p).
Proof.
  intros E descs. induction descs as [|d ds IH]; intros planes h L W M F.
  - exists [], planes. destruct planes as [|[? ?] ?]; cbn; repeat split; auto; intros; destruct p; discriminate.
  - destruct planes as [|[s st] ps]; cbn in L; [lia|].
    inversion W as [|? ? [W1 W2] W3]; subst. inversion M as [|? ? M1 M2]; subst. cbn [fst snd] in *.
    pose proof (F 0 d (s, st) eq_refl eq_refl) as F0. cbn [fst snd] in F0.
    destruct (IH ps h) as (o & rest & E1 & L1 & L2 & N1 & N2); [lia|assumption|assumption| |].
    { intros p d' pl A B. apply (F (S p) d' pl A B). }
    cbn [split_band]. rewrite op_apply_mulfree by assumption. cbn [bind].
    rewrite strict_mul_ok by (eapply usize_le; eassumption). cbn [bind].
    unfold split_at. rewrite (proj2 (Nat.leb_le _ _) F0). cbn [bind]. rewrite E1. cbn [bind].
    eexists _, _. split; [reflexivity|]. split; [cbn; lia|]. split; [cbn; lia|]. split.
    + intros [|p] d' pl A B; cbn in *; [|apply N1; assumption].
      injection A as <-. injection B as <-. split; reflexivity.
    + intros [|p] Hp; cbn in *; [lia|]. apply N2. lia.
Qed.

(** * The remaining planes *)

(** [rest] are the planes [ps] without the first [r0] rows of the image *)
Definition is_rest (f : pixel_format) (ps : list (slice * nat)) (r0 : nat) (rest : list (slice * nat)) : Prop :=
  length rest = length ps /\
  forall p pl, p < n_planes f -> nth_error ps p = Some pl ->
    nth_error rest p = Some (Slice (s_buf (fst pl)) (s_off (fst pl) + snd pl * plane_rows f p r0)
                               (s_len (fst pl) - snd pl * plane_rows f p r0), snd pl).

Lemma wf_nth : forall ps p pl, wf_planes ps -> nth_error ps p = Some pl -> usize (s_len (fst pl)) /\ usize (snd pl).
Proof. intros ps p pl W N. unfold wf_planes in W. rewrite Forall_forall in W. apply W. eapply nth_error_In; eauto. Qed.

Lemma Forall_nth_intro : forall A (P : A -> Prop) l, (forall p a, nth_error l p = Some a -> P a) -> Forall P l.
Proof.
  intros A P l H. apply Forall_forall. intros a I. apply In_nth_error in I as (p & N). eapply H, N.
Qed.

(** [ps] large enough for [h] rows *)
Definition rows_fit (f : pixel_format) (ps : list (slice * nat)) (h : nat) : Prop :=
  n_planes f <= length ps /\
  forall p pl, p < n_planes f -> nth_error ps p = Some pl -> snd pl * plane_rows f p h <= s_len (fst pl).

Lemma planes_rows_fit : forall f ps w h, planes_fit f ps w h -> rows_fit f ps h.
Proof. intros f ps w h [L F]. split; [exact L|]. intros p pl Hp N. apply (F p pl Hp N). Qed.

Lemma some_nth : forall A (l : list A) p, p < length l -> exists a, nth_error l p = Some a.
Proof. intros A l p H. destruct (nth_error l p) eqn:N; eauto. apply nth_error_None in N. lia. Qed.

Definition band_height (parts rem k : nat) : nat := 2 * (parts + if k <? rem then 1 else 0).

Lemma split_loop_spec : forall E f ps h n parts rem r0 rest, wf_planes ps -> rows_fit f ps h -> usize h ->
  (forall p, n_planes f <= p -> nth_error rest p = nth_error ps p) ->
  r0 mod 2 = 0 -> is_rest f ps r0 rest -> rem <= n -> r0 + 2 * (n * parts + rem) <= h ->
  exists bands, @split_loop E (plane_descs f) rest parts rem n = Ok bands /\
    map fst bands = map (band_height parts rem) (seq 0 n) /\
    forall k hk band, nth_error bands k = Some (hk, band) ->
      is_band f ps (r0 + band_start (map fst bands) k) hk band.
Proof.
  intros E f ps h n. induction n as [|n IH]; intros parts rem r0 rest W R HU NX EV RS HR HH.
  - exists []. cbn. repeat split; auto; destruct k; discriminate.
  - cbn [split_loop]. set (extra := if 0 <? rem then 1 else 0).
    assert (EX : extra <= rem /\ extra <= 1 /\ rem - extra <= n)
      by (unfold extra; destruct (Nat.ltb_spec 0 rem); lia).
    assert (HB : r0 + 2 * (parts + extra) <= h) by nia.
    assert (U1 : usize (parts + extra)) by (eapply usize_le; [|exact HU]; lia).
    assert (U2 : usize ((parts + extra) * 2)) by (eapply usize_le; [|exact HU]; lia).
    rewrite (uadd_ok _ _ _ U1). cbn [bind]. rewrite (strict_mul_ok _ _ _ U2). cbn [bind].
    set (hb := (parts + extra) * 2) in *.
    assert (EB : hb mod 2 = 0) by (apply Nat.mod_mul; lia).
    destruct RS as [RL RN]. destruct R as [R1 R2].
    assert (FB : forall p d pl, nth_error (plane_descs f) p = Some d -> nth_error rest p = Some pl ->
              snd pl * opn (height_op d) hb <= s_len (fst pl)).
    { intros p d pl ND NP. destruct (desc_spec f p d ND) as (Hp & _ & HO & _). rewrite HO.
      destruct (some_nth _ ps p ltac:(eapply Nat.lt_le_trans; eassumption)) as (pl0 & N0). rewrite (RN p pl0 Hp N0) in NP. injection NP as <-. cbn [fst snd s_len].
      pose proof (R2 p pl0 Hp N0) as L. pose proof (plane_rows_mono f p (r0 + hb) h ltac:(unfold hb; lia)) as PM.
      rewrite plane_rows_add in PM by exact EV. nia. }
    assert (WR : wf_planes rest).
    { apply Forall_nth_intro. intros p pl N. destruct (Nat.lt_ge_cases p (n_planes f)) as [Hp|Hp].
      - destruct (some_nth _ ps p ltac:(eapply Nat.lt_le_trans; eassumption)) as (pl0 & N0). rewrite (RN p pl0 Hp N0) in N. injection N as <-. cbn [fst snd s_len].
        destruct (wf_nth _ _ _ W N0) as [Ua Ub]. split; [eapply usize_le; [|exact Ua]; lia|exact Ub].
      - rewrite (NX p Hp) in N. eapply wf_nth; eauto. }
    destruct (split_band_spec E (plane_descs f) rest hb) as (o & rest' & E1 & L1 & L2 & N1 & N2);
      [rewrite n_planes_descs; lia|exact WR|apply descs_mulfree|exact FB|].
    rewrite E1. cbn [bind].
    assert (EV' : (r0 + hb) mod 2 = 0) by (rewrite Nat.add_mod, EV, EB by lia; reflexivity).
    destruct (IH parts (rem - extra) (r0 + hb) rest') as (bands & EL & HS & NB); try assumption.
    + split; assumption.
    + intros p Hp. rewrite N2 by (rewrite n_planes_descs; exact Hp). apply NX, Hp.
    + split; [lia|]. intros p pl Hp N. destruct (desc_exists f p Hp) as (d & ND).
      destruct (N1 p d _ ND (RN p pl Hp N)) as [_ N3]. rewrite N3. cbn [fst snd s_buf s_off s_len].
      destruct (desc_spec f p d ND) as (_ & _ & HO & _). rewrite HO, plane_rows_add by exact EV.
      rewrite Nat.mul_add_distr_l, !Nat.sub_add_distr, Nat.add_assoc. reflexivity.
    + lia.
    + unfold hb. nia.
    + rewrite EL. cbn [bind]. eexists. split; [reflexivity|]. split.
      * cbn [map fst seq]. f_equal.
        -- unfold hb, band_height, extra. lia.
        -- rewrite HS, <- seq_shift, map_map. apply map_ext_in. intros k Hk. apply in_seq in Hk. unfold band_height, extra.
           f_equal. f_equal. destruct (Nat.ltb_spec 0 rem); destruct (Nat.ltb_spec k (rem - 1)); destruct (Nat.ltb_spec k (rem - 0));
             destruct (Nat.ltb_spec (S k) rem); lia.
      * intros [|k] hk band N.
        -- cbn in N. injection N as <- <-. unfold band_start. cbn [map firstn total fold_right]. rewrite Nat.add_0_r.
           split; [rewrite L1; apply n_planes_descs|]. intros p pl Hp NP. destruct (desc_exists f p Hp) as (d & ND).
           destruct (N1 p d _ ND (RN p pl Hp NP)) as [N3 _]. rewrite N3. cbn [fst snd s_buf s_off s_len].
           destruct (desc_spec f p d ND) as (_ & _ & HO & _). rewrite HO. reflexivity.
        -- cbn in N. specialize (NB k hk band N). unfold band_start in *. cbn [map fst firstn total fold_right].
           fold (total (firstn k (map fst bands))). rewrite Nat.add_assoc. exact NB.
Qed.

Lemma total_app : forall a c, total (a ++ c) = total a + total c.
Proof. induction a; intros; cbn in *; [reflexivity|]. rewrite IHa. apply Nat.add_assoc. Qed.

Lemma total_heights : forall parts rem n, rem <= n -> total (map (band_height parts rem) (seq 0 n)) = 2 * (n * parts + rem).
Proof.
  intros parts rem n. revert rem. induction n as [|n IH]; intros rem H; [cbn; lia|].
  rewrite seq_S, map_app, total_app. cbn [map total fold_right Nat.add].
  destruct (Nat.eq_dec rem (S n)) as [->|NE].
  - assert (E : map (band_height parts (S n)) (seq 0 n) = map (band_height parts n) (seq 0 n)).
    { apply map_ext_in. intros k Hk. apply in_seq in Hk. unfold band_height.
      rewrite (proj2 (Nat.ltb_lt k (S n))), (proj2 (Nat.ltb_lt k n)) by lia. reflexivity. }
    rewrite E, IH by lia. unfold band_height. rewrite (proj2 (Nat.ltb_lt n (S n))) by lia. lia.
  - rewrite IH by lia. unfold band_height. rewrite (proj2 (Nat.ltb_ge n rem)) by lia. lia.
Qed.

Lemma split_planes_spec : forall E f ps h threads, wf_planes ps -> rows_fit f ps h -> usize h ->
  h mod 2 = 0 -> 0 < h -> 0 < threads ->
  exists bands, @split_planes E (plane_descs f) ps h threads = Ok bands /\
    length bands = Nat.min threads (h / 2) /\ bands_partition f ps h bands /\
    map fst bands = map (band_height (h / 2 / Nat.min threads (h / 2)) ((h / 2) mod Nat.min threads (h / 2)))
                      (seq 0 (Nat.min threads (h / 2))).
Proof.
  intros E f ps h threads W R HU EV H0 T0. unfold split_planes.
  pose proof (Nat.div_mod h 2 ltac:(lia)) as D. rewrite EV in D.
  set (n := Nat.min threads (h / 2)). assert (N0 : 0 < n) by (unfold n; lia).
  destruct (Nat.eqb_spec n 0) as [Z|_]; [lia|].
  pose proof (Nat.div_mod (h / 2) n ltac:(lia)) as DM. pose proof (Nat.mod_upper_bound (h / 2) n ltac:(lia)) as MB.
  assert (P0 : 0 < h / 2 / n) by (apply Nat.div_str_pos; unfold n; lia).
  destruct (split_loop_spec E f ps h n (h / 2 / n) ((h / 2) mod n) 0 ps W R HU) as (bands & EL & HS & NB);
    [reflexivity|reflexivity| |lia|nia|].
  { split; [reflexivity|]. intros p [s st] Hp N. assert (Z : plane_rows f p 0 = 0) by (destruct f; cbn; try reflexivity; destruct (p =? 0); reflexivity).
    rewrite Z, Nat.mul_0_r, Nat.add_0_r, Nat.sub_0_r. cbn. rewrite N. destruct s; reflexivity. }
  exists bands. split; [exact EL|]. split; [|split; [|exact HS]].
  - rewrite <- (map_length fst bands), HS, map_length, seq_length. reflexivity.
  - unfold bands_partition. split; [|split; [|split]].
    + rewrite HS, total_heights by lia. nia.
    + intros hk I. rewrite HS in I. apply in_map_iff in I as (k & <- & _). unfold band_height. split; [lia|].
      rewrite Nat.mul_comm. apply Nat.mod_mul; lia.
    + intros hj hk I J. rewrite HS in I, J. apply in_map_iff in I as (k & <- & _). apply in_map_iff in J as (k' & <- & _).
      unfold band_height. destruct (k <? _), (k' <? _); lia.
    + intros k hk band N. specialize (NB k hk band N). exact NB.
Qed.

(** * Consequences of a partition *)

Lemma total_split : forall l k a, nth_error l k = Some a -> total (firstn k l) + a + total (skipn (S k) l) = total l.
Proof.
  induction l as [|x l IH]; intros [|k] a N; cbn in *; try discriminate.
  - injection N as ->. reflexivity.
  - specialize (IH k a N). unfold total in *. lia.
Qed.

Lemma band_start_S : forall hs k hk, nth_error hs k = Some hk -> band_start hs (S k) = band_start hs k + hk.
Proof.
  unfold band_start. induction hs as [|x l IH]; intros [|k] a N; cbn in *; try discriminate.
  - injection N as ->. lia.
  - specialize (IH k a N). unfold total in *. cbn in IH. lia.
Qed.

Lemma band_start_mono : forall hs j k hj, j < k -> nth_error hs j = Some hj -> band_start hs j + hj <= band_start hs k.
Proof.
  intros hs j k hj H N. rewrite <- (band_start_S _ _ _ N). apply total_firstn_mono. lia.
Qed.

Lemma band_start_even : forall hs k, (forall hk, In hk hs -> hk mod 2 = 0) -> band_start hs k mod 2 = 0.
Proof.
  unfold band_start. induction hs as [|x l IH]; intros k H; [destruct k; reflexivity|].
  destruct k; [reflexivity|]. cbn [firstn total fold_right]. fold (total (firstn k l)).
  rewrite Nat.add_mod by lia. rewrite (H x) by (left; reflexivity). rewrite IH by (intros hk I; apply H; right; exact I). reflexivity.
Qed.

(** Every row is in one of the bands *)
Lemma band_of_row : forall hs r, r < total hs -> exists k hk, nth_error hs k = Some hk /\ band_start hs k <= r < band_start hs k + hk.
Proof.
  induction hs as [|x l IH]; intros r H; cbn in H; [lia|].
  destruct (Nat.lt_ge_cases r x) as [L|L].
  - exists 0, x. split; [reflexivity|]. cbn. lia.
  - destruct (IH (r - x)) as (k & hk & N & B); [unfold total in *; lia|].
    exists (S k), hk. split; [exact N|]. unfold band_start in *. cbn [firstn total fold_right]. fold (total (firstn k l)). unfold total in *. lia.
Qed.

Lemma plane_band_disjoint : forall f p pl a ha c hc, a mod 2 = 0 -> a + ha <= c ->
  disjoint_slices (fst (plane_band f p a ha pl)) (fst (plane_band f p c hc pl)).
Proof.
  intros f p pl a ha c hc EA H i (B & A1 & A2). cbn in *.
  pose proof (plane_rows_mono f p (a + ha) c H) as M. rewrite plane_rows_add in M by exact EA. nia.
Qed.

Lemma disjoint_slices_sym : forall a c, disjoint_slices a c -> disjoint_slices c a.
Proof. intros a c D i (B & A1 & A2). apply (D i). auto. Qed.

Lemma plane_band_in : forall f ps h p pl r0 hb b i, rows_fit f ps h -> p < n_planes f -> nth_error ps p = Some pl ->
  r0 mod 2 = 0 -> r0 + hb <= h -> in_slice (fst (plane_band f p r0 hb pl)) b i -> in_slice (fst pl) b i.
Proof.
  intros f ps h p pl r0 hb b i [_ F] Hp N EV H (B & A1 & A2). cbn in *. specialize (F p pl Hp N).
  pose proof (plane_rows_mono f p (r0 + hb) h H) as M. rewrite plane_rows_add in M by exact EV.
  split; [exact B|]. nia.
Qed.

(** Slices of different bands, or of different planes, have no byte in common. *)
Lemma bands_disjoint : forall f ps h bands j k hj hk bj bk p q a c, bands_partition f ps h bands ->
  rows_fit f ps h -> planes_disjoint ps ->
  nth_error bands j = Some (hj, bj) -> nth_error bands k = Some (hk, bk) -> (j <> k \/ p <> q) ->
  nth_error bj p = Some a -> nth_error bk q = Some c -> disjoint_slices (fst a) (fst c).
Proof.
  intros f ps h bands j k hj hk bj bk p q a c (T & EV & _ & PB) R PD NJ NK NE NA NC.
  destruct (PB _ _ _ NJ) as [LJ IJ]. destruct (PB _ _ _ NK) as [LK IK].
  assert (Hp : p < n_planes f) by (rewrite <- LJ; apply nth_error_Some; congruence).
  assert (Hq : q < n_planes f) by (rewrite <- LK; apply nth_error_Some; congruence).
  destruct R as [RL R].
  destruct (some_nth _ ps p ltac:(eapply Nat.lt_le_trans; eassumption)) as (pl & N). destruct (some_nth _ ps q ltac:(lia)) as (ql & M).
  rewrite (IJ p pl Hp N) in NA. injection NA as <-. rewrite (IK q ql Hq M) in NC. injection NC as <-.
  set (hs := map fst bands) in *.
  assert (HJ : nth_error hs j = Some hj) by (unfold hs; rewrite nth_error_map, NJ; reflexivity).
  assert (HK : nth_error hs k = Some hk) by (unfold hs; rewrite nth_error_map, NK; reflexivity).
  assert (EA : forall n, band_start hs n mod 2 = 0) by (intros; apply band_start_even; intros; apply EV; assumption).
  assert (TOT : forall n hn, nth_error hs n = Some hn -> band_start hs n + hn <= h).
  { intros n hn X. pose proof (total_split _ _ _ X). unfold band_start. lia. }
  destruct (Nat.eq_dec p q) as [->|PQ].
  - rewrite N in M. injection M as ->. destruct NE as [NE|NE]; [|congruence].
    assert (C : j < k \/ k < j) by lia. destruct C as [C|C].
    + apply plane_band_disjoint; [apply EA|]. eapply band_start_mono; eauto.
    + apply disjoint_slices_sym, plane_band_disjoint; [apply EA|]. eapply band_start_mono; eauto.
  - intros i (B & A1 & A2). apply (PD p q pl ql PQ N M i).
    destruct (plane_band_in f ps h p pl _ hj (s_buf (fst pl)) i (conj RL R) Hp N (EA j) (TOT _ _ HJ)) as [_ X]; [split; [reflexivity|exact A1]|].
    destruct (plane_band_in f ps h q ql _ hk (s_buf (fst ql)) i (conj RL R) Hq M (EA k) (TOT _ _ HK)) as [_ Y]; [split; [reflexivity|exact A2]|].
    split; [exact B|]. split; assumption.
Qed.

(** * When splitting panics *)

Lemma split_planes_zero : forall E descs ps h threads, h < 2 -> @split_planes E descs ps h threads = Panic PDivZero.
Proof.
  intros E descs ps h threads H. unfold split_planes. rewrite (Nat.div_small h 2 H), Nat.min_0_r. reflexivity.
Qed.

Lemma split_band_shape : forall descs planes h, Forall (fun d => mulfree (height_op d)) descs ->
  match @split_band convert_error descs planes h with
  | Ok (o, rest) =>
      length o = Nat.min (length descs) (length planes) /\ length rest = length planes /\
      (forall p d pl, nth_error descs p = Some d -> nth_error planes p = Some pl ->
         snd pl * opn (height_op d) h <= s_len (fst pl) /\
         nth_error o p = Some (Slice (s_buf (fst pl)) (s_off (fst pl)) (snd pl * opn (height_op d) h), snd pl) /\
         nth_error rest p = Some (Slice (s_buf (fst pl)) (s_off (fst pl) + snd pl * opn (height_op d) h)
                                    (s_len (fst pl) - snd pl * opn (height_op d) h), snd pl))
  | Panic _ => True
  | _ => False
  end.
Proof.
  induction descs as [|d ds IH]; intros planes h M.
  - destruct planes; cbn; (split; [reflexivity|split; [reflexivity|]]); intros i d0 pl N; destruct i; discriminate N.
  - destruct planes as [|[s st] ps]; cbn [split_band].
    + cbn. (split; [reflexivity|split; [reflexivity|]]); intros i d0 pl _ N; destruct i; discriminate N.
    + inversion M as [|? ? M1 M2]; subst. rewrite op_apply_mulfree by assumption. cbn [bind].
      destruct (strict_mul_cases convert_error st (opn (height_op d) h)) as [[-> _]|[-> _]]; cbn [bind]; [|exact I].
      unfold split_at. destruct (Nat.leb_spec (st * opn (height_op d) h) (s_len s)) as [L|L]; cbn [bind]; [|exact I].
      specialize (IH ps h M2). destruct (split_band ds ps h) as [[o rest]|e|q|]; cbn [bind]; try exact IH.
      destruct IH as (L1 & L2 & N). cbn [length]. split; [cbn; lia|]. split; [cbn; lia|].
      intros [|p] d' pl ND NP; cbn in ND, NP; [|apply N; assumption].
      injection ND as <-. injection NP as <-. cbn. auto.
Qed.

(** Splitting panics or gives bands with the strides of the planes, and then
    the planes have enough bytes for all rows. *)
Lemma split_loop_shape : forall f n planes parts rem, rem <= n ->
  match @split_loop convert_error (plane_descs f) planes parts rem n with
  | Ok bands =>
      length bands = n /\
      (forall k hk band, nth_error bands k = Some (hk, band) ->
         hk = band_height parts rem k /\ length band = Nat.min (n_planes f) (length planes) /\
         forall p pl a, nth_error planes p = Some pl -> nth_error band p = Some a -> snd a = snd pl) /\
      forall p pl, p < n_planes f -> nth_error planes p = Some pl ->
        snd pl * plane_rows f p (2 * (n * parts + rem)) <= s_len (fst pl)
  | Panic _ => True
  | _ => False
  end.
Proof.
  intros f. induction n as [|n IH]; intros planes parts rem HR; cbn [split_loop].
  - split; [reflexivity|]. split; [intros [|k]; discriminate|]. intros p pl Hp N.
    replace (2 * (0 * parts + rem)) with 0 by lia.
    assert (Z : plane_rows f p 0 = 0) by (destruct f; cbn; try reflexivity; destruct (p =? 0); reflexivity). rewrite Z. lia.
  - set (extra := if 0 <? rem then 1 else 0).
    assert (EX : extra <= rem /\ rem - extra <= n) by (unfold extra; destruct (Nat.ltb_spec 0 rem); lia).
    destruct (uadd_cases convert_error parts extra) as [[-> _]|[-> _]]; cbn [bind]; [|exact I].
    destruct (strict_mul_cases convert_error (parts + extra) 2) as [[-> _]|[-> _]]; cbn [bind]; [|exact I].
    set (hb := (parts + extra) * 2).
    pose proof (split_band_shape (plane_descs f) planes hb (descs_mulfree f)) as SB.
    destruct (split_band (plane_descs f) planes hb) as [[o rest]|e|q|]; cbn [bind]; try exact SB.
    destruct SB as (L1 & L2 & NB). rewrite n_planes_descs in L1.
    specialize (IH rest parts (rem - extra) ltac:(lia)).
    destruct (split_loop (plane_descs f) rest parts (rem - extra) n) as [bands|e|q|]; cbn [bind]; try exact IH.
    destruct IH as (LB & IB & IL). split; [cbn; lia|].
    assert (RN : forall p pl, nth_error planes p = Some pl -> p < n_planes f ->
      exists d, nth_error (plane_descs f) p = Some d /\ (forall h, opn (height_op d) h = plane_rows f p h)).
    { intros p pl N Hp. destruct (desc_exists f p Hp) as (d & ND). exists d. split; [exact ND|]. apply (desc_spec f p d ND). }
    split.
    + intros [|k] hk band N; cbn in N.
      * injection N as <- <-. split; [unfold hb, band_height, extra; lia|]. split; [exact L1|].
        intros p pl a NP NA.
        assert (Hp : p < n_planes f) by (assert (p < length o) by (apply nth_error_Some; congruence); lia).
        destruct (RN p pl NP Hp) as (d & ND & _). destruct (NB p d pl ND NP) as (_ & N1 & _). rewrite N1 in NA. injection NA as <-. reflexivity.
      * destruct (IB k hk band N) as (H1 & H2 & H3). split.
        { rewrite H1. unfold band_height, extra. f_equal. f_equal.
          destruct (Nat.ltb_spec 0 rem); destruct (Nat.ltb_spec k (rem - 1)); destruct (Nat.ltb_spec k (rem - 0));
             destruct (Nat.ltb_spec (S k) rem); lia. }
        split; [rewrite H2, L2; reflexivity|].
        intros p pl a NP NA.
        assert (Hp : p < n_planes f) by (assert (p < length band) by (apply nth_error_Some; congruence); lia).
        destruct (RN p pl NP Hp) as (d & ND & _). destruct (NB p d pl ND NP) as (_ & _ & N2).
        apply (H3 p _ a N2 NA).
    + intros p pl Hp NP. destruct (RN p pl NP Hp) as (d & ND & HO). destruct (NB p d pl ND NP) as (LE & _ & N2).
      pose proof (IL p _ Hp N2) as LE2. cbn [fst snd s_len] in LE2. rewrite HO in *.
      replace (2 * (S n * parts + rem)) with (hb + 2 * (n * parts + (rem - extra))) by (unfold hb; nia).
      rewrite plane_rows_add by (apply Nat.mod_mul; lia). nia.
Qed.

Lemma split_planes_shape : forall f planes h threads, 0 < threads -> 0 < h -> h mod 2 = 0 ->
  match @split_planes convert_error (plane_descs f) planes h threads with
  | Ok bands =>
      bands <> [] /\
      (forall hk band, In (hk, band) bands ->
         0 < hk /\ length band = Nat.min (n_planes f) (length planes) /\
         forall p pl a, nth_error planes p = Some pl -> nth_error band p = Some a -> snd a = snd pl) /\
      (forall p pl, p < n_planes f -> nth_error planes p = Some pl -> snd pl * plane_rows f p h <= s_len (fst pl)) /\
      length bands = Nat.min threads (h / 2)
  | Panic _ => True
  | _ => False
  end.
Proof.
  intros f planes h threads T0 H0 EV. unfold split_planes.
  pose proof (Nat.div_mod h 2 ltac:(lia)) as D. rewrite EV in D.
  set (n := Nat.min threads (h / 2)). assert (N0 : 0 < n) by (unfold n; lia).
  destruct (Nat.eqb_spec n 0) as [Z|_]; [lia|].
  pose proof (Nat.div_mod (h / 2) n ltac:(lia)) as DM. pose proof (Nat.mod_upper_bound (h / 2) n ltac:(lia)) as MB.
  assert (P0 : 0 < h / 2 / n) by (apply Nat.div_str_pos; unfold n; lia).
  pose proof (split_loop_shape f n planes (h / 2 / n) ((h / 2) mod n) ltac:(lia)) as S.
  destruct (split_loop _ _ _ _ _) as [bands|e|q|]; try exact S. destruct S as (L & B & S).
  split; [destruct bands; [cbn in L; lia|discriminate]|]. split; [|split].
  - intros hk band I. apply In_nth_error in I as (k & N). destruct (B k hk band N) as (-> & H2 & H3).
    split; [unfold band_height; lia|]. split; assumption.
  - intros p pl Hp N. specialize (S p pl Hp N). replace (2 * (n * (h / 2 / n) + (h / 2) mod n)) with h in S by lia. exact S.
  - exact L.
Qed.
