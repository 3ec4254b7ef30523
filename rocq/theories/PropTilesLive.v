(** C69: tiles that are converted at the same time. *)

From Coq Require Import List ZArith Bool Arith Lia.
From Verif Require Import Base Types Planes ImageM Crop F32 Vector Simd SpecVector SpecGeom GeomProofs SpecColor SpecConvert SpecRun SpecExec SpecWindow Formats Visit Convert
  VisitProofs ConvertProofs ExecProofs WindowProofs PropConvert PropFidelity PropWindow PropTiles PropCopy PropRepeat.
Import ListNotations.

(** No pixel is in two of the tiles *)
Definition tiles_apart (tiles : list window) : Prop :=
  forall i j t u, i <> j -> nth_error tiles i = Some t -> nth_error tiles j = Some u -> forall x y, in_window t x y -> ~ in_window u x y.

(** Each tile is converted by a thread of its own. *)
Definition tile_threads (lm : libm) (b : backend) (src dst : image) (tiles : list window) : list (mem -> list wev) :=
  map (fun t m => fst (convert lm b m (cropped src t) (cropped dst t))) tiles.

Definition listed (im : image) : list (slice * nat) := match im_planes im with Ok ps => ps | _ => [] end.

Lemma window_listed : forall im ps t v, window_of im ps t v -> view_planes im ps t v (listed v).
Proof.
  intros im ps t v W. destruct (window_planes _ _ _ _ W) as (cps & VP). destruct (vp_valid _ _ _ _ _ VP) as (E & _).
  unfold listed. rewrite E. exact VP.
Qed.

Lemma window_byte_buffer : forall f ps t buf i, window_byte f ps t buf i -> exists pl, In pl ps /\ buf = s_buf (fst pl).
Proof. intros f ps t buf i (c & x & y & _ & p & r & col & pl & _ & N & B & _). exists pl. split; [eapply nth_error_In; exact N|exact B]. Qed.

(** Whatever the order in which the threads load and store: every pixel that is in a
    tile holds what converting the whole image stores for it, and the others are untouched. *)
Theorem C69_at_the_same_time_partial : forall lm b m src sps dst dps tiles evs ks,
  converts lm b m src sps dst dps -> apart sps dps -> Forall (tile src sps dst dps) tiles -> tiles_apart tiles ->
  let threads := tile_threads lm b src dst tiles in
  live threads m (map (fun _ => 0) threads) evs ks -> finished threads (apply_all m evs) ks ->
  forall c x y, has_comp (im_format dst) c = true -> in_image dst x y ->
  ictcp_chroma420 (im_format dst) (im_color dst) c = false ->            (* missing: see C19_refuted *)
  (forall t, In t tiles -> in_window t x y -> same_code b dst t x) ->
  let after := component (apply_all m evs) (im_format dst) dps c x y in
  ((exists t, In t tiles /\ in_window t x y) -> after = stored lm b m src dst dps c x y) /\
  (~ (exists t, In t tiles /\ in_window t x y) -> after = given m dst dps c x y).
Proof.
  intros lm b m src sps dst dps tiles evs ks CVT AP TS TA threads L F c x y HC HI NI SC.
  assert (CT := converts_convertible _ _ _ _ _ _ _ CVT). assert (CVT' := CVT). destruct CVT' as (VS & VD & PD & ST & OK).
  rewrite Forall_forall in TS.
  assert (LS : n_planes (im_format src) <= length sps) by (destruct (valid_ready _ _ VS) as (_ & _ & LS & _); exact LS).
  assert (LD : n_planes (im_format dst) <= length dps) by (destruct (valid_ready _ _ VD) as (_ & _ & LD & _); exact LD).
  assert (WC : whole_chroma (im_format dst) (im_width dst) (im_height dst)).
  { pose proof (cv_even_w _ _ _ _ CT) as EW. pose proof (cv_even_h _ _ _ _ CT) as EH. apply even_whole.
    - apply Nat.mod_divide in EW; [destruct EW as (k & ->); exists k; lia|lia].
    - apply Nat.mod_divide in EH; [destruct EH as (k & ->); exists k; lia|lia]. }
  set (jb := fun t => Job lm b (cropped src t) (listed (cropped src t)) (cropped dst t) (listed (cropped dst t))).
  assert (SP : forall t, In t tiles -> view_planes src sps t (cropped src t) (listed (cropped src t))) by (intros t I; apply window_listed, (TS t I)).
  assert (DP : forall t, In t tiles -> view_planes dst dps t (cropped dst t) (listed (cropped dst t))) by (intros t I; apply window_listed, (TS t I)).
  assert (SB : forall t buf i, In t tiles -> sample_byte (im_format (cropped dst t)) (listed (cropped dst t)) (im_width (cropped dst t)) (im_height (cropped dst t)) buf i ->
    window_byte (im_format dst) dps t buf i).
  { intros t buf i I S. exact (view_bytes _ _ _ _ _ _ _ (proj1 (proj2 (TS t I))) (DP t I) S). }
  destruct (C86_at_the_same_time (map jb tiles) m evs ks) as (IN & OUT).
  - intros j I. apply in_map_iff in I as (t & <- & I). split; [exact (vp_valid _ _ _ _ _ (SP t I))|]. split; [exact (vp_valid _ _ _ _ _ (DP t I))|].
    split; [exact (view_strides _ _ _ _ _ (SP t I) LS ST)|exact (view_disjoint _ _ _ _ _ (DP t I) LD PD)].
  - split.
    + intros j k IJ IK buf i S S'. apply in_map_iff in IJ as (t & <- & I). apply in_map_iff in IK as (u & <- & I').
      cbn [jb j_src j_sps j_dst j_dps] in S, S'. apply (SB u buf i I') in S'.
      apply (view_bytes _ _ _ _ _ _ _ (proj1 (TS t I)) (SP t I)) in S.
      apply window_byte_buffer in S as (p & P & E). apply window_byte_buffer in S' as (q & Q & E'). apply (AP p q P Q). congruence.
    + intros i j k l NE NK NL buf a S S'. rewrite nth_error_map in NK, NL.
      destruct (nth_error tiles i) as [t|] eqn:NT; [|discriminate NK]. destruct (nth_error tiles j) as [u|] eqn:NU; [|discriminate NL].
      injection NK as <-. injection NL as <-. cbn [jb j_src j_sps j_dst j_dps] in S, S'.
      pose proof (nth_error_In _ _ NT) as IT. pose proof (nth_error_In _ _ NU) as IU.
      apply (SB t buf a IT) in S. apply (SB u buf a IU) in S'. destruct S as (k & v & w & IW & CB).
      pose proof (vp_x _ _ _ _ _ (DP t IT)) as BX. pose proof (vp_y _ _ _ _ _ (DP t IT)) as BY.
      destruct (TS u IU) as (_ & WU & EU & EV).
      revert S'. apply (beside_window dst dps u _ k v w buf a WU PD WC (even_whole _ _ _ EU EV)); [destruct IW; lia|destruct IW; lia| |exact CB].
      exact (TA i j t u NE NT NU v w IW).
  - rewrite map_map. exact L.
  - rewrite map_map. exact F.
  - split.
    + intros (t & I & W). destruct W as (WX & WY).
      assert (TT : Forall (tile src sps dst dps) [t]) by (constructor; [apply TS, I|constructor]).
      destruct (C69_tiles_partial lm b m src sps dst dps [t] CVT AP TT c x y HC HI NI) as (ONE & _).
      { intros u [<-|[]]. apply SC, I. }
      rewrite <- ONE by (exists t; split; [left; reflexivity|split; assumption]). cbn [convert_tiles fold_left].
      replace x with (win_x t + (x - win_x t)) by lia. replace y with (win_y t + (y - win_y t)) by lia.
      rewrite <- !(vp_component _ _ _ _ _ (DP t I)). destruct (TS t I) as (_ & _ & EW & EH).
      apply component_same with (w := win_width t) (h := win_height t).
      * destruct EW as (k & ->). rewrite Nat.mul_comm. apply Nat.mod_mul. lia.
      * destruct EH as (k & ->). rewrite Nat.mul_comm. apply Nat.mod_mul. lia.
      * lia.
      * lia.
      * intros buf i S. apply (IN (jb t) (in_map jb tiles t I) buf i). exact S.
    + intros N. apply component_bytes. intros buf i CB. apply OUT. intros j IJ S. apply in_map_iff in IJ as (t & <- & I).
      apply (SB t buf i I) in S. destruct (TS t I) as (_ & WU & EU & EV). destruct HI as (HX & HY).
      revert S. apply (beside_window dst dps t _ c x y buf i WU PD WC (even_whole _ _ _ EU EV) HX HY); [|exact CB].
      intros W. apply N. exists t. auto.
Qed.
Print Assumptions C69_at_the_same_time_partial.

(** The tiles of C69_example are apart.  A 4x2 RGB picture is converted as two tiles
    of 2x2 pixels that take turns. *)
Definition from_planes : list (slice * nat) := [(Slice 0 0 45, 15)].
Definition halves_src : image := ex_image RGB 4 2 ex_rgb from_planes.
Definition halves_planes : list (slice * nat) := [(Slice 2 0 39, 13)].
Definition halves_dst : image := ex_image RGB 4 2 ex_rgb halves_planes.
Definition two_tiles : list window := [Window 0 0 2 2; Window 2 0 2 2].

Lemma quarters_apart : tiles_apart quarters.
Proof.
  intros i j t u NE NT NU x y ((A & B) & (C & D)) ((A' & B') & (C' & D')).
  destruct i as [|[|[|[|i]]]]; cbn in NT; try (destruct i; discriminate NT); injection NT as <-;
    (destruct j as [|[|[|[|j]]]]; cbn in NU; try (destruct j; discriminate NU); injection NU as <-); cbn in *; lia.
Qed.

Lemma two_tiles_apart : tiles_apart two_tiles.
Proof.
  intros i j t u NE NT NU x y ((A & B) & (C & D)) ((A' & B') & (C' & D')).
  destruct i as [|[|i]]; cbn in NT; try (destruct i; discriminate NT); injection NT as <-;
    (destruct j as [|[|j]]; cbn in NU; try (destruct j; discriminate NU); injection NU as <-); cbn in *; lia.
Qed.

Example C69_live_example :
  converts ex_lm Scalar ex_mem halves_src from_planes halves_dst halves_planes /\ apart from_planes halves_planes /\
  Forall (tile halves_src from_planes halves_dst halves_planes) two_tiles /\ tiles_apart two_tiles /\
  let threads := tile_threads ex_lm Scalar halves_src halves_dst two_tiles in
  exists evs ks, live threads ex_mem (map (fun _ => 0) threads) evs ks /\ finished threads (apply_all ex_mem evs) ks /\ 1 < length evs.
Proof.
  assert (VS : valid_image halves_src from_planes) by (split; [reflexivity|split; [repeat constructor; cbn; unfold usize; cbn; lia|reflexivity]]).
  assert (VD : valid_image halves_dst halves_planes) by (split; [reflexivity|split; [repeat constructor; cbn; unfold usize; cbn; lia|reflexivity]]).
  split; [apply runs; [exact VS|exact VD|apply one_disjoint|discriminate|vm_compute; reflexivity]|].
  split; [intros p q [<-|[]] [<-|[]]; discriminate|]. split.
  { apply Forall_forall. intros w [<-|[<-|[]]];
      (split; [split; [exact VS|split; [reflexivity|split; [eexists; vm_compute; reflexivity|split; [exact I|left; reflexivity]]]]|];
       split; [split; [exact VD|split; [reflexivity|split; [eexists; vm_compute; reflexivity|split; [exact I|left; reflexivity]]]]|]; split; exists 1; reflexivity). }
  split; [exact two_tiles_apart|].
  cbv zeta. eexists _, _. split; [|split].
  - repeat ((eapply live_step with (j := 0); [reflexivity|reflexivity|vm_compute; reflexivity|]);
            (eapply live_step with (j := 1); [reflexivity|reflexivity|vm_compute; reflexivity|])). apply live_stop.
  - split; [reflexivity|]. intros [|[|j]] c k NC NK; unfold tile_threads, two_tiles in NC; cbn [map nth_error] in NC;
      [injection NC as <-; injection NK as <-; vm_compute; reflexivity..|destruct j; discriminate NC].
  - cbn [length]. lia.
Qed.
