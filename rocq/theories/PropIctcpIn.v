(** C76 and C61 from YUV: what convert stores for ICtCp if the source is YUV of
    one of the other color spaces. *)

From Coq Require Import List ZArith Bool Arith Reals Lia Lra Psatz.
From Flocq Require Import Core.
From Verif Require Import Base Types Planes ImageM F32 Vector Simd SpecVector SimdProofs QuantProofs SpecGeom GeomProofs
  SpecColor SpecConvert SpecRun Formats Visit Convert VisitProofs ColorProofs ConvertProofs ExactProofs PropConvert PropFidelity
  SpecReal FloatProofs AccProofs TargetProofs PropColor ColorR SpecTransfer PowerProofs MathProofs SpecMath LaneProofs TransferProofs
  Math NegProofs RecolorProofs PropRecolor GamutProofs PropGamut PropBackends PropBackends2 SpecIctcp PropIctcp IctcpProofs WideProofs PropWide PropGray PqProofs PqEncProofs
  PropDrift PropBT2020 PropOut PropIctcpAcc PropIctcpPq PropIctcpGray PropGrayPq PropToPQ PropFromPQ PropPQ PropIctcpRecolor PropCodes PropIctcpLevels.
Import ListNotations.
Local Open Scope R_scope.

(** * One pixel whose light is known up to [e] *)

Lemma ictcp_pixel_near : forall L s t p q w e, accurate L -> is_bt2100 s -> approx3 (map3 (eotf L t) q) w e -> 0 <= e <= 6 / 100 ->
  (let '(x, y, z) := w in 0 <= x <= 12 / 10 /\ 0 <= y <= 12 / 10 /\ 0 <= z <= 12 / 10) ->
  let lms := to_lms (to_xyz p (map3 (eotf L t) q)) in
  let l := Rmax (fval (fst3 lms)) 0 in
  let m := Rmax (fval (snd3 lms)) 0 in
  let n := Rmax (fval (thd3 lms)) 0 in
  SpecIctcp.within3 (1002 / 1000 * e + 3 / 1000000) (l, m, n) (cones p (fst3 w) (snd3 w) (thd3 w)) /\ 0 <= l /\ 0 <= m /\ 0 <= n /\
  let v := rgb_yuv L s t p q in
  let i := ictcp_matrix s (ictcp_curve s l) (ictcp_curve s m) (ictcp_curve s n) in
  (approx (fst3 v) (fst3 i) (mix_error s) /\ approx (snd3 v) (snd3 i) (mix_error s) /\ approx (thd3 v) (thd3 i) (mix_error s)) /\
  Rabs (fst3 i) <= 28 / 10 /\ Rabs (snd3 i) <= 28 / 10 /\ Rabs (thd3 i) <= 28 / 10.
Proof.
  intros L s t p q ((r, g), b) e A S D E (R1 & R2 & R3). cbv zeta.
  assert (Y : approx3 (to_lms (to_xyz p (map3 (eotf L t) q))) (cones p r g b) (1002 / 1000 * e + 24 / 10000000)).
  { destruct (Rle_dec e (12 / 1000)) as [SM|SM].
    - pose proof (cones_scaled (12 / 10) p _ r g b e ltac:(lra) D ltac:(split; [|split]; lra) ltac:(lra)) as Y.
      destruct (to_lms _) as ((l, m), n), (cones p r g b) as ((cl, cm), cn). destruct Y as (Y1 & Y2 & Y3). (split; [|split]); (eapply approx_le; [eassumption|lra]).
    - pose proof (cones_scaled 6 p _ r g b e ltac:(lra) D ltac:(split; [|split]; lra) ltac:(lra)) as Y.
      destruct (to_lms _) as ((l, m), n), (cones p r g b) as ((cl, cm), cn). destruct Y as (Y1 & Y2 & Y3). (split; [|split]); (eapply approx_le; [eassumption|lra]). }
  change (cones p (fst3 (r, g, b)) (snd3 (r, g, b)) (thd3 (r, g, b))) with (cones p r g b).
  pose proof (cones_range p r g b _ R1 R2 R3) as C. destruct (cones p r g b) as [[cl cm] cn]. destruct C as (C1 & C2 & C3).
  assert (RY : rgb_yuv L s t p q = let '(l, m, n) := map3 (oetf L (curve_of s)) (to_lms (to_xyz p (map3 (eotf L t) q))) in
    match s with
    | SpICtCpPQ => (l * flit 5 1 + m * flit 5 1,
         dot (flit 6610 0) (flit (-13613) 0) (flit 7003 0) l m n / flit 4096 0,
         dot (flit 17933 0) (flit (-17390) 0) (flit (-543) 0) l m n / flit 4096 0)%F
    | _ => ((l + m) * flit 5 1,
         l * flit 88500977 8 - m * flit 18225098 7 + n * flit 9375 4,
         l * flit 2319336 6 - m * flit 22490234 7 - n * flit 703125 7)%F
    end) by (destruct S as [-> | ->]; reflexivity).
  rewrite RY. clear RY. destruct (to_lms (to_xyz p (map3 (eotf L t) q))) as [[l m] n]. destruct Y as (Y1 & Y2 & Y3).
  unfold fst3, snd3, thd3. cbn [fst snd map3].
  assert (K : forall a va, approx a va (1002 / 1000 * e + 24 / 10000000) -> 0 <= va <= 12 / 10 * (1 + 4 / 100000) ->
    Rabs (Rmax (fval a) 0 - va) <= 1002 / 1000 * e + 3 / 1000000 /\ 0 <= Rmax (fval a) 0 <= 13 / 10 /\
    approx (oetf L (curve_of s) a) (ictcp_curve s (Rmax (fval a) 0)) match s with SpICtCpPQ => 1 / 4000 | _ => 5 / 1000000 end).
  { intros a va (NA & EA) VA. assert (W : Rabs (Rmax (fval a) 0 - va) <= 1002 / 1000 * e + 3 / 1000000) by (apply max_near; lra).
    split; [exact W|]. apply Rabs_le_inv in W. split; [split; [apply Rmax_r|lra]|].
    apply Rabs_le_inv in EA.
    destruct S as [-> | ->]; cbn [curve_of ictcp_curve]; [apply pq_enc_max|apply hlg_enc_max]; auto; lra. }
  destruct (K l cl Y1 ltac:(lra)) as (K1 & B1 & E1). destruct (K m cm Y2 ltac:(lra)) as (K2 & B2 & E2). destruct (K n cn Y3 ltac:(lra)) as (K3 & B3 & E3). clear K.
  split; [repeat split; assumption|]. repeat (split; [apply Rmax_r|]).
  pose proof (mix_acc s _ _ _ _ _ _ S (curve_bound s _ S B1) (curve_bound s _ S B2) (curve_bound s _ S B3) E1 E2 E3) as M.
  destruct (ictcp_matrix s _ _ _) as [[vy vu] vv]. destruct S as [-> | ->]; exact M.
Qed.

(** * One sample *)

(** Whatever the source is: if the light of the pixels that belong to the sample
    is known up to [e], what is stored is the level of cone responses that are
    theirs. *)
Lemma ictcp_sample : forall sp sl b m src sps dst dps i e (w : nat -> nat -> R * R * R) c x y,
  converts (libm_of sp sl) b m src sps dst dps ->
  sampling_of (im_format dst) <> SRGB -> same_image_kind src dst = false ->
  im_color dst = CYUV i -> is_bt2100 (yc_space i) -> 0 <= e <= 6 / 100 ->
  has_comp (im_format dst) c = true -> in_image dst x y ->
  (sampling_of (im_format dst) = S420 -> c = CY) ->
  let cb := column_backend b (im_width dst) x in
  let L := lane_of (libm_of sp sl) cb in
  accurate L ->
  let q x y := fst (recolored L (im_color src) (im_color dst) (source_pixel L m (im_format src) (im_color src) sps x y)) in
  (forall p, In p ((x, y) :: chroma_block (sampling_of (im_format dst)) x y) ->
     approx3 (map3 (eotf L (yc_transfer i)) (q (fst p) (snd p))) (w (fst p) (snd p)) e /\
     let '(r, g, b) := w (fst p) (snd p) in 0 <= r <= 12 / 10 /\ 0 <= g <= 12 / 10 /\ 0 <= b <= 12 / 10) ->
  exists l m' n,
    (forall p, In p ((x, y) :: chroma_block (sampling_of (im_format dst)) x y) ->
      SpecIctcp.within3 (1002 / 1000 * e + 3 / 1000000) (l (fst p) (snd p), m' (fst p) (snd p), n (fst p) (snd p))
        (cones (yc_primaries i) (fst3 (w (fst p) (snd p))) (snd3 (w (fst p) (snd p))) (thd3 (w (fst p) (snd p)))) /\
      0 <= l (fst p) (snd p) /\ 0 <= m' (fst p) (snd p) /\ 0 <= n (fst p) (snd p)) /\
    let M := IZR (max_level (im_format dst)) in
    let E := M * ictcp_error (yc_space i) in
    let v := ictcp_level (yc_space i) (yc_full_range i) (im_format dst) l m' n c x y in
    let hi := IZR (top (im_format dst)) in
    exists z, stored (libm_of sp sl) b m src dst dps c x y = Some z /\ (0 <= z)%Z /\
      ((cb = AVX512 -> - (1 / 4) + E <= v <= hi + 1 / 4 - E) -> stored_for cb E (clamp hi v) z).
Proof.
  intros sp sl b m src sps dst dps i e w c x y CVT FD SK CI S E0 HC HI N420 cb L A q H.
  set (t := yc_transfer i) in *. set (ps := yc_primaries i) in *.
  set (lms := fun x y => to_lms (to_xyz ps (map3 (eotf L t) (q x y)))).
  set (l := fun x y => Rmax (fval (fst3 (lms x y))) 0). set (mm := fun x y => Rmax (fval (snd3 (lms x y))) 0). set (n := fun x y => Rmax (fval (thd3 (lms x y))) 0).
  set (blk := chroma_block (sampling_of (im_format dst)) x y) in *.
  set (W := fun x y => ictcp_matrix (yc_space i) (ictcp_curve (yc_space i) (l x y)) (ictcp_curve (yc_space i) (mm x y)) (ictcp_curve (yc_space i) (n x y))).
  assert (PX : forall p, In p ((x, y) :: blk) -> SpecIctcp.within3 (1002 / 1000 * e + 3 / 1000000) (l (fst p) (snd p), mm (fst p) (snd p), n (fst p) (snd p))
        (cones ps (fst3 (w (fst p) (snd p))) (snd3 (w (fst p) (snd p))) (thd3 (w (fst p) (snd p)))) /\ 0 <= l (fst p) (snd p) /\ 0 <= mm (fst p) (snd p) /\ 0 <= n (fst p) (snd p) /\
     let v := rgb_yuv L (yc_space i) t ps (q (fst p) (snd p)) in
     let w := W (fst p) (snd p) in
     (approx (fst3 v) (fst3 w) (mix_error (yc_space i)) /\ approx (snd3 v) (snd3 w) (mix_error (yc_space i)) /\ approx (thd3 v) (thd3 w) (mix_error (yc_space i))) /\
     Rabs (fst3 w) <= 28 / 10 /\ Rabs (snd3 w) <= 28 / 10 /\ Rabs (thd3 w) <= 28 / 10).
  { intros p HP. destruct (H p HP) as (D & R).
    exact (ictcp_pixel_near L (yc_space i) t ps (q (fst p) (snd p)) _ e A S D E0 R). }
  exists l, mm, n. split; [intros p HP; destruct (PX p HP) as (P1 & P2 & P3 & P4 & _); auto|].
  intros M E v hi.
  assert (ICT : ictcp_chroma420 (im_format dst) (im_color dst) c = false).
  { unfold ictcp_chroma420. destruct (sampling_of (im_format dst)) eqn:ES; try (destruct (im_color dst), c; reflexivity). rewrite N420 by reflexivity. rewrite CI. reflexivity. }
  rewrite (stored_expected _ _ _ _ _ _ _ CVT c x y HC HI ICT). fold cb L. eexists; split; [reflexivity|]. split; [apply quantise_nonneg|].
  intros AV. unfold expected_value. rewrite SK.
  pose proof (max_level_R (im_format dst)) as M1. fold M in M1.
  assert (CC : c = CY \/ c = CU \/ c = CV) by (unfold has_comp in HC; destruct (sampling_of (im_format dst)), c; auto; congruence).
  assert (ME : 0 <= mix_error (yc_space i) <= 1 / 400) by (destruct S as [-> | ->]; cbn; lra).
  assert (EE : mix_error (yc_space i) + 63 * u7 <= ictcp_error (yc_space i)) by (destruct S as [-> | ->]; cbn; unfold u7; lra).
  assert (EM : M * (mix_error (yc_space i) + 30 * u7 + 33 * u7) <= E) by (unfold E; apply Rmult_le_compat_l; lra).
  assert (MN : forall (sel : f32 * f32 * f32 -> f32) (selR : R * R * R -> R),
    (forall p, In p ((x, y) :: blk) -> approx (sel (rgb_yuv L (yc_space i) t ps (q (fst p) (snd p)))) (selR (W (fst p) (snd p))) (mix_error (yc_space i)) /\ Rabs (selR (W (fst p) (snd p))) <= 28 / 10) ->
    sampling_of (im_format dst) <> S420 ->
    let u := match sampling_of (im_format dst) with
        | S420 => sel (rgb_yuv L (yc_space i) t ps (mean4 (q (2 * (x / 2)) (2 * (y / 2))) (q (2 * (x / 2)) (2 * (y / 2) + 1)) (q (2 * (x / 2) + 1) (2 * (y / 2))) (q (2 * (x / 2) + 1) (2 * (y / 2) + 1))))
        | S422 => fdiv (fadd (sel (rgb_yuv L (yc_space i) t ps (q (2 * (x / 2)) y))) (sel (rgb_yuv L (yc_space i) t ps (q (2 * (x / 2) + 1) y)))) (flit 2 0)
        | _ => sel (rgb_yuv L (yc_space i) t ps (q x y))
        end%nat in
    approx u (chroma_mean (sampling_of (im_format dst)) (fun x y => selR (W x y)) x y) (mix_error (yc_space i) + 30 * u7) /\
    Rabs (chroma_mean (sampling_of (im_format dst)) (fun x y => selR (W x y)) x y) <= 28 / 10).
  { intros sel selR HS NS u. subst u. unfold blk in HS. clear - HS NS FD ME. unfold chroma_mean, mean, chroma_block in *. destruct (sampling_of (im_format dst)); [congruence| | |congruence];
      cbn [map fst snd fold_right length].
    - rewrite <- (Nat.add_1_r (2 * (x / 2))) in *. destruct (HS (2 * (x / 2), y)%nat ltac:(cbn [In]; auto)) as ((NA & EA) & BA).
      destruct (HS (2 * (x / 2) + 1, y)%nat ltac:(cbn [In]; auto)) as ((NB & EB) & BB). cbn [fst snd] in *.
      set (a := selR (W (2 * (x / 2))%nat y)) in *. set (a' := selR (W (2 * (x / 2) + 1)%nat y)) in *.
      set (f1 := sel (rgb_yuv L (yc_space i) t ps (q (2 * (x / 2))%nat y))) in *. set (f2 := sel (rgb_yuv L (yc_space i) t ps (q (2 * (x / 2) + 1)%nat y))) in *. clearbody f1 f2 a a'.
      apply Rabs_le_inv in EA. apply Rabs_le_inv in EB. apply Rabs_le_inv in BA. apply Rabs_le_inv in BB.
      split; [|simpl INR; apply Rabs_le; lra].
      eapply approx_weaken; [apply (acc_mean2 f1 f2 _ _ 0 (exact_approx _ NA) (exact_approx _ NB)); try (apply Rabs_le; lra); lra|].
      simpl INR. assert (Rabs ((fval f1 + fval f2) / 2 - (a + (a' + 0)) / (1 + 1)) <= mix_error (yc_space i)) by (apply Rabs_le; lra). lra.
    - destruct (HS (x, y) ltac:(cbn [In]; auto)) as (HA & BA). cbn [fst snd] in *. simpl INR. replace ((selR (W x y) + 0) / 1) with (selR (W x y)) by field. split; [|exact BA].
      eapply approx_le; [exact HA|]. unfold u7; lra. }
  assert (VE : v = match c with
      | CU => c_level (yc_full_range i) M (chroma_mean (sampling_of (im_format dst)) (fun x y => snd3 (W x y)) x y)
      | CV => c_level (yc_full_range i) M (chroma_mean (sampling_of (im_format dst)) (fun x y => thd3 (W x y)) x y)
      | _ => y_level (yc_full_range i) M (fst3 (W x y)) end) by reflexivity.
  clearbody v. subst v.
  assert (TG : forall v0, target L (im_format dst) (CYUV i) (fun x y => recolored L (im_color src) (im_color dst) (source_pixel L m (im_format src) (im_color src) sps x y)) c x y = v0 ->
    stored_for cb E (clamp hi (match c with
      | CU => c_level (yc_full_range i) M (chroma_mean (sampling_of (im_format dst)) (fun x y => snd3 (W x y)) x y)
      | CV => c_level (yc_full_range i) M (chroma_mean (sampling_of (im_format dst)) (fun x y => thd3 (W x y)) x y)
      | _ => y_level (yc_full_range i) M (fst3 (W x y)) end)) (quantise (quant_of cb) (im_format dst) v0)).
  { intros v0 <-. unfold target. fold (q x y). fold t ps.
    destruct CC as [-> |[-> | ->]]; cbv match in AV |- *.
    - destruct (PX (x, y) ltac:(cbn [In]; auto)) as (_ & _ & _ & _ & (P & _) & (PB & _)). cbn [fst snd] in P, PB.
      destruct (store_level cb (im_format dst) i _ (fst3 (W x y)) _ P PB ltac:(lra)) as (T & _). fold M in T. fold hi in T.
      assert (ME' : M * (mix_error (yc_space i) + 33 * u7) <= E) by (eapply Rle_trans; [|exact EM]; apply Rmult_le_compat_l; unfold u7; lra).
      assert (SF := stored_for_weaken _ _ E _ _ (T ltac:(clearbody E; clear - AV ME'; intros X; specialize (AV X); lra)) ME').
      destruct (sampling_of (im_format dst)); try exact SF. congruence.
    - assert (NS : sampling_of (im_format dst) <> S420) by (intros X; specialize (N420 X); discriminate).
      destruct (MN snd3 snd3 ltac:(intros p HP; destruct (PX p HP) as (_ & _ & _ & _ & (_ & P & _) & (_ & PB & _)); auto) NS) as (Q & QB).
      destruct (store_level cb (im_format dst) i _ _ _ Q QB ltac:(unfold u7; lra)) as (_ & T). fold M in T. fold hi in T.
      assert (SF := stored_for_weaken _ _ E _ _ (T ltac:(clearbody E; clear - AV EM; intros X; specialize (AV X); lra)) EM).
      destruct (sampling_of (im_format dst)); try exact SF; congruence.
    - assert (NS : sampling_of (im_format dst) <> S420) by (intros X; specialize (N420 X); discriminate).
      destruct (MN thd3 thd3 ltac:(intros p HP; destruct (PX p HP) as (_ & _ & _ & _ & (_ & _ & P) & (_ & _ & PB)); auto) NS) as (Q & QB).
      destruct (store_level cb (im_format dst) i _ _ _ Q QB ltac:(unfold u7; lra)) as (_ & T). fold M in T. fold hi in T.
      assert (SF := stored_for_weaken _ _ E _ _ (T ltac:(clearbody E; clear - AV EM; intros X; specialize (AV X); lra)) EM).
      destruct (sampling_of (im_format dst)); try exact SF; congruence. }
  apply TG. rewrite <- CI. reflexivity.
Qed.

(** * Codes of cone responses that are 1/5000 apart *)

Lemma hlg_close_wide : forall a b, 0 <= a -> a <= b <= a + 1 / 5000 -> - (1 / 10000) <= hlg_encode b - hlg_encode a <= 25 / 1000.
Proof.
  intros a b A AB. assert (SQ : sqrt (3 * (1 / 5000)) <= 245 / 10000).
  { apply Rsqr_incr_0_var; [rewrite Rsqr_sqrt by lra; unfold Rsqr; lra|lra]. }
  assert (SUB : forall u v, 0 <= u -> 0 <= v -> sqrt (u + v) <= sqrt u + sqrt v).
  { intros u v U V. apply Rsqr_incr_0_var; [|pose proof (sqrt_pos u); pose proof (sqrt_pos v); lra]. rewrite Rsqr_sqrt by lra.
    unfold Rsqr. pose proof (sqrt_sqrt u U). pose proof (sqrt_sqrt v V). pose proof (sqrt_pos u). pose proof (sqrt_pos v). nra. }
  assert (LOW : forall u v, 0 <= u <= v -> v <= u + 1 / 5000 -> sqrt (3 * u) <= sqrt (3 * v) <= sqrt (3 * u) + 245 / 10000).
  { intros u v U V. split; [apply sqrt_le_1; lra|]. replace (3 * v) with (3 * u + 3 * (v - u)) by ring.
    eapply Rle_trans; [apply SUB; lra|]. assert (sqrt (3 * (v - u)) <= sqrt (3 * (1 / 5000))) by (apply sqrt_le_1; lra). lra. }
  unfold hlg_encode. destruct (Rle_dec a (1 / 12)) as [CA|CA], (Rle_dec b (1 / 12)) as [CB|CB]; try lra.
  - pose proof (LOW a b ltac:(lra) ltac:(lra)). lra.
  - destruct (hlg_log b ltac:(lra)) as (H1 & H2).
    assert (HALF : sqrt (3 * (1 / 12)) = 1 / 2) by (replace (3 * (1 / 12)) with ((1 / 2) * (1 / 2)) by field; apply sqrt_square; lra).
    assert (LE : sqrt (3 * a) <= 1 / 2) by (rewrite <- HALF; apply sqrt_le_1; lra).
    assert (ha * (12 * b - 1) / (1 - hb) <= 25 / 100 * (12 * (b - 1 / 12))).
    { replace (12 * b - 1) with (12 * (b - 1 / 12)) by field. set (w := 12 * (b - 1 / 12)). assert (0 <= w) by (unfold w; lra). unfold ha, hb.
      apply Rmult_le_reg_r with (1 - 28466892 / 100000000); [lra|]. unfold Rdiv at 1. rewrite Rmult_assoc, Rinv_l by lra. nra. }
    assert (AS : sqrt (3 * a) >= 1 / 2 - 4 * (1 / 12 - a)).
    { apply Rle_ge. apply Rsqr_incr_0_var; [|apply sqrt_pos]. rewrite Rsqr_sqrt by lra. unfold Rsqr. nra. }
    split; lra.
  - assert (W : 1 - hb < 12 * a - hb) by lra. assert (B : 0 < 1 - hb) by (unfold hb; lra).
    assert (M : ln (12 * a - hb) <= ln (12 * b - hb)).
    { destruct (Req_dec a b) as [->|NE]; [lra|]. left. apply ln_increasing; lra. }
    assert (U : ln (12 * b - hb) - ln (12 * a - hb) <= 4 / 1000).
    { assert (E : 12 * b - hb = (12 * a - hb) * (1 + 12 * (b - a) / (12 * a - hb))) by (field; lra).
      assert (P : 0 <= 12 * (b - a) / (12 * a - hb) <= 4 / 1000).
      { split; [apply Rmult_le_pos; [lra|left; apply Rinv_0_lt_compat; lra]|]. apply Rmult_le_reg_r with (12 * a - hb); [lra|].
        unfold Rdiv at 1. rewrite Rmult_assoc, Rinv_l by lra. unfold hb in *. lra. }
      rewrite E, ln_mult by lra. set (u := 12 * (b - a) / (12 * a - hb)) in *.
      assert (ln (1 + u) <= u); [|lra]. apply Rnot_lt_le. intros C. apply exp_increasing in C. rewrite exp_ln in C by lra. pose proof (exp_ineq1_le u). lra. }
    unfold ha. lra.
Qed.

Definition wide_gap (s : color_space) : R := match s with SpICtCpPQ => 26 / 10000 | _ => 25 / 1000 end.

Lemma code_near_wide : forall s l v, is_bt2100 s -> 0 <= l -> Rabs (l - v) <= 1 / 5000 -> Rabs (ictcp_curve s l - cone_code s v) <= wide_gap s.
Proof.
  intros s l v S L D. unfold cone_code. destruct S as [-> | ->]; cbn [ictcp_curve wide_gap].
  - destruct small_codes as (_ & _ & C & _). apply pq_code_near in D. unfold pq_code in D. rewrite (Rmax_left l 0) in D by exact L. lra.
  - assert (D' : Rabs (l - Rmax v 0) <= 1 / 5000).
    { apply Rabs_le_inv in D. apply Rabs_le. unfold Rmax. destruct (Rle_dec v 0); lra. }
    pose proof (Rmax_r v 0) as V. set (w := Rmax v 0) in *. clearbody w. apply Rabs_le_inv in D'. apply Rabs_le.
    destruct (Rle_dec l w) as [O|O].
    + pose proof (hlg_close_wide l w L ltac:(lra)). lra.
    + pose proof (hlg_close_wide w l V ltac:(lra)). lra.
Qed.

(** Accuracy of an ICtCp sample, as part of the full scale *)
Definition wide_error (s : color_space) (c : comp) : R := ictcp_error s + row s c * wide_gap s.

Lemma ictcp_sample_levels : forall s full f cb E0 (l m n l' m' n' : nat -> nat -> R) c x y z, is_bt2100 s -> E0 = ictcp_error s ->
  (forall p, In p ((x, y) :: chroma_block (sampling_of f) x y) ->
     SpecIctcp.within3 (1 / 5000) (l (fst p) (snd p), m (fst p) (snd p), n (fst p) (snd p)) (l' (fst p) (snd p), m' (fst p) (snd p), n' (fst p) (snd p)) /\
     0 <= l (fst p) (snd p) /\ 0 <= m (fst p) (snd p) /\ 0 <= n (fst p) (snd p)) ->
  let M := IZR (max_level f) in let hi := IZR (top f) in
  let v1 := ictcp_level s full f l m n c x y in
  let v := ictcp_level s full f (fun x y => Rmax (l' x y) 0) (fun x y => Rmax (m' x y) 0) (fun x y => Rmax (n' x y) 0) c x y in
  let E := M * wide_error s c in
  ((cb = AVX512 -> - (1 / 4) + M * E0 <= v1 <= hi + 1 / 4 - M * E0) -> stored_for cb (M * E0) (clamp hi v1) z) ->
  (cb = AVX512 -> - (1 / 4) + E <= v <= hi + 1 / 4 - E) -> stored_for cb E (clamp hi v) z.
Proof.
  intros s full f cb E0 l m n l' m' n' c x y z S -> H M hi v1 v E R AV.
  assert (NV : Rabs (v1 - v) <= M * (row s c * wide_gap s)).
  { apply ictcp_level_near; [exact S|destruct S as [-> | ->]; cbn; lra|]. intros (x', y') HP. destruct (H _ HP) as ((W1 & W2 & W3) & L0 & M0 & N0). cbn [fst snd] in *.
    split; [|split]; apply (code_near_wide _ _ _ S); assumption. }
  assert (HH : 0 <= hi) by (unfold hi; apply IZR_le; unfold top; destruct (sample_bytes f) as [|[|[|]]]; cbn; lia).
  pose proof NV as NV'. apply Rabs_le_inv in NV'. unfold E, wide_error in AV.
  assert (R' := R ltac:(intros A5; specialize (AV A5); lra)).
  eapply stored_for_weaken; [apply (stored_for_shift _ _ _ _ (clamp hi v) _ (clamp_near _ _ _ _ HH NV)) with (1 := R')|unfold E, wide_error; lra].
Qed.

(** * C76 *)

(** The light of a YUV pixel *)
Definition yuv_light (k : weights) (m : mem) (src : image) (sps : list (slice * nat)) (i : yuv_color_info) (x y : nat) : R * R * R :=
  let s c := read_at k m src sps i c x y in
  (decoded (yc_transfer i) (s CR), decoded (yc_transfer i) (s CG), decoded (yc_transfer i) (s CB)).

(** YUV of another color space to ICtCp: the cone responses are those of the light
    of the pixels up to 75 (HLG: 126) millionths.
    Missing: the chroma of 4:2:0 (see C19); PQ sources; other transfer functions
    or primaries than those of the source; source colors outside of 0 .. 1. *)
Theorem C76_yuv_to_ictcp_partial : forall sp sl b m src sps dst dps is k i,
  converts (libm_of sp sl) b m src sps dst dps -> levels_ok m src sps ->
  sampling_of (im_format src) <> SRGB -> sampling_of (im_format dst) <> SRGB ->
  im_color src = CYUV is -> weights_of (yc_space is) = Some k ->
  im_color dst = CYUV i -> is_bt2100 (yc_space i) ->
  same_light (im_color src) (im_color dst) = true -> yc_transfer is <> TBT2100PQ ->
  forall c x y, has_comp (im_format dst) c = true -> in_image dst x y ->
  (sampling_of (im_format dst) = S420 -> c = CY) ->
  let cb := column_backend b (im_width dst) x in
  platform_pow sp sl cb ->
  let block := (x, y) :: chroma_block (sampling_of (im_format dst)) x y in
  (forall p, In p block -> read_real k m src sps is (fst p) (snd p)) ->
  let light := yuv_light k m src sps is in
  exists l m' n,
    (forall p, In p block -> let x := fst p in let y := snd p in
      SpecIctcp.within3 (match yc_transfer is with TBT2100HLG => 126 / 1000000 | _ => 75 / 1000000 end) (l x y, m' x y, n x y)
        (cones (yc_primaries is) (fst3 (light x y)) (snd3 (light x y)) (thd3 (light x y))) /\
      0 <= l x y /\ 0 <= m' x y /\ 0 <= n x y) /\
    let M := IZR (max_level (im_format dst)) in
    let E := M * ictcp_error (yc_space i) in
    let v := ictcp_level (yc_space i) (yc_full_range i) (im_format dst) l m' n c x y in
    let hi := IZR (top (im_format dst)) in
    exists z, stored (libm_of sp sl) b m src dst dps c x y = Some z /\ (0 <= z)%Z /\
      ((cb = AVX512 -> - (1 / 4) + E <= v <= hi + 1 / 4 - E) -> stored_for cb E (clamp hi v) z).
Proof.
  intros sp sl b m src sps dst dps is k i CVT LV FS FD CS WK CI S SL TS c x y HC HI N420 cb PL block RR light.
  pose proof (accurate_lane sp sl cb PL) as A. assert (VS : valid_image src sps) by apply CVT.
  pose proof (converts_convertible _ _ _ _ _ _ _ CVT) as CT.
  assert (SK : same_image_kind src dst = false).
  { unfold same_image_kind. apply andb_false_iff; right. unfold color_info_eqb. destruct (color_info_eq_dec _ _) as [EQ|]; [|reflexivity].
    rewrite CS, CI in EQ. injection EQ as ->. destruct S as [SE|SE]; rewrite SE in WK; discriminate WK. }
  assert (TP : yc_transfer i = yc_transfer is /\ yc_primaries i = yc_primaries is).
  { rewrite CS, CI in SL. unfold same_light in SL. cbn [ci_transfer ci_primaries] in SL. destruct (yc_transfer is), (yc_transfer i); try discriminate SL;
      destruct (yc_primaries is), (yc_primaries i); try discriminate SL; auto. }
  destruct TP as (TE & PE).
  destruct (ictcp_sample sp sl b m src sps dst dps i (decode_error (yc_transfer is)) light c x y CVT FD SK CI S
    ltac:(unfold decode_error; destruct (yc_transfer is); lra) HC HI N420 A) as (l & mm & n & H & R).
  { intros p HP. assert (HP' : in_image src (fst p) (snd p)).
    { assert (in_image dst (fst p) (snd p)) as I by (eapply block_in_image; [apply CT|apply CT|exact HI|exact HP]).
      unfold in_image in *. rewrite (cv_width _ _ _ _ CT), (cv_height _ _ _ _ CT). exact I. }
    unfold recolored. rewrite SL, TE.
    pose proof (read_light sp sl cb m src sps is k (fst p) (snd p) A VS LV FS CS WK HP' ltac:(rewrite CS; exact TS) (RR p HP)) as Q.
    rewrite CS in Q |- *. exact Q. }
  exists l, mm, n. split; [|exact R]. intros p HP x' y'. destruct (H p HP) as (W & PS). split; [|exact PS]. subst x' y'. rewrite PE in W.
  destruct (cones _ _ _ _) as ((c1, c2), c3). destruct W as (W1 & W2 & W3). unfold decode_error in *.
  destruct (yc_transfer is); (split; [|split]); lra.
Qed.
Print Assumptions C76_yuv_to_ictcp_partial.

(** In levels of the ICtCp color of the light itself *)
Theorem C76_yuv_to_ictcp_levels_partial : forall sp sl b m src sps dst dps is k i,
  converts (libm_of sp sl) b m src sps dst dps -> levels_ok m src sps ->
  sampling_of (im_format src) <> SRGB -> sampling_of (im_format dst) <> SRGB ->
  im_color src = CYUV is -> weights_of (yc_space is) = Some k ->
  im_color dst = CYUV i -> is_bt2100 (yc_space i) ->
  same_light (im_color src) (im_color dst) = true -> yc_transfer is <> TBT2100PQ ->
  forall c x y, has_comp (im_format dst) c = true -> in_image dst x y ->
  (sampling_of (im_format dst) = S420 -> c = CY) ->
  let cb := column_backend b (im_width dst) x in
  platform_pow sp sl cb ->
  (forall p, In p ((x, y) :: chroma_block (sampling_of (im_format dst)) x y) -> read_real k m src sps is (fst p) (snd p)) ->
  let light := yuv_light k m src sps is in
  let response x y := cones (yc_primaries is) (fst3 (light x y)) (snd3 (light x y)) (thd3 (light x y)) in
  let E := IZR (max_level (im_format dst)) * wide_error (yc_space i) c in
  let v := ictcp_level (yc_space i) (yc_full_range i) (im_format dst)
    (fun x y => Rmax (fst3 (response x y)) 0) (fun x y => Rmax (snd3 (response x y)) 0) (fun x y => Rmax (thd3 (response x y)) 0) c x y in
  let hi := IZR (top (im_format dst)) in
  exists z, stored (libm_of sp sl) b m src dst dps c x y = Some z /\ (0 <= z)%Z /\
    ((cb = AVX512 -> - (1 / 4) + E <= v <= hi + 1 / 4 - E) -> stored_for cb E (clamp hi v) z).
Proof.
  intros sp sl b m src sps dst dps is k i CVT LV FS FD CS WK CI S SL TS c x y HC HI N420 cb PL RR light response E v hi.
  destruct (C76_yuv_to_ictcp_partial sp sl b m src sps dst dps is k i CVT LV FS FD CS WK CI S SL TS c x y HC HI N420 PL RR) as (l & m' & n & H & R).
  cbv zeta in R. destruct R as (z & ST & Z0 & R). exists z. split; [exact ST|]. split; [exact Z0|].
  refine (ictcp_sample_levels (yc_space i) (yc_full_range i) (im_format dst) cb _ l m' n (fun x y => fst3 (response x y)) (fun x y => snd3 (response x y)) (fun x y => thd3 (response x y))
    c x y z S eq_refl _ R).
  intros p HP. destruct (H p HP) as (W & PS). split; [|exact PS]. fold light in W. fold (response (fst p) (snd p)) in W.
  destruct (response (fst p) (snd p)) as ((r1, r2), r3). unfold fst3, snd3, thd3. cbn [fst snd]. destruct W as (W1 & W2 & W3).
  destruct (yc_transfer is); (split; [|split]); lra.
Qed.
Print Assumptions C76_yuv_to_ictcp_levels_partial.

(** * C61 *)

(** YUV to ICtCp on two CPUs *)
Theorem C61_yuv_to_ictcp : forall sp1 sl1 b1 sp2 sl2 b2 m src sps dst dps is k i,
  converts (libm_of sp1 sl1) b1 m src sps dst dps -> converts (libm_of sp2 sl2) b2 m src sps dst dps -> levels_ok m src sps ->
  sampling_of (im_format src) <> SRGB -> sampling_of (im_format dst) <> SRGB ->
  im_color src = CYUV is -> weights_of (yc_space is) = Some k ->
  im_color dst = CYUV i -> is_bt2100 (yc_space i) ->
  same_light (im_color src) (im_color dst) = true -> yc_transfer is <> TBT2100PQ ->
  forall c x y, has_comp (im_format dst) c = true -> in_image dst x y ->
  (sampling_of (im_format dst) = S420 -> c = CY) ->
  let cb1 := column_backend b1 (im_width dst) x in
  let cb2 := column_backend b2 (im_width dst) x in
  platform_pow sp1 sl1 cb1 -> platform_pow sp2 sl2 cb2 ->
  (forall p, In p ((x, y) :: chroma_block (sampling_of (im_format dst)) x y) -> read_real k m src sps is (fst p) (snd p)) ->
  let light := yuv_light k m src sps is in
  let response x y := cones (yc_primaries is) (fst3 (light x y)) (snd3 (light x y)) (thd3 (light x y)) in
  let E := IZR (max_level (im_format dst)) * wide_error (yc_space i) c in
  let v := ictcp_level (yc_space i) (yc_full_range i) (im_format dst)
    (fun x y => Rmax (fst3 (response x y)) 0) (fun x y => Rmax (snd3 (response x y)) 0) (fun x y => Rmax (thd3 (response x y)) 0) c x y in
  let hi := IZR (top (im_format dst)) in
  (cb1 = AVX512 \/ cb2 = AVX512 -> - (1 / 4) + E <= v <= hi + 1 / 4 - E) ->
  forall n, 1 / 2 + 2 * E < IZR n ->
  apart n (stored (libm_of sp1 sl1) b1 m src dst dps c x y) (stored (libm_of sp2 sl2) b2 m src dst dps c x y).
Proof.
  intros sp1 sl1 b1 sp2 sl2 b2 m src sps dst dps is k i C1 C2 LV FS FD CS WK CI S SL TS c x y HC HI N420 cb1 cb2 P1 P2 RR light response E v hi AV n N.
  destruct (C76_yuv_to_ictcp_levels_partial sp1 sl1 b1 m src sps dst dps is k i C1 LV FS FD CS WK CI S SL TS c x y HC HI N420 P1 RR) as (z1 & S1 & _ & A1).
  destruct (C76_yuv_to_ictcp_levels_partial sp2 sl2 b2 m src sps dst dps is k i C2 LV FS FD CS WK CI S SL TS c x y HC HI N420 P2 RR) as (z2 & S2 & _ & A2).
  exists z1, z2. split; [exact S1|split; [exact S2|]].
  specialize (A1 (fun e => AV (or_introl e))). specialize (A2 (fun e => AV (or_intror e))).
  assert (E0 : 0 <= E).
  { unfold E, wide_error. pose proof (max_level_R (im_format dst)). apply Rmult_le_pos; [lra|]. destruct S as [-> | ->]; destruct c; cbn; lra. }
  refine (stored_apart_by _ _ E _ _ 0 _ _ n E0 _ _ A1 A2); [apply Rabs_le; lra|lra].
Qed.
Print Assumptions C61_yuv_to_ictcp.

(** A picture in BT.2020 as ICtCp with the PQ curve *)
Definition wide_ictcp : image := ex_image I444 2 2 (CYUV (YuvCI TSRGB PrBT709 SpICtCpPQ true)) i444_planes.

Example C76_yuv_example : forall b, let lm := libm_of avx_pow avx_log in
  converts lm b soft_mem wide_src (ex_yuv_planes 0) wide_ictcp i444_planes /\ levels_ok soft_mem wide_src (ex_yuv_planes 0) /\
  same_light (im_color wide_src) (im_color wide_ictcp) = true /\ (forall cb, platform_pow avx_pow avx_log cb) /\
  (forall x y, in_image wide_src x y -> read_real bt2020 soft_mem wide_src (ex_yuv_planes 0) wide_info x y) /\
  map (fun c => stored lm b soft_mem wide_src wide_ictcp i444_planes c 1 1) [CY; CU; CV] = [Some 24; Some 112; Some 125]%Z.
Proof.
  intros b lm.
  assert (CVT : forall b, converts lm b soft_mem wide_src (ex_yuv_planes 0) wide_ictcp i444_planes).
  { intros b'. unfold lm. apply runs; [| |apply i444_disjoint|discriminate|vm_compute; reflexivity];
      (split; [reflexivity|split; [repeat constructor; cbn; unfold usize; cbn; lia|reflexivity]]). }
  split; [apply CVT|]. split; [apply bytes_levels; [|reflexivity]|].
  { intros bf i. unfold soft_mem. pose proof (Nat.mod_upper_bound i 4). lia. }
  split; [reflexivity|]. split; [intros cb _; split; [exact avx_pow_ok|split; [exact (log_contract avx_log avx_log_ok)|exact avx_pow_negative]]|].
  split; [exact wide_colors|]. cbn [map]. rewrite !(fun c => narrow_expected _ b soft_mem wide_src (ex_yuv_planes 0) wide_ictcp i444_planes c 1 1 (CVT b)) by
    (first [reflexivity | split; cbn; lia]).
  vm_compute. reflexivity.
Qed.
