(** C76 for RGB images in PQ, converted to ICtCp with the PQ curve. *)

From Coq Require Import List ZArith Bool Arith Reals Lia Lra Psatz.
From Coq Require Import Floats.SpecFloat.
From Flocq Require Import Core.
From Verif Require Import Base Types Planes ImageM F32 Vector Simd SpecVector SimdProofs QuantProofs SpecGeom GeomProofs
  SpecColor SpecConvert SpecRun Formats Visit Convert VisitProofs ColorProofs ConvertProofs ExactProofs PropConvert PropFidelity
  SpecReal FloatProofs AccProofs TargetProofs PropColor ColorR SpecTransfer PowerProofs MathProofs SpecMath LaneProofs TransferProofs
  Math NegProofs RecolorProofs PropRecolor GamutProofs PropGamut GrayProofs PropGray PropDrift PropBT2020 PropOut PropToPQ IctcpProofs
  WideProofs PropWide PqProofs PropFromPQ PqEncProofs PropPQ PropIctcpAcc.
From Verif Require SpecIctcp IctcpProofs PropIctcp.
Import SpecIctcp (ictcp_curve, ictcp_matrix, ictcp_pq, ictcp_hlg, bt2100_l, bt2100_m, bt2100_s, ictcp_level).
Import PropIctcp (is_bt2100, cones).
Import ListNotations.
Local Open Scope R_scope.

(** * Cone responses of bright light *)

Lemma to_lms_scaled : forall K v w e, 1 <= K <= 40000 -> approx3 v w e -> within3 w K -> 0 <= e <= K / 100000 ->
  approx3 (to_lms v) (to_lms w) (14 / 10 * e + 8 / 10000000 * K).
Proof.
  intros K ((a, b), c) ((x, y), z) e HK (HA & HB & HC) (BX & BY & BZ) E.
  cbn [to_lms approx3]; (split; [|split]); row_scaled K HK E.
Qed.

Lemma cones_lip : forall p r g b r' g' b' e, Rabs (r - r') <= e -> Rabs (g - g') <= e -> Rabs (b - b') <= e ->
  SpecIctcp.within3 (1001 / 1000 * e) (cones p r g b) (cones p r' g' b').
Proof.
  intros p r g b r' g' b' e R G B. apply Rabs_le_inv in R. apply Rabs_le_inv in G. apply Rabs_le_inv in B.
  unfold cones, SpecIctcp.within3. destruct p; PropIctcp.run_matrix; repeat split; apply Rabs_le; lra.
Qed.

Lemma cones_scaled : forall K p v r g b e, 1 <= K <= 15000 -> approx3 v (r, g, b) e -> between3 0 K (r, g, b) -> 0 <= e <= K / 100 ->
  approx3 (to_lms (to_xyz p v)) (cones p r g b) (1001 / 1000 * e + 2 / 1000000 * K).
Proof.
  intros K p ((a, b), c) x y z e HK ((NA & HA) & (NB & HB) & (NC & HC)) (BX & BY & BZ) E.
  set (w' := (fval a, fval b, fval c)).
  assert (A0 : approx3 (a, b, c) w' 0) by (repeat split; try apply NA; try apply NB; try apply NC; rewrite Rminus_diag_eq, Rabs_R0 by reflexivity; lra).
  pose proof HA as HA'. pose proof HB as HB'. pose proof HC as HC'. apply Rabs_le_inv in HA'. apply Rabs_le_inv in HB'. apply Rabs_le_inv in HC'.
  destruct (to_xyz_scaled (101 / 100 * K) p (a, b, c) w' ltac:(lra) A0) as (X1 & X2); [cbn; (split; [|split]); apply Rabs_le; lra|].
  pose proof (to_lms_scaled (111 / 100 * (101 / 100 * K)) _ _ _ ltac:(lra) X1 X2 ltac:(lra)) as F1. unfold w' in F1. rewrite cones_code in F1.
  pose proof (cones_lip p _ _ _ x y z e HA HB HC) as F2.
  destruct (to_lms (to_xyz p (a, b, c))) as ((q1, q2), q3). destruct (cones p (fval a) (fval b) (fval c)) as ((p1, p2), p3).
  destruct (cones p x y z) as ((r1, r2), r3).
  destruct F1 as (G1 & G2 & G3). destruct F2 as (K1 & K2 & K3).
  split; [|split]; (eapply approx_weaken; [eassumption|]); lra.
Qed.

(** * Mixing codes up to 1.2 *)

Lemma mix_pq : forall l m n vl vm vn, let V := 12 / 10 in let e := 1 / 4000 in
  0 <= vl <= V -> 0 <= vm <= V -> 0 <= vn <= V -> approx l vl e -> approx m vm e -> approx n vn e ->
  let '(y, u, v) := (l * flit 5 1 + m * flit 5 1,
         dot (flit 6610 0) (flit (-13613) 0) (flit 7003 0) l m n / flit 4096 0,
         dot (flit 17933 0) (flit (-17390) 0) (flit (-543) 0) l m n / flit 4096 0)%F in
  let '(vy, vu, vv) := ictcp_pq vl vm vn in
  (approx y vy (mix_error SpICtCpPQ) /\ approx u vu (mix_error SpICtCpPQ) /\ approx v vv (mix_error SpICtCpPQ)) /\
  Rabs vy <= 28 / 10 /\ Rabs vu <= 54 / 10 /\ Rabs vv <= 54 / 10.
Proof.
  intros l m n vl vm vn V e BL BM BN AL AM AN; subst V e; cbn [mix_error]; unfold ictcp_pq;
    cbn [fadd fsub fmul fdiv flit f32_ops]; unfold dot; cbn [fadd fsub fmul fdiv flit f32_ops].
    assert (HH : approx (f32_lit 5 1) (1 / 2) 0) by const_approx.
    assert (C1 : approx (f32_lit 6610 0) 6610 0) by const_approx.
    assert (C2 : approx (f32_lit (-13613) 0) (-13613) 0) by const_approx.
    assert (C3 : approx (f32_lit 7003 0) 7003 0) by const_approx.
    assert (D1 : approx (f32_lit 17933 0) 17933 0) by const_approx.
    assert (D2 : approx (f32_lit (-17390) 0) (-17390) 0) by const_approx.
    assert (D3 : approx (f32_lit (-543) 0) (-543) 0) by const_approx.
    assert (Q : approx (f32_lit 4096 0) 4096 0) by const_approx. apply const_val in Q. destruct Q as (QV & QN & _).
    assert (A1 : forall c, 0 <= c -> Rabs c <= c) by (intros; rewrite Rabs_pos_eq; lra).
    assert (A2 : forall c, 0 <= c -> Rabs (- c) <= c) by (intros; rewrite Rabs_Ropp, Rabs_pos_eq; lra).
    destruct (mul_coef _ _ _ _ _ _ _ (1 / 2) AL BL ltac:(lra) HH ltac:(apply A1; lra) ltac:(lra) ltac:(lra) ltac:(lra)) as (I1 & IB1).
    destruct (mul_coef _ _ _ _ _ _ _ (1 / 2) AM BM ltac:(lra) HH ltac:(apply A1; lra) ltac:(lra) ltac:(lra) ltac:(lra)) as (I2 & IB2).
    destruct (mul_coef _ _ _ _ _ _ _ 6610 AL BL ltac:(lra) C1 ltac:(apply A1; lra) ltac:(lra) ltac:(lra) ltac:(lra)) as (U1 & UB1).
    destruct (mul_coef _ _ _ _ _ _ _ 13613 AM BM ltac:(lra) C2 ltac:(apply (A2 13613); lra) ltac:(lra) ltac:(lra) ltac:(lra)) as (U2 & UB2).
    destruct (mul_coef _ _ _ _ _ _ _ 7003 AN BN ltac:(lra) C3 ltac:(apply A1; lra) ltac:(lra) ltac:(lra) ltac:(lra)) as (U3 & UB3).
    destruct (mul_coef _ _ _ _ _ _ _ 17933 AL BL ltac:(lra) D1 ltac:(apply A1; lra) ltac:(lra) ltac:(lra) ltac:(lra)) as (V1 & VB1).
    destruct (mul_coef _ _ _ _ _ _ _ 17390 AM BM ltac:(lra) D2 ltac:(apply (A2 17390); lra) ltac:(lra) ltac:(lra) ltac:(lra)) as (V2 & VB2).
    destruct (mul_coef _ _ _ _ _ _ _ 543 AN BN ltac:(lra) D3 ltac:(apply (A2 543); lra) ltac:(lra) ltac:(lra) ltac:(lra)) as (V3 & VB3).
    pose proof (approx_add _ _ _ _ _ _ 4 I1 I2 ltac:(pose proof (Rabs_triang (vl * (1 / 2)) (vm * (1 / 2))); lra) ltac:(lra)) as I3.
    pose proof (approx_add _ _ _ _ _ _ 25000 U1 U2 ltac:(pose proof (Rabs_triang (vl * 6610) (vm * -13613)); lra) ltac:(lra)) as U4.
    pose proof (approx_add _ _ _ _ _ _ 33000 U4 U3 ltac:(pose proof (Rabs_triang (vl * 6610) (vm * -13613)); pose proof (Rabs_triang (vl * 6610 + vm * -13613) (vn * 7003)); unfold half_ulp; lra) ltac:(lra)) as U5.
    pose proof (approx_div _ _ _ _ _ 33000 U5 QN QV ltac:(lra) ltac:(pose proof (Rabs_triang (vl * 6610) (vm * -13613)); pose proof (Rabs_triang (vl * 6610 + vm * -13613) (vn * 7003)); unfold half_ulp; lra) ltac:(lra)) as U6.
    pose proof (approx_add _ _ _ _ _ _ 43000 V1 V2 ltac:(pose proof (Rabs_triang (vl * 17933) (vm * -17390)); lra) ltac:(lra)) as V4.
    pose proof (approx_add _ _ _ _ _ _ 44000 V4 V3 ltac:(pose proof (Rabs_triang (vl * 17933) (vm * -17390)); pose proof (Rabs_triang (vl * 17933 + vm * -17390) (vn * -543)); unfold half_ulp; lra) ltac:(lra)) as V5.
    pose proof (approx_div _ _ _ _ _ 44000 V5 QN QV ltac:(lra) ltac:(pose proof (Rabs_triang (vl * 17933) (vm * -17390)); pose proof (Rabs_triang (vl * 17933 + vm * -17390) (vn * -543)); unfold half_ulp; lra) ltac:(lra)) as V6.
    unfold half_ulp in *. split; [|repeat split; apply Rabs_le; lra].
    split; [|split].
    + eapply approx_eq; [eapply approx_le; [exact I3|lra]|field].
    + eapply approx_eq; [eapply approx_le; [exact U6|lra]|field].
    + eapply approx_eq; [eapply approx_le; [exact V6|lra]|field].
Qed.

(** * One pixel *)

Definition cone_error (r g b : R) : R := (1 + peak r g b) / 500.

Lemma pq_pixel : forall L p q r g b, accurate L -> approx3 q (r, g, b) (19 / 1000000) -> r <= 1 -> g <= 1 -> b <= 1 ->
  let lms := to_lms (to_xyz p (map3 (eotf L TBT2100PQ) q)) in
  let l := Rmax (fval (fst3 lms)) 0 in
  let m := Rmax (fval (snd3 lms)) 0 in
  let n := Rmax (fval (thd3 lms)) 0 in
  SpecIctcp.within3 (cone_error r g b) (l, m, n) (cones p (pq_decode r) (pq_decode g) (pq_decode b)) /\ 0 <= l /\ 0 <= m /\ 0 <= n /\
  let v := rgb_yuv L SpICtCpPQ TBT2100PQ p q in
  let i := ictcp_pq (pq_encode l) (pq_encode m) (pq_encode n) in
  (approx (fst3 v) (fst3 i) (mix_error SpICtCpPQ) /\ approx (snd3 v) (snd3 i) (mix_error SpICtCpPQ) /\ approx (thd3 v) (thd3 i) (mix_error SpICtCpPQ)) /\
  Rabs (fst3 i) <= 28 / 10 /\ Rabs (snd3 i) <= 54 / 10 /\ Rabs (thd3 i) <= 54 / 10.
Proof.
  intros L p q r g b A AP LR LG LB. cbv zeta. destruct q as ((qr, qg), qb). destruct AP as (AR & AG & AB).
  destruct (pq_dec_color L qr r A AR LR) as (DR & BR). destruct (pq_dec_color L qg g A AG LG) as (DG & BG). destruct (pq_dec_color L qb b A AB LB) as (DB & BB).
  pose proof (peak_ge r g b) as PG. assert (PB : 0 <= peak r g b <= 10000) by (split; [lra|]; unfold peak; repeat apply Rmax_lub; lra).
  set (P := peak r g b) in *. set (e := 11 / 10000 + 18 / 10000 * P). unfold cone_error. fold P.
  assert (W : between3 0 (1 + P) (pq_decode r, pq_decode g, pq_decode b)) by (split; [|split]; lra).
  assert (D3 : approx3 (map3 (eotf L TBT2100PQ) (qr, qg, qb)) (pq_decode r, pq_decode g, pq_decode b) e) by (split; [|split]; (eapply approx_le; [eassumption|unfold e; lra])).
  pose proof (cones_scaled (1 + P) p _ _ _ _ e ltac:(lra) D3 W ltac:(unfold e; lra)) as Y.
  pose proof (PropIctcp.cones_range p (pq_decode r) (pq_decode g) (pq_decode b) P ltac:(lra) ltac:(lra) ltac:(lra)) as C.
  clear D3 W PG DR DG DB BR BG BB AR AG AB.
  destruct (cones p (pq_decode r) (pq_decode g) (pq_decode b)) as [[cl cm] cn]. destruct C as (C1 & C2 & C3).
  assert (RY : rgb_yuv L SpICtCpPQ TBT2100PQ p (qr, qg, qb) = let '(l, m, n) := map3 (oetf L TBT2100PQ) (to_lms (to_xyz p (map3 (eotf L TBT2100PQ) (qr, qg, qb)))) in
    (l * flit 5 1 + m * flit 5 1,
         dot (flit 6610 0) (flit (-13613) 0) (flit 7003 0) l m n / flit 4096 0,
         dot (flit 17933 0) (flit (-17390) 0) (flit (-543) 0) l m n / flit 4096 0)%F) by reflexivity.
  rewrite RY. clear RY. destruct (to_lms (to_xyz p (map3 (eotf L TBT2100PQ) (qr, qg, qb)))) as [[l m] n]. destruct Y as (Y1 & Y2 & Y3).
  unfold fst3, snd3, thd3. cbn [fst snd map3].
  assert (K : forall a va, approx a va (1001 / 1000 * e + 2 / 1000000 * (1 + P)) -> 0 <= va <= P * (1 + 4 / 100000) ->
    Rabs (Rmax (fval a) 0 - va) <= (1 + P) / 500 /\
    approx (oetf L TBT2100PQ a) (pq_encode (Rmax (fval a) 0)) (1 / 4000) /\ 0 <= pq_encode (Rmax (fval a) 0) <= 12 / 10).
  { intros a va (NA & EA) VA. assert (EP : 1001 / 1000 * e + 2 / 1000000 * (1 + P) <= (1 + P) / 500) by (unfold e; lra).
    split; [apply max_near; lra|]. apply Rabs_le_inv in EA. apply pq_enc_far; [assumption|assumption|]. lra. }
  destruct (K l cl Y1 ltac:(lra)) as (K1 & E1 & B1). destruct (K m cm Y2 ltac:(lra)) as (K2 & E2 & B2). destruct (K n cn Y3 ltac:(lra)) as (K3 & E3 & B3). clear K.
  split; [repeat split; assumption|]. repeat (split; [apply Rmax_r|]).
  pose proof (mix_pq _ _ _ _ _ _ B1 B2 B3 E1 E2 E3) as M.
  destruct (ictcp_pq _ _ _) as [[vy vu] vv]. exact M.
Qed.

(** * Storing chroma far outside of the range *)

Lemma encode_chroma : forall i u, is_num u -> Rabs (fval u) <= 6 ->
  approx (encode_c i u) (c_level (yc_full_range i) 1 (fval u)) (40 * u7).
Proof.
  intros i u N B. unfold encode_c, compress_c, c_level.
  assert (H : approx (f32_lit 5 1) (1 / 2) 0) by const_approx.
  pose proof (approx_add _ _ _ _ _ _ 7 (exact_approx u N) H ltac:(pose proof (Rabs_triang (fval u) (1 / 2)); rewrite (Rabs_pos_eq (1 / 2)) in * by lra; lra) ltac:(lra)) as P.
  assert (PB : Rabs (fval u + 1 / 2) <= 7) by (pose proof (Rabs_triang (fval u) (1 / 2)); rewrite (Rabs_pos_eq (1 / 2)) in * by lra; lra).
  unfold half_ulp in P. change (fadd u (flit 5 1)) with (f32_add u (f32_lit 5 1)).
  destruct (yc_full_range i).
  - eapply approx_weaken; [exact P|]. rewrite Rmult_1_l, Rminus_diag_eq, Rabs_R0 by reflexivity. unfold u7; lra.
  - cbn [fadd fmul fdiv flit f32_ops].
    assert (C1 : approx (f32_div (f32_lit 224 0) (f32_lit 255 0)) (224 / 255) (2 * u7)) by (unfold u7; const_approx).
    assert (C2 : approx (f32_div (f32_lit 16 0) (f32_lit 255 0)) (16 / 255) (2 * u7)) by (unfold u7; const_approx).
    pose proof (approx_mul _ _ _ _ _ _ 7 1 8 P C1 PB ltac:(rewrite Rabs_pos_eq; lra) ltac:(unfold u7; lra) ltac:(lra)) as Q.
    assert (QB : Rabs ((fval u + 1 / 2) * (224 / 255)) <= 7).
    { apply Rabs_le_inv in PB. apply Rabs_le. lra. }
    pose proof (approx_add _ _ _ _ _ _ 8 C2 Q ltac:(pose proof (Rabs_triang (16 / 255) ((fval u + 1 / 2) * (224 / 255))); rewrite (Rabs_pos_eq (16 / 255)) in * by lra; unfold half_ulp, u7; lra) ltac:(lra)) as R.
    eapply approx_eq; [eapply approx_le; [exact R|]|field]. unfold half_ulp, u7. lra.
Qed.

Lemma store_chroma : forall cb f i u v e, approx u v e -> Rabs v <= 55 / 10 -> 0 <= e <= 1 / 200 ->
  let M := IZR (max_level f) in let full := yc_full_range i in
  let E := e + 45 * u7 in
  (cb = AVX512 -> - (1 / 4) + M * E <= c_level full M v <= IZR (top f) + 1 / 4 - M * E) ->
    stored_for cb (M * E) (clamp (IZR (top f)) (c_level full M v)) (quantise (quant_of cb) f (encode_c i u)).
Proof.
  intros cb f i u v e (N & A) B E0 M full E AV. pose proof (max_level_R f) as M1. fold M in M1.
  assert (BU : Rabs (fval u) <= 6) by (apply Rabs_le_inv in A; apply Rabs_le_inv in B; apply Rabs_le; lra).
  assert (HM : (1 <= max_level f <= 4095)%Z) by (destruct f; cbn; lia).
  assert (HM' : 1 <= M <= 4095) by (split; apply IZR_le; lia).
  assert (HT : 0 <= IZR (top f)) by (apply IZR_le; destruct f; discriminate).
  destruct (level_scale full M v) as (_ & <-). destruct (level_scale full M v) as (_ & VS). rewrite <- VS in AV.
  destruct (level_step full _ _ _ A) as (_ & S2).
  pose proof (encode_chroma i u N BU) as Q. fold full in Q. set (t0 := c_level full 1 (fval u)) in *. set (t := c_level full 1 v) in *.
  assert (T0 : Rabs t0 <= 7) by (unfold t0, c_level; apply Rabs_le_inv in BU; apply Rabs_le; destruct full; lra).
  pose proof (approx_mul _ _ _ _ _ _ 7 M (8 * M) Q (approx_of_Z (max_level f) ltac:(lia)) T0 ltac:(fold M; rewrite Rabs_pos_eq; lra) ltac:(unfold u7; nra) ltac:(lra)) as (NX & PX).
  set (x := f32_mul (encode_c i u) (f32_of_Z (max_level f))) in *.
  assert (PM : Rabs (fval x - M * t) <= M * E).
  { fold M in PX. apply Rabs_le_inv in PX. apply Rabs_le_inv in S2. unfold half_ulp, u7, E in *. unfold u7. apply Rabs_le. nra. }
  assert (AB : Rabs (fval x) < 32767).
  { fold M in PX. apply Rabs_le_inv in PX. apply Rabs_le_inv in T0. unfold half_ulp, u7 in PX. apply Rabs_def1; nra. }
  assert (SQ : stored_for cb 0 (clamp (IZR (top f)) (fval x)) (quantise (quant_of cb) f (encode_c i u))).
  { apply quantise_val; [exact NX|exact AB|]. right. destruct cb; [left; discriminate|left; discriminate|right|left; discriminate].
    fold x. specialize (AV eq_refl). apply Rabs_le_inv in PM. lra. }
  eapply stored_for_near; [apply clamp_near; [exact HT|exact PM]|exact SQ].
Qed.

(** * C76 *)

(** Converting an RGB image in PQ to ICtCp with the PQ curve: what is stored is
    the level of cone responses that are those of the linear light of the pixels
    up to 1/500 (relative to the brightest channel, plus 1 cd/m2), within 1/400
    of full scale and the rounding of the integer. Missing: the chroma of 4:2:0
    (the vectorised code computes something else, see C19); other primaries than
    those of the source. *)
Theorem C76_pq_to_ictcp_partial : forall sp sl b m src sps dst dps i,
  converts (libm_of sp sl) b m src sps dst dps -> bytes_ok m ->
  sampling_of (im_format src) = SRGB -> sampling_of (im_format dst) <> SRGB ->
  im_color dst = CYUV i -> yc_space i = SpICtCpPQ ->
  same_light (im_color src) (im_color dst) = true ->
  ci_transfer (im_color src) = TBT2100PQ ->
  let s c x y := level m (im_format src) sps c x y / 255 in
  forall c x y, has_comp (im_format dst) c = true -> in_image dst x y ->
  (sampling_of (im_format dst) = S420 -> c = CY) ->
  let cb := column_backend b (im_width dst) x in
  platform_pow sp sl cb ->
  exists l m' n,
    (forall x y, in_image src x y ->
      SpecIctcp.within3 (cone_error (s CR x y) (s CG x y) (s CB x y)) (l x y, m' x y, n x y)
        (cones (ci_primaries (im_color src)) (pq_decode (s CR x y)) (pq_decode (s CG x y)) (pq_decode (s CB x y))) /\
      0 <= l x y /\ 0 <= m' x y /\ 0 <= n x y) /\
    let M := IZR (max_level (im_format dst)) in
    let E := M * (1 / 400) in
    let v := ictcp_level SpICtCpPQ (yc_full_range i) (im_format dst) l m' n c x y in
    let hi := IZR (top (im_format dst)) in
    exists z, stored (libm_of sp sl) b m src dst dps c x y = Some z /\ (0 <= z)%Z /\
      ((cb = AVX512 -> - (1 / 4) + E <= v <= hi + 1 / 4 - E) -> stored_for cb E (clamp hi v) z).
Proof.
  intros sp sl b m src sps dst dps i CVT B FS FD CI S SL TS s c x y HC HI N420 cb PL.
  pose proof (accurate_lane sp sl cb PL) as A. assert (VS : valid_image src sps) by apply CVT.
  set (L := lane_of (libm_of sp sl) cb) in *.
  assert (SK : same_image_kind src dst = false).
  { unfold same_image_kind. apply andb_false_iff; left. destruct (im_format src), (im_format dst); try reflexivity; cbn in FS, FD; congruence. }
  assert (TP : ci_transfer (im_color dst) = TBT2100PQ /\ ci_primaries (im_color dst) = ci_primaries (im_color src)).
  { rewrite <- TS. unfold same_light in SL. destruct (ci_transfer (im_color src)), (ci_transfer (im_color dst)); try discriminate SL;
      destruct (ci_primaries (im_color src)), (ci_primaries (im_color dst)); try discriminate SL; auto. }
  destruct TP as (TE & PE). rewrite CI in TE, PE. cbn [ci_transfer ci_primaries] in TE, PE.
  set (ps := ci_primaries (im_color src)) in *.
  set (q := fun x y => fst (source_pixel L m (im_format src) (im_color src) sps x y)).
  set (lms := fun x y => to_lms (to_xyz ps (map3 (eotf L TBT2100PQ) (q x y)))).
  set (l := fun x y => Rmax (fval (fst3 (lms x y))) 0). set (mm := fun x y => Rmax (fval (snd3 (lms x y))) 0). set (n := fun x y => Rmax (fval (thd3 (lms x y))) 0).
  set (W := fun x y => ictcp_pq (pq_encode (l x y)) (pq_encode (mm x y)) (pq_encode (n x y))).
  assert (PX : forall x y, in_image src x y -> SpecIctcp.within3 (cone_error (s CR x y) (s CG x y) (s CB x y)) (l x y, mm x y, n x y)
        (cones ps (pq_decode (s CR x y)) (pq_decode (s CG x y)) (pq_decode (s CB x y))) /\ 0 <= l x y /\ 0 <= mm x y /\ 0 <= n x y /\
     let v := rgb_yuv L SpICtCpPQ TBT2100PQ ps (q x y) in
     let w := W x y in
     (approx (fst3 v) (fst3 w) (mix_error SpICtCpPQ) /\ approx (snd3 v) (snd3 w) (mix_error SpICtCpPQ) /\ approx (thd3 v) (thd3 w) (mix_error SpICtCpPQ)) /\
     Rabs (fst3 w) <= 28 / 10 /\ Rabs (snd3 w) <= 54 / 10 /\ Rabs (thd3 w) <= 54 / 10).
  { intros x' y' HS. destruct (pq_rgb_levels m src sps x' y' L VS B FS HS) as (Q & Q1 & Q2 & Q3).
    exact (pq_pixel L ps (q x' y') _ _ _ A Q Q1 Q2 Q3). }
  exists l, mm, n. split; [intros x' y' HS; destruct (PX x' y' HS) as (P1 & P2 & P3 & P4 & _); auto|].
  intros M E v hi.
  assert (ICT : ictcp_chroma420 (im_format dst) (im_color dst) c = false).
  { unfold ictcp_chroma420. destruct (sampling_of (im_format dst)) eqn:ES; try (destruct (im_color dst), c; reflexivity). rewrite N420 by reflexivity. rewrite CI. reflexivity. }
  rewrite (stored_expected _ _ _ _ _ _ _ CVT c x y HC HI ICT). fold cb L. eexists; split; [reflexivity|]. split; [apply quantise_nonneg|].
  intros AV. unfold expected_value. rewrite SK, CI.
  pose proof (max_level_R (im_format dst)) as M1. fold M in M1.
  assert (CC : c = CY \/ c = CU \/ c = CV) by (unfold has_comp in HC; destruct (sampling_of (im_format dst)), c; auto; congruence).
  assert (PIX : forall x y, fst (recolored L (im_color src) (CYUV i) (source_pixel L m (im_format src) (im_color src) sps x y)) = q x y).
  { intros. unfold recolored. rewrite <- CI, SL. reflexivity. }
  assert (ME : 0 <= mix_error SpICtCpPQ <= 1 / 400) by (cbn; lra).
  assert (EM : M * (mix_error SpICtCpPQ + 20 * u7 + 45 * u7) <= E) by (unfold E; apply Rmult_le_compat_l; cbn; unfold u7; lra).
  pose proof (converts_convertible _ _ _ _ _ _ _ CVT) as CT.
  assert (BLK : forall p, In p ((x, y) :: chroma_block (sampling_of (im_format dst)) x y) -> in_image src (fst p) (snd p)).
  { intros p HP. assert (HI' : in_image dst (fst p) (snd p)) by (eapply block_in_image; [apply CT|apply CT|exact HI|exact HP]).
    unfold in_image in *; rewrite (cv_width _ _ _ _ CT), (cv_height _ _ _ _ CT); exact HI'. }
  assert (HS : in_image src x y) by (apply (BLK (x, y)); left; reflexivity).
  assert (MN : forall (sel : f32 * f32 * f32 -> f32) (selR : R * R * R -> R),
    (forall x y, in_image src x y -> approx (sel (rgb_yuv L SpICtCpPQ TBT2100PQ ps (q x y))) (selR (W x y)) (mix_error SpICtCpPQ) /\ Rabs (selR (W x y)) <= 54 / 10) ->
    sampling_of (im_format dst) <> S420 ->
    let u := match sampling_of (im_format dst) with
        | S420 => sel (rgb_yuv L SpICtCpPQ TBT2100PQ ps (mean4 (q (2 * (x / 2)) (2 * (y / 2))) (q (2 * (x / 2)) (2 * (y / 2) + 1)) (q (2 * (x / 2) + 1) (2 * (y / 2))) (q (2 * (x / 2) + 1) (2 * (y / 2) + 1))))
        | S422 => fdiv (fadd (sel (rgb_yuv L SpICtCpPQ TBT2100PQ ps (q (2 * (x / 2)) y))) (sel (rgb_yuv L SpICtCpPQ TBT2100PQ ps (q (2 * (x / 2) + 1) y)))) (flit 2 0)
        | _ => sel (rgb_yuv L SpICtCpPQ TBT2100PQ ps (q x y))
        end%nat in
    approx u (chroma_mean (sampling_of (im_format dst)) (fun x y => selR (W x y)) x y) (mix_error SpICtCpPQ + 20 * u7) /\
    Rabs (chroma_mean (sampling_of (im_format dst)) (fun x y => selR (W x y)) x y) <= 54 / 10).
  { intros sel selR H NS u. subst u. unfold chroma_mean, mean, chroma_block in *. destruct (sampling_of (im_format dst)); [congruence| | |congruence];
      cbn [map fst snd fold_right length] in *.
    - pose proof (BLK (2 * (x / 2), y)%nat ltac:(right; left; reflexivity)) as HA. pose proof (BLK (Datatypes.S (2 * (x / 2)), y)%nat ltac:(right; right; left; reflexivity)) as HB.
      cbn [fst snd] in HA, HB. rewrite <- (Nat.add_1_r (2 * (x / 2))) in *. destruct (H (2 * (x / 2))%nat y HA) as ((NA & EA) & BA). destruct (H (2 * (x / 2) + 1)%nat y HB) as ((NB & EB) & BB).
      set (a := selR (W (2 * (x / 2))%nat y)) in *. set (a' := selR (W (2 * (x / 2) + 1)%nat y)) in *.
      set (f1 := sel (rgb_yuv L SpICtCpPQ TBT2100PQ ps (q (2 * (x / 2))%nat y))) in *. set (f2 := sel (rgb_yuv L SpICtCpPQ TBT2100PQ ps (q (2 * (x / 2) + 1)%nat y))) in *. clearbody f1 f2 a a'.
      clear - NA EA BA NB EB BB ME.
      apply Rabs_le_inv in EA. apply Rabs_le_inv in EB. apply Rabs_le_inv in BA. apply Rabs_le_inv in BB. simpl INR.
      split; [|apply Rabs_le; lra].
      assert (T2 : approx (f32_lit 2 0) 2 0) by const_approx. apply const_val in T2. destruct T2 as (TV & TN & _).
      pose proof (approx_add _ _ _ _ _ _ 11 (exact_approx _ NA) (exact_approx _ NB) ltac:(rewrite Rplus_0_r, Rplus_0_r; apply Rabs_le; lra) ltac:(lra)) as SM.
      pose proof (approx_div _ _ _ _ _ 12 SM TN TV ltac:(lra) ltac:(assert (Rabs (fval f1 + fval f2) <= 11) by (apply Rabs_le; lra); unfold half_ulp; lra) ltac:(lra)) as DV.
      cbn [fadd fdiv flit f32_ops]. eapply approx_weaken; [exact DV|].
      assert (Rabs ((fval f1 + fval f2) / 2 - (a + (a' + 0)) / (1 + 1)) <= mix_error SpICtCpPQ) by (apply Rabs_le; lra). unfold half_ulp, u7. lra.
    - destruct (H x y HS) as (HA & BA). simpl INR. replace ((selR (W x y) + 0) / 1) with (selR (W x y)) by field. split; [|exact BA].
      eapply approx_le; [exact HA|]. unfold u7; lra. }
  assert (VE : v = match c with
      | CU => c_level (yc_full_range i) M (chroma_mean (sampling_of (im_format dst)) (fun x y => snd3 (W x y)) x y)
      | CV => c_level (yc_full_range i) M (chroma_mean (sampling_of (im_format dst)) (fun x y => thd3 (W x y)) x y)
      | _ => y_level (yc_full_range i) M (fst3 (W x y)) end) by reflexivity.
  clearbody v. subst v.
  assert (TG : forall v0, target L (im_format dst) (CYUV i) (fun x y => recolored L (im_color src) (CYUV i) (source_pixel L m (im_format src) (im_color src) sps x y)) c x y = v0 ->
    stored_for cb E (clamp hi (match c with
      | CU => c_level (yc_full_range i) M (chroma_mean (sampling_of (im_format dst)) (fun x y => snd3 (W x y)) x y)
      | CV => c_level (yc_full_range i) M (chroma_mean (sampling_of (im_format dst)) (fun x y => thd3 (W x y)) x y)
      | _ => y_level (yc_full_range i) M (fst3 (W x y)) end)) (quantise (quant_of cb) (im_format dst) v0)).
  { intros v0 <-. unfold target. rewrite !PIX, TE, PE, S.
    destruct CC as [-> |[-> | ->]]; cbv match in AV |- *.
    - destruct (PX x y HS) as (_ & _ & _ & _ & (P & _) & (PB & _)).
      destruct (store_level cb (im_format dst) i _ (fst3 (W x y)) _ P PB ltac:(lra)) as (T & _). fold M in T. fold hi in T.
      assert (ME' : M * (mix_error SpICtCpPQ + 33 * u7) <= E) by (eapply Rle_trans; [|exact EM]; apply Rmult_le_compat_l; unfold u7; lra).
      assert (SF := stored_for_weaken _ _ E _ _ (T ltac:(clearbody E; clear - AV ME'; intros X; specialize (AV X); lra)) ME').
      destruct (sampling_of (im_format dst)); try exact SF. congruence.
    - assert (NS : sampling_of (im_format dst) <> S420) by (intros X; specialize (N420 X); discriminate).
      destruct (MN snd3 snd3 ltac:(intros x0 y0 H0; destruct (PX x0 y0 H0) as (_ & _ & _ & _ & (_ & P & _) & (_ & PB & _)); auto) NS) as (Q & QB).
      pose proof (store_chroma cb (im_format dst) i _ _ _ Q ltac:(lra) ltac:(unfold u7; lra)) as T. fold M in T. fold hi in T.
      assert (SF := stored_for_weaken _ _ E _ _ (T ltac:(clearbody E; clear - AV EM; intros X; specialize (AV X); lra)) EM).
      destruct (sampling_of (im_format dst)); try exact SF; congruence.
    - assert (NS : sampling_of (im_format dst) <> S420) by (intros X; specialize (N420 X); discriminate).
      destruct (MN thd3 thd3 ltac:(intros x0 y0 H0; destruct (PX x0 y0 H0) as (_ & _ & _ & _ & (_ & _ & P) & (_ & _ & PB)); auto) NS) as (Q & QB).
      pose proof (store_chroma cb (im_format dst) i _ _ _ Q ltac:(lra) ltac:(unfold u7; lra)) as T. fold M in T. fold hi in T.
      assert (SF := stored_for_weaken _ _ E _ _ (T ltac:(clearbody E; clear - AV EM; intros X; specialize (AV X); lra)) EM).
      destruct (sampling_of (im_format dst)); try exact SF; congruence. }
  apply TG. reflexivity.
Qed.
Print Assumptions C76_pq_to_ictcp_partial.

(** With the primaries of BT.2020, the cone responses are those of the
    Recommendation *)
Corollary C76_pq_bt2100_partial : forall sp sl b m src sps dst dps i,
  converts (libm_of sp sl) b m src sps dst dps -> bytes_ok m ->
  sampling_of (im_format src) = SRGB -> sampling_of (im_format dst) <> SRGB ->
  im_color dst = CYUV i -> yc_space i = SpICtCpPQ ->
  same_light (im_color src) (im_color dst) = true ->
  ci_transfer (im_color src) = TBT2100PQ -> ci_primaries (im_color src) = PrBT2020 ->
  let light c x y := pq_decode (level m (im_format src) sps c x y / 255) in
  let bt2100 f x y := f (light CR x y) (light CG x y) (light CB x y) in
  let brightest x y := Rmax (light CR x y) (Rmax (light CG x y) (light CB x y)) in
  forall c x y, has_comp (im_format dst) c = true -> in_image dst x y ->
  (sampling_of (im_format dst) = S420 -> c = CY) ->
  let cb := column_backend b (im_width dst) x in
  platform_pow sp sl cb ->
  exists l m' n,
    (forall x y, in_image src x y ->
      SpecIctcp.within3 ((1 + brightest x y) / 450) (l x y, m' x y, n x y) (bt2100 bt2100_l x y, bt2100 bt2100_m x y, bt2100 bt2100_s x y) /\
      0 <= l x y /\ 0 <= m' x y /\ 0 <= n x y) /\
    let M := IZR (max_level (im_format dst)) in
    let E := M * (1 / 400) in
    let v := ictcp_level SpICtCpPQ (yc_full_range i) (im_format dst) l m' n c x y in
    let hi := IZR (top (im_format dst)) in
    exists z, stored (libm_of sp sl) b m src dst dps c x y = Some z /\ (0 <= z)%Z /\
      ((cb = AVX512 -> - (1 / 4) + E <= v <= hi + 1 / 4 - E) -> stored_for cb E (clamp hi v) z).
Proof.
  intros sp sl b m src sps dst dps i CVT B FS FD CI S SL TS P light bt2100 brightest c x y HC HI N420 cb PL.
  destruct (C76_pq_to_ictcp_partial sp sl b m src sps dst dps i CVT B FS FD CI S SL TS c x y HC HI N420 PL) as (l & m' & n & H & R).
  exists l, m', n. split; [|exact R]. intros x' y' HS. destruct (H x' y' HS) as (W & PS). split; [|exact PS]. clear R H.
  rewrite P in W.
  assert (VS : valid_image src sps) by apply CVT.
  destruct (pq_rgb_levels m src sps x' y' (lane_of (libm_of sp sl) cb) VS B FS HS) as (_ & Q1 & Q2 & Q3). cbv zeta in Q1, Q2, Q3.
  set (r := level m (im_format src) sps CR x' y' / 255) in *. set (g := level m (im_format src) sps CG x' y' / 255) in *. set (bl := level m (im_format src) sps CB x' y' / 255) in *.
  assert (G0 : forall v, 0 <= pq_decode v) by (intros v; rewrite pq_decode_eq; pose proof (power_ge0 (pq_inner (power v (1 / m2))) (1 / m1)); lra).
  pose proof (peak_ge r g bl) as PG. pose proof (G0 r) as G1. pose proof (G0 g) as G2. pose proof (G0 bl) as G3.
  pose proof (PropIctcp.cones_standard (pq_decode r) (pq_decode g) (pq_decode bl) (peak r g bl) ltac:(lra) ltac:(lra) ltac:(lra)) as C.
  unfold bt2100, light, brightest, light. fold r g bl. unfold cone_error in W. fold (peak r g bl). destruct (cones PrBT2020 _ _ _) as [[a b'] d]. destruct C as (C1 & C2 & C3). destruct W as (W1 & W2 & W3).
  assert (PP : 0 <= peak r g bl) by lra. clearbody r g bl. clear - C1 C2 C3 W1 W2 W3 PP.
  repeat split.
  - eapply Rle_trans; [apply (Rabs_triang_step _ a)|lra].
  - eapply Rle_trans; [apply (Rabs_triang_step _ b')|lra].
  - eapply Rle_trans; [apply (Rabs_triang_step _ d)|lra].
Qed.
Print Assumptions C76_pq_bt2100_partial.

(** A PQ picture as ICtCp with the PQ curve *)
Definition pq_2020 : image := ex_image RGBA 2 2 (CRGB TBT2100PQ PrBT2020) (ex_rgba_planes 0).
Definition ictcp_pq22 : image := ex_image I444 2 2 (CYUV (YuvCI TBT2100PQ PrBT2020 SpICtCpPQ true)) i444_planes.
Example C76_pq_example : forall b,
  converts (libm_of avx_pow avx_log) b ex_mem pq_2020 (ex_rgba_planes 0) ictcp_pq22 i444_planes /\ bytes_ok ex_mem /\
  same_light (im_color pq_2020) (im_color ictcp_pq22) = true /\ (forall cb, platform_pow avx_pow avx_log cb) /\
  map (fun c => stored (libm_of avx_pow avx_log) b ex_mem pq_2020 ictcp_pq22 i444_planes c 1 1) [CY; CU; CV] = [Some 89; Some 135; Some 118]%Z.
Proof.
  intros b.
  assert (CV : forall b, converts (libm_of avx_pow avx_log) b ex_mem pq_2020 (ex_rgba_planes 0) ictcp_pq22 i444_planes).
  { intros b'. apply runs; [| |apply i444_disjoint|discriminate|vm_compute; reflexivity];
      (split; [reflexivity|split; [repeat constructor; cbn; unfold usize; cbn; lia|reflexivity]]). }
  split; [apply CV|]. split; [apply ex_mem_bytes|]. split; [reflexivity|].
  split; [intros cb _; split; [exact avx_pow_ok|split; [exact (log_contract avx_log avx_log_ok)|exact avx_pow_negative]]|].
  unfold comps; cbn [map]; rewrite !(fun c => narrow_expected _ b ex_mem pq_2020 (ex_rgba_planes 0) ictcp_pq22 i444_planes c 1 1 (CV b)) by
    (first [reflexivity | split; cbn; lia]).
  vm_compute. reflexivity.
Qed.
