(** What the readers return, lane by lane. *)

From Coq Require Import List ZArith Bool Arith Lia.
From Verif Require Import Base Types Planes ImageM F32 Vector SpecVector SpecGeom GeomProofs
  Color SpecColor SpecConvert Formats.
Import ListNotations.

(** * Lanes *)

Lemma stream_map : forall n (f : f32 -> f32) a b k,
  stream n (fun j => f (a j), fun j => f (b j)) k = f (stream n (a, b) k).
Proof. intros; unfold stream; cbn [fst snd]; destruct (k <? n); reflexivity. Qed.

Lemma stream_left : forall n a b k, k < n -> stream n (a, b) k = a k.
Proof. intros; unfold stream; destruct (Nat.ltb_spec k n); [reflexivity|lia]. Qed.
Lemma stream_right : forall n a b k, stream n (a, b) (n + k) = b k.
Proof. intros; unfold stream; destruct (Nat.ltb_spec (n + k) n); [lia|cbn [snd]; f_equal; lia]. Qed.

(** Value of the sample of size [psize p] at byte [i] of buffer [b] *)
Definition raw (m : mem) (p : prim) (b i : nat) : Z :=
  match p with U8 => m b i | U16 => (m b i + 256 * m b (S i))%Z end.

Lemma byte_at_read : forall m b off n k, k < n -> byte_at (read_bytes m b off n) k = m b (off + k).
Proof.
  intros. unfold byte_at, read_bytes.
  rewrite nth_indep with (d' := m b (off + 0)) by (rewrite map_length, seq_length; lia).
  rewrite (map_nth (fun k => m b (off + k))). rewrite seq_nth by lia. reflexivity.
Qed.

Definition loadv (vi : vimpl) (p : prim) (m : mem) (s : slice) (off : nat) : vec :=
  let bytes := read_bytes m (s_buf s) (s_off s + off) (vi_len vi * psize p) in
  match p with U8 => vi_load_u8 vi bytes | U16 => vi_load_u16 vi bytes end.

Lemma raw_read_ok : forall E m s off n, off + n <= s_len s ->
  @raw_read E m s off n = Ok (read_bytes m (s_buf s) (s_off s + off) n).
Proof.
  intros. unfold raw_read. destruct (Nat.leb_spec off (s_len s)); [|lia].
  destruct (Nat.leb_spec (off + n) (s_len s)); [reflexivity|lia].
Qed.

Lemma load_ok : forall vi p m s off, off + vi_len vi * psize p <= s_len s ->
  load vi p m s off = Ok (loadv vi p m s off).
Proof. intros. unfold load. rewrite raw_read_ok by assumption. reflexivity. Qed.

Lemma loadv_lane : forall vi q p m s off k, vector_spec vi q -> k < vi_len vi ->
  loadv vi p m s off k = f32_of_Z (raw m p (s_buf s) (s_off s + (off + k * psize p))).
Proof.
  intros vi q p m s off k S Hk. unfold loadv. destruct p; cbn [psize raw].
  - rewrite (vs_load_u8 _ _ S) by assumption. rewrite byte_at_read by lia. do 2 f_equal. lia.
  - rewrite (vs_load_u16 _ _ S) by assumption. unfold word_at. rewrite !byte_at_read by lia.
    do 2 f_equal; [f_equal; lia|]. do 2 f_equal. lia.
Qed.

Lemma loadv_stream : forall vi q p m s off k, vector_spec vi q -> k < 2 * vi_len vi ->
  stream (vi_len vi) (loadv vi p m s off, loadv vi p m s (off + vi_len vi * psize p)) k
    = f32_of_Z (raw m p (s_buf s) (s_off s + (off + k * psize p))).
Proof.
  intros vi q p m s off k S Hk. unfold stream. cbn [fst snd].
  destruct (Nat.ltb_spec k (vi_len vi)).
  - eapply loadv_lane; eauto.
  - erewrite loadv_lane; [|eauto|lia]. do 2 f_equal. nia.
Qed.

(** * Planes *)

(** A plane of [rows] rows of [cols] samples of [size] bytes *)
Definition pgeom (size cols rows : nat) (pl : plane) : Prop :=
  cols * size <= snd pl /\ snd pl * rows <= s_len (fst pl) /\ usize (s_len (fst pl)).

Lemma row_bound : forall st rows len r, st * rows <= len -> r < rows -> r * st + st <= len.
Proof. intros. nia. Qed.

Lemma offset_ok : forall r st x sz n, r * st + x * sz <= n -> usize n -> offset r st x sz = Ok (r * st + x * sz).
Proof.
  intros. unfold offset.
  rewrite umul_ok by (eapply usize_le; [|eassumption]; lia). cbn [bind].
  rewrite umul_ok by (eapply usize_le; [|eassumption]; lia). cbn [bind].
  apply uadd_ok. eapply usize_le; [|eassumption]; lia.
Qed.

Lemma uadd_le : forall E a b n, a + b <= n -> usize n -> @uadd E a b = Ok (a + b).
Proof. intros. apply uadd_ok. eapply usize_le; eassumption. Qed.

(** Stored value as the float a reader returns *)
Definition rd (m : mem) (p : prim) (max : f32) (pl : plane) (r c : nat) : f32 :=
  fdiv (f32_of_Z (raw m p (s_buf (fst pl)) (s_off (fst pl) + (r * snd pl + c * psize p)))) max.

(** Block position [X], [Y] (in units of 2x2 pixels) is inside the image *)
Definition in_image (vi : vimpl) (w h X Y : nat) : Prop :=
  2 * X + 2 * vi_len vi <= w /\ 2 * Y + 2 <= h.

(** * Sources *)

Definition i420_is (S : i420_src) (w h : nat) (fy : vimpl -> nat -> nat -> f32)
    (fu fv : vimpl -> nat -> nat -> nat -> f32) : Prop :=
  forall vi q X Y, vector_spec vi q -> in_image vi w h X Y ->
  exists y00 y01 y10 y11 u v, S vi (2 * X) (2 * Y) = Ok (I420Block y00 y01 y10 y11 u v) /\
    (forall k, k < 2 * vi_len vi -> stream (vi_len vi) (y00, y01) k = fy vi (2 * X + k) (2 * Y)) /\
    (forall k, k < 2 * vi_len vi -> stream (vi_len vi) (y10, y11) k = fy vi (2 * X + k) (2 * Y + 1)) /\
    (forall k, k < vi_len vi -> u k = fu vi X (X + k) Y) /\
    (forall k, k < vi_len vi -> v k = fv vi X (X + k) Y).

Definition i422_is (S : i422_src) (w h : nat) (fy fu fv : vimpl -> nat -> nat -> f32) : Prop :=
  forall vi q X Y, vector_spec vi q -> in_image vi w h X Y ->
  exists y00 y01 y10 y11 u0 u1 v0 v1, S vi (2 * X) (2 * Y) = Ok (I422Block y00 y01 y10 y11 u0 u1 v0 v1) /\
    (forall k, k < 2 * vi_len vi -> stream (vi_len vi) (y00, y01) k = fy vi (2 * X + k) (2 * Y)) /\
    (forall k, k < 2 * vi_len vi -> stream (vi_len vi) (y10, y11) k = fy vi (2 * X + k) (2 * Y + 1)) /\
    (forall k, k < vi_len vi -> u0 k = fu vi (X + k) (2 * Y)) /\
    (forall k, k < vi_len vi -> u1 k = fu vi (X + k) (2 * Y + 1)) /\
    (forall k, k < vi_len vi -> v0 k = fv vi (X + k) (2 * Y)) /\
    (forall k, k < vi_len vi -> v1 k = fv vi (X + k) (2 * Y + 1)).

Definition i444_is (S : i444_src) (w h : nat) (fy fu fv : vimpl -> nat -> nat -> f32) : Prop :=
  forall vi q X Y, vector_spec vi q -> in_image vi w h X Y ->
  exists y00 u00 v00 y01 u01 v01 y10 u10 v10 y11 u11 v11,
    S vi (2 * X) (2 * Y) = Ok (I444Block (I444Pixel y00 u00 v00) (I444Pixel y01 u01 v01)
                                         (I444Pixel y10 u10 v10) (I444Pixel y11 u11 v11)) /\
    forall k, k < 2 * vi_len vi ->
      stream (vi_len vi) (y00, y01) k = fy vi (2 * X + k) (2 * Y) /\
      stream (vi_len vi) (y10, y11) k = fy vi (2 * X + k) (2 * Y + 1) /\
      stream (vi_len vi) (u00, u01) k = fu vi (2 * X + k) (2 * Y) /\
      stream (vi_len vi) (u10, u11) k = fu vi (2 * X + k) (2 * Y + 1) /\
      stream (vi_len vi) (v00, v01) k = fv vi (2 * X + k) (2 * Y) /\
      stream (vi_len vi) (v10, v11) k = fv vi (2 * X + k) (2 * Y + 1).

(** Pixel [k] of a row of a block *)
Definition pxs (n : nat) (p0 p1 : rgba_pixel vec) (k : nat) : pixel :=
  ((stream n (px_r p0, px_r p1) k, stream n (px_g p0, px_g p1) k, stream n (px_b p0, px_b p1) k),
   stream n (px_a p0, px_a p1) k).

Definition rgba_is (S : rgba_src) (w h : nat) (pix : vimpl -> nat -> nat -> pixel) : Prop :=
  forall vi q X Y, vector_spec vi q -> in_image vi w h X Y ->
  exists p00 p01 p10 p11, S vi (2 * X) (2 * Y) = Ok (RgbaBlock p00 p01 p10 p11) /\
    forall k, k < 2 * vi_len vi ->
      pxs (vi_len vi) p00 p01 k = pix vi (2 * X + k) (2 * Y) /\
      pxs (vi_len vi) p10 p11 k = pix vi (2 * X + k) (2 * Y + 1).

(** * Readers *)


Lemma div2X : forall X, 2 * X / 2 = X.
Proof. intros. rewrite Nat.mul_comm. apply Nat.div_mul. lia. Qed.

Lemma vdivf_lane : forall vi v max k, vdivf (VO := vec_ops vi) v max k = fdiv (v k) max.
Proof. reflexivity. Qed.
Lemma vdivf_stream : forall vi n a b max k,
  stream n (vdivf (VO := vec_ops vi) a max, vdivf (VO := vec_ops vi) b max) k = fdiv (stream n (a, b) k) max.
Proof. intros. exact (stream_map n (fun x => fdiv x max) a b k). Qed.

(** Two loads next to each other, a row of [2 * len] samples *)
Lemma rd_stream : forall vi q p m max s st r c k, vector_spec vi q -> k < 2 * vi_len vi ->
  stream (vi_len vi)
    (vdivf (VO := vec_ops vi) (loadv vi p m s (r * st + c * psize p)) max,
     vdivf (VO := vec_ops vi) (loadv vi p m s (r * st + c * psize p + vi_len vi * psize p)) max) k
  = rd m p max (s, st) r (c + k).
Proof.
  intros. rewrite vdivf_stream. erewrite loadv_stream by eassumption.
  unfold rd; cbn [fst snd]. do 3 f_equal. nia.
Qed.
Lemma rd_lane : forall vi q p m max s st r c k, vector_spec vi q -> k < vi_len vi ->
  vdivf (VO := vec_ops vi) (loadv vi p m s (r * st + c * psize p)) max k = rd m p max (s, st) r (c + k).
Proof.
  intros. rewrite vdivf_lane. erewrite loadv_lane by eassumption.
  unfold rd; cbn [fst snd]. do 3 f_equal. nia.
Qed.

(** Run the address computations and loads; bounds come from the context *)
Ltac rsteps :=
  repeat (match goal with
    | U : usize ?n |- context [uadd ?a ?b] => rewrite (uadd_le _ a b n) by first [exact U | lia]
    | U : usize ?n |- context [offset ?r ?st ?x ?sz] => rewrite (offset_ok r st x sz n) by first [exact U | lia]
    | |- context [load ?vi ?p ?m ?s ?o] => rewrite (load_ok vi p m s o) by lia
    end; cbn [bind]).

(** Space for [n] samples from column [c] on *)
Lemma cols_bound : forall size cols st c n, cols * size <= st -> c + n <= cols -> c * size + n * size <= st.
Proof. intros. nia. Qed.

Lemma le_mul : forall a b, 1 <= b -> a <= a * b.
Proof. intros. nia. Qed.

Lemma psize_pos : forall p, 1 <= psize p.
Proof. destruct p; cbn; lia. Qed.

Lemma half_cols : forall X n w, 2 * X + 2 * n <= w -> X + n <= w / 2.
Proof. intros. apply Nat.div_le_lower_bound; lia. Qed.
Lemma half_rows : forall Y h, 2 * Y + 2 <= h -> Y < h / 2.
Proof. intros. assert (Y + 1 <= h / 2) by (apply Nat.div_le_lower_bound; lia). lia. Qed.

(** Bounds of two rows [r], [r+1] *)
Lemma geom_rows : forall size cols rows s st r c n,
  pgeom size cols rows (s, st) -> r < rows -> c + n <= cols ->
  r * st + st <= s_len s /\ c * size + n * size <= st /\ usize (s_len s).
Proof.
  unfold pgeom; cbn [fst snd]. intros size cols rows s st r c n (A & B & U) R C.
  split; [apply (row_bound _ rows); assumption|split; [eapply cols_bound; eassumption|exact U]].
Qed.

Lemma i420_read_is : forall m p max py pu pv w h,
  pgeom (psize p) w h py -> pgeom (psize p) (w / 2) (h / 2) pu -> pgeom (psize p) (w / 2) (h / 2) pv ->
  i420_is (i420_read m p max py pu pv) w h
    (fun _ x y => rd m p max py y x) (fun _ _ cx cy => rd m p max pu cy cx) (fun _ _ cx cy => rd m p max pv cy cx).
Proof.
  intros m p max (sy, st) (su, ut) (sv, vt) w h GY GU GV vi q X Y S (HX & HY).
  pose proof (vs_len _ _ S) as HL. pose proof (psize_pos p) as HP.
  pose proof (half_cols _ _ _ HX) as HX2. pose proof (half_rows _ _ HY) as HY2.
  destruct (geom_rows _ _ _ _ _ (2 * Y + 1) (2 * X) (2 * vi_len vi) GY) as (Y1 & Y2 & Y3); [lia..|].
  destruct (geom_rows _ _ _ _ _ Y X (vi_len vi) GU) as (U1 & U2 & U3); [lia..|].
  destruct (geom_rows _ _ _ _ _ Y X (vi_len vi) GV) as (V1 & V2 & V3); [lia..|].
  assert (2 * Y + 1 <= (2 * Y + 1) * st) by (apply le_mul; nia).
  unfold i420_read. rewrite !div2X. rsteps.
  do 6 eexists. split; [reflexivity|]. repeat split; intros k Hk.
  - eapply rd_stream; eauto.
  - eapply rd_stream; eauto.
  - eapply rd_lane; eauto.
  - eapply rd_lane; eauto.
Qed.

Lemma i422_read_is : forall m p max py pu pv w h,
  pgeom (psize p) w h py -> pgeom (psize p) (w / 2) h pu -> pgeom (psize p) (w / 2) h pv ->
  i422_is (i422_read m p max py pu pv) w h
    (fun _ x y => rd m p max py y x) (fun _ cx y => rd m p max pu y cx) (fun _ cx y => rd m p max pv y cx).
Proof.
  intros m p max (sy, st) (su, ut) (sv, vt) w h GY GU GV vi q X Y S (HX & HY).
  pose proof (vs_len _ _ S) as HL. pose proof (psize_pos p) as HP.
  pose proof (half_cols _ _ _ HX) as HX2.
  destruct (geom_rows _ _ _ _ _ (2 * Y + 1) (2 * X) (2 * vi_len vi) GY) as (Y1 & Y2 & Y3); [lia..|].
  destruct (geom_rows _ _ _ _ _ (2 * Y + 1) X (vi_len vi) GU) as (U1 & U2 & U3); [lia..|].
  destruct (geom_rows _ _ _ _ _ (2 * Y + 1) X (vi_len vi) GV) as (V1 & V2 & V3); [lia..|].
  assert (2 * Y + 1 <= (2 * Y + 1) * st) by (apply le_mul; nia).
  unfold i422_read. rewrite !div2X. rsteps.
  do 8 eexists. split; [reflexivity|]. repeat split; intros k Hk.
  1,2: eapply rd_stream; eauto.
  all: eapply rd_lane; eauto.
Qed.

Lemma i444_read_is : forall m p max py pu pv w h,
  pgeom (psize p) w h py -> pgeom (psize p) w h pu -> pgeom (psize p) w h pv ->
  snd pu = snd py -> snd pv = snd py ->
  i444_is (i444_read m p max py pu pv) w h
    (fun _ x y => rd m p max py y x) (fun _ x y => rd m p max pu y x) (fun _ x y => rd m p max pv y x).
Proof.
  intros m p max (sy, st) (su, ut) (sv, vt) w h GY GU GV EU EV vi q X Y S (HX & HY).
  cbn [snd] in EU, EV. subst ut vt.
  pose proof (vs_len _ _ S) as HL. pose proof (psize_pos p) as HP.
  destruct (geom_rows _ _ _ _ _ (2 * Y + 1) (2 * X) (2 * vi_len vi) GY) as (Y1 & Y2 & Y3); [lia..|].
  destruct (geom_rows _ _ _ _ _ (2 * Y + 1) (2 * X) (2 * vi_len vi) GU) as (U1 & U2 & U3); [lia..|].
  destruct (geom_rows _ _ _ _ _ (2 * Y + 1) (2 * X) (2 * vi_len vi) GV) as (V1 & V2 & V3); [lia..|].
  assert (2 * Y + 1 <= (2 * Y + 1) * st) by (apply le_mul; nia).
  unfold i444_read. rsteps.
  do 12 eexists. split; [reflexivity|]. intros k Hk. repeat split; eapply rd_stream; eauto.
Qed.

(** De-interleaving: even and odd samples of a row *)
Lemma rd_unzip : forall vi q p m s st r c k, vector_spec vi q -> k < vi_len vi ->
  let '(a, b) := vunzip (VOps := vec_ops vi) (loadv vi p m s (r * st + c * psize p))
                        (loadv vi p m s (r * st + c * psize p + vi_len vi * psize p)) in
  a k = f32_of_Z (raw m p (s_buf s) (s_off s + (r * st + (c + 2 * k) * psize p))) /\
  b k = f32_of_Z (raw m p (s_buf s) (s_off s + (r * st + (c + 2 * k + 1) * psize p))).
Proof.
  intros vi q p m s st r c k S Hk.
  pose proof (vs_unzip _ _ S (loadv vi p m s (r * st + c * psize p))
    (loadv vi p m s (r * st + c * psize p + vi_len vi * psize p)) k Hk) as H.
  cbn [vunzip vec_ops].
  destruct (vi_unzip vi _ _) as (a, b). cbn [fst snd] in H. destruct H as [-> ->].
  split; (erewrite loadv_stream; [|eassumption|lia]); do 2 f_equal; nia.
Qed.

Lemma nv12_read_is : forall m p max py puv w h,
  pgeom (psize p) w h py -> pgeom (psize p) w (h / 2) puv ->
  i420_is (nv12_read m p max py puv) w h
    (fun _ x y => rd m p max py y x) (fun _ _ cx cy => rd m p max puv cy (2 * cx))
    (fun _ _ cx cy => rd m p max puv cy (2 * cx + 1)).
Proof.
  intros m p max (sy, st) (suv, ut) w h GY GU vi q X Y S (HX & HY).
  pose proof (vs_len _ _ S) as HL. pose proof (psize_pos p) as HP.
  pose proof (half_rows _ _ HY) as HY2.
  destruct (geom_rows _ _ _ _ _ (2 * Y + 1) (2 * X) (2 * vi_len vi) GY) as (Y1 & Y2 & Y3); [lia..|].
  destruct (geom_rows _ _ _ _ _ Y (2 * X) (2 * vi_len vi) GU) as (U1 & U2 & U3); [lia..|].
  assert (2 * Y + 1 <= (2 * Y + 1) * st) by (apply le_mul; nia).
  unfold nv12_read. rewrite !div2X. rsteps.
  pose proof (fun k => rd_unzip vi q p m suv ut Y (2 * X) k S) as UZ.
  destruct (vunzip _ _) as (u, v).
  do 6 eexists. split; [reflexivity|]. repeat split; intros k Hk.
  1,2: eapply rd_stream; eauto.
  all: rewrite vdivf_lane; destruct (UZ k Hk) as [A B]; rewrite ?A, ?B;
    unfold rd; cbn [fst snd]; do 3 f_equal; lia.
Qed.

Lemma yuyv_read_is : forall m p max pl w h,
  pgeom (psize p) (w * 2) h pl ->
  i422_is (yuyv_read m p max pl) w h
    (fun _ x y => rd m p max pl y (2 * x)) (fun _ cx y => rd m p max pl y (4 * cx + 1))
    (fun _ cx y => rd m p max pl y (4 * cx + 3)).
Proof.
  intros m p max (s, st) w h G vi q X Y S (HX & HY).
  pose proof (vs_len _ _ S) as HL. pose proof (psize_pos p) as HP.
  destruct (geom_rows _ _ _ _ _ (2 * Y + 1) (4 * X) (4 * vi_len vi) G) as (Y1 & Y2 & Y3); [lia..|].
  assert (2 * Y + 1 <= (2 * Y + 1) * st) by (apply le_mul; nia).
  unfold yuyv_read, read_yuyv. rsteps.
  (* the four loads, as rows of samples *)
  set (n := vi_len vi) in *.
  assert (E : forall r j, r * st + 2 * X * (2 * psize p) + j * psize p = r * st + (4 * X + j) * psize p) by (intros; nia).
  assert (E0 : forall r, r * st + 2 * X * (2 * psize p) = r * st + (4 * X) * psize p) by (intros; nia).
  assert (E2 : forall r, r * st + 2 * X * (2 * psize p) + n * 2 * psize p = r * st + (4 * X + 2 * n) * psize p) by (intros; nia).
  rewrite !E2, !E0.
  pose proof (fun r c k => rd_unzip vi q p m s st r c k S) as UZ. fold n in UZ.
  pose proof (UZ (2 * Y) (4 * X)) as A0; pose proof (UZ (2 * Y) (4 * X + 2 * n)) as A1.
  pose proof (UZ (2 * Y + 1) (4 * X)) as A2; pose proof (UZ (2 * Y + 1) (4 * X + 2 * n)) as A3.
  destruct (vunzip (loadv vi p m s (2 * Y * st + 4 * X * psize p)) _) as (y00, uv00).
  destruct (vunzip (loadv vi p m s (2 * Y * st + (4 * X + 2 * n) * psize p)) _) as (y01, uv01).
  destruct (vunzip (loadv vi p m s ((2 * Y + 1) * st + 4 * X * psize p)) _) as (y10, uv10).
  destruct (vunzip (loadv vi p m s ((2 * Y + 1) * st + (4 * X + 2 * n) * psize p)) _) as (y11, uv11).
  cbn [bind].
  pose proof (vs_unzip _ _ S uv00 uv01) as B0. pose proof (vs_unzip _ _ S uv10 uv11) as B1.
  cbn [vunzip vec_ops]. fold n in B0, B1.
  destruct (vi_unzip vi uv00 uv01) as (u0, v0). destruct (vi_unzip vi uv10 uv11) as (u1, v1). cbn [fst snd] in B0, B1.
  (* chroma: lane j of the odd samples of row r *)
  assert (C0 : forall j, j < 2 * n -> stream n (uv00, uv01) j
      = f32_of_Z (raw m p (s_buf s) (s_off s + (2 * Y * st + (4 * X + 2 * j + 1) * psize p)))).
  { intros j Hj. unfold stream; cbn [fst snd]. destruct (Nat.ltb_spec j n).
    - destruct (A0 j) as [_ ->]; [lia|reflexivity].
    - destruct (A1 (j - n)) as [_ ->]; [lia|]. do 2 f_equal. nia. }
  assert (C1 : forall j, j < 2 * n -> stream n (uv10, uv11) j
      = f32_of_Z (raw m p (s_buf s) (s_off s + ((2 * Y + 1) * st + (4 * X + 2 * j + 1) * psize p)))).
  { intros j Hj. unfold stream; cbn [fst snd]. destruct (Nat.ltb_spec j n).
    - destruct (A2 j) as [_ ->]; [lia|reflexivity].
    - destruct (A3 (j - n)) as [_ ->]; [lia|]. do 2 f_equal. nia. }
  do 8 eexists. split; [reflexivity|]. repeat split; intros k Hk.
  - rewrite vdivf_stream. unfold rd, stream; cbn [fst snd]. destruct (Nat.ltb_spec k n).
    + destruct (A0 k) as [-> _]; [lia|]. do 3 f_equal. nia.
    + destruct (A1 (k - n)) as [-> _]; [lia|]. do 3 f_equal. nia.
  - rewrite vdivf_stream. unfold rd, stream; cbn [fst snd]. destruct (Nat.ltb_spec k n).
    + destruct (A2 k) as [-> _]; [lia|]. do 3 f_equal. nia.
    + destruct (A3 (k - n)) as [-> _]; [lia|]. do 3 f_equal. nia.
  - rewrite vdivf_lane. destruct (B0 k Hk) as [-> _]. rewrite C0 by lia. unfold rd; cbn [fst snd]. do 3 f_equal. nia.
  - rewrite vdivf_lane. destruct (B1 k Hk) as [-> _]. rewrite C1 by lia. unfold rd; cbn [fst snd]. do 3 f_equal. nia.
  - rewrite vdivf_lane. destruct (B0 k Hk) as [_ ->]. rewrite C0 by lia. unfold rd; cbn [fst snd]. do 3 f_equal. nia.
  - rewrite vdivf_lane. destruct (B1 k Hk) as [_ ->]. rewrite C1 by lia. unfold rd; cbn [fst snd]. do 3 f_equal. nia.
Qed.

(** One byte of an interleaved row *)
Definition rdb (m : mem) (max : f32) (pl : plane) (r c : nat) : f32 := rd m U8 max pl r c.

Lemma load_4x_ok : forall vi m s off, off + vi_len vi * 4 * 2 <= s_len s ->
  load_4x vi m s off = Ok (vi_load_u8_4x vi (read_bytes m (s_buf s) (s_off s + off) (vi_len vi * 4 * 2))).
Proof. intros. unfold load_4x. rewrite raw_read_ok by assumption. reflexivity. Qed.
Lemma load_3x_ok : forall vi m s off, off + vi_len vi * 3 * 2 <= s_len s ->
  load_3x vi m s off = Ok (vi_load_u8_3x vi (read_bytes m (s_buf s) (s_off s + off) (vi_len vi * 3 * 2))).
Proof. intros. unfold load_3x. rewrite raw_read_ok by assumption. reflexivity. Qed.

Lemma rgba_read_is : forall m (reverse : bool) max pl w h,
  pgeom 1 (w * 4) h pl ->
  rgba_is (rgba_read m reverse max pl) w h (fun _ x y =>
    let c j := rd m U8 max pl y (4 * x + j) in
    ((c (if reverse then 2 else 0), c 1, c (if reverse then 0 else 2)), c 3)).
Proof.
  intros m reverse max (s, st) w h G vi q X Y S (HX & HY).
  pose proof (vs_len _ _ S) as HL.
  destruct (geom_rows _ _ _ _ _ (2 * Y + 1) (8 * X) (8 * vi_len vi) G) as (Y1 & Y2 & Y3); [lia..|].
  assert (2 * Y + 1 <= (2 * Y + 1) * st) by (apply le_mul; nia).
  unfold rgba_read. cbn [psize]. rsteps. rewrite !load_4x_ok by lia. cbn [bind].
  pose proof (vs_load_4x _ _ S) as H4.
  set (l0 := read_bytes m (s_buf s) (s_off s + (2 * Y * st + 2 * X * (4 * 1))) (vi_len vi * 4 * 2)) in *.
  set (l1 := read_bytes m (s_buf s) (s_off s + ((2 * Y + 1) * st + 2 * X * (4 * 1))) (vi_len vi * 4 * 2)) in *.
  pose proof (H4 l0) as A0. pose proof (H4 l1) as A1. clear H4.
  destruct (vi_load_u8_4x vi l0) as [[[[r00 g00] b00] a00] [[[r01 g01] b01] a01]].
  destruct (vi_load_u8_4x vi l1) as [[[[r10 g10] b10] a10] [[[r11 g11] b11] a11]].
  cbn [bind].
  do 4 eexists. split; [reflexivity|]. intros k Hk.
  assert (E0 : forall c, c < 4 -> rd m U8 max (s, st) (2 * Y) (4 * (2 * X + k) + c)
      = fdiv (f32_of_Z (byte_at l0 (4 * k + c))) max).
  { intros c Hc. unfold l0. rewrite byte_at_read by lia. unfold rd; cbn [raw fst snd psize]. do 3 f_equal. lia. }
  assert (E1 : forall c, c < 4 -> rd m U8 max (s, st) (2 * Y + 1) (4 * (2 * X + k) + c)
      = fdiv (f32_of_Z (byte_at l1 (4 * k + c))) max).
  { intros c Hc. unfold l1. rewrite byte_at_read by lia. unfold rd; cbn [raw fst snd psize]. do 3 f_equal. lia. }
  pose proof (A0 k 0 Hk ltac:(lia)) as A00. pose proof (A0 k 1 Hk ltac:(lia)) as A01.
  pose proof (A0 k 2 Hk ltac:(lia)) as A02. pose proof (A0 k 3 Hk ltac:(lia)) as A03.
  pose proof (A1 k 0 Hk ltac:(lia)) as A10. pose proof (A1 k 1 Hk ltac:(lia)) as A11.
  pose proof (A1 k 2 Hk ltac:(lia)) as A12. pose proof (A1 k 3 Hk ltac:(lia)) as A13.
  cbn [ch4] in *.
  unfold pxs, from_loaded. destruct reverse; cbn [px_r px_g px_b px_a]; rewrite !vdivf_stream, !E0, !E1 by lia;
    rewrite A00, A01, A02, A03, A10, A11, A12, A13; split; reflexivity.
Qed.

Lemma rgb_read_is : forall m (reverse : bool) max pl w h,
  pgeom 1 (w * 3) h pl ->
  rgba_is (rgb_read m reverse max pl) w h (fun _ x y =>
    let c j := rd m U8 max pl y (3 * x + j) in
    ((c (if reverse then 2 else 0), c 1, c (if reverse then 0 else 2)), fone)).
Proof.
  intros m reverse max (s, st) w h G vi q X Y S (HX & HY).
  pose proof (vs_len _ _ S) as HL.
  destruct (geom_rows _ _ _ _ _ (2 * Y + 1) (6 * X) (6 * vi_len vi) G) as (Y1 & Y2 & Y3); [lia..|].
  assert (2 * Y + 1 <= (2 * Y + 1) * st) by (apply le_mul; nia).
  unfold rgb_read. cbn [psize]. rsteps. rewrite !load_3x_ok by lia. cbn [bind].
  pose proof (vs_load_3x _ _ S) as H4.
  set (l0 := read_bytes m (s_buf s) (s_off s + (2 * Y * st + 2 * X * (3 * 1))) (vi_len vi * 3 * 2)) in *.
  set (l1 := read_bytes m (s_buf s) (s_off s + ((2 * Y + 1) * st + 2 * X * (3 * 1))) (vi_len vi * 3 * 2)) in *.
  pose proof (H4 l0) as A0. pose proof (H4 l1) as A1. clear H4.
  destruct (vi_load_u8_3x vi l0) as [[[r00 g00] b00] [[r01 g01] b01]].
  destruct (vi_load_u8_3x vi l1) as [[[r10 g10] b10] [[r11 g11] b11]].
  cbn [bind].
  do 4 eexists. split; [reflexivity|]. intros k Hk.
  assert (E0 : forall c, c < 3 -> rd m U8 max (s, st) (2 * Y) (3 * (2 * X + k) + c)
      = fdiv (f32_of_Z (byte_at l0 (3 * k + c))) max).
  { intros c Hc. unfold l0. rewrite byte_at_read by lia. unfold rd; cbn [raw fst snd psize]. do 3 f_equal. lia. }
  assert (E1 : forall c, c < 3 -> rd m U8 max (s, st) (2 * Y + 1) (3 * (2 * X + k) + c)
      = fdiv (f32_of_Z (byte_at l1 (3 * k + c))) max).
  { intros c Hc. unfold l1. rewrite byte_at_read by lia. unfold rd; cbn [raw fst snd psize]. do 3 f_equal. lia. }
  pose proof (A0 k 0 Hk ltac:(lia)) as A00. pose proof (A0 k 1 Hk ltac:(lia)) as A01.
  pose proof (A0 k 2 Hk ltac:(lia)) as A02.
  pose proof (A1 k 0 Hk ltac:(lia)) as A10. pose proof (A1 k 1 Hk ltac:(lia)) as A11.
  pose proof (A1 k 2 Hk ltac:(lia)) as A12.
  cbn [ch3] in *.
  assert (EA : stream (vi_len vi) (splat (VOps := vec_ops vi) lit1, splat (VOps := vec_ops vi) lit1) k = fone).
  { unfold stream; cbn [fst snd]. destruct (k <? vi_len vi); reflexivity. }
  unfold pxs, from_loaded. destruct reverse; cbn [px_r px_g px_b px_a]; rewrite !vdivf_stream, !EA, !E0, !E1 by lia;
    rewrite A00, A01, A02, A10, A11, A12; split; reflexivity.
Qed.
