(** C74: packed 16-bit RGB and RGBA in the vector interface. *)

From Coq Require Import ZArith Bool List Lia Arith.
From Coq Require Import Floats.SpecFloat.
From Verif Require Import Types F32 Vector Simd Simd16 SpecVector SpecVector16 SimdProofs.
Import ListNotations.

(** * The scalar and the NEON code do what the specification says *)

Theorem C74_packed16_partial : forall lm b, b = Scalar \/ b = NEON ->
  vector16_spec (vi_len (impl_of lm b)) (impl16_of b) (q_u16 (quant_of b)).
Proof.
  intros lm b [-> | ->]; constructor; cbn [vi_len scalar_impl neon_impl impl_of impl16_of]; intros.
  - cases k 2; cases c 3; lanes; reflexivity.
  - cases k 2; cases c 4; lanes; reflexivity.
  - destruct p as [[[? ?] ?] [[? ?] ?]]; reflexivity.
  - destruct p as [[[? ?] ?] [[? ?] ?]]; cbn [v16_write_3x scalar_impl16]; rewrite u16_bytes_word;
      cases k 2; cases c 3; reflexivity.
  - destruct p as [[[[? ?] ?] ?] [[[? ?] ?] ?]]; reflexivity.
  - destruct p as [[[[? ?] ?] ?] [[[? ?] ?] ?]]; cbn [v16_write_4x scalar_impl16]; rewrite u16_bytes_word;
      cases k 2; cases c 4; reflexivity.
  - cases k 8; cases c 3; lanes; reflexivity.
  - cases k 8; cases c 4; lanes; reflexivity.
  - destruct p as [[[? ?] ?] [[? ?] ?]]; cbn [v16_write_3x neon_impl16]; rewrite u16_bytes_length; reflexivity.
  - destruct p as [[[? ?] ?] [[? ?] ?]]; cbn [v16_write_3x neon_impl16]; rewrite u16_bytes_word;
      cases k 8; cases c 3; lanes; reflexivity.
  - destruct p as [[[[? ?] ?] ?] [[[? ?] ?] ?]]; cbn [v16_write_4x neon_impl16]; rewrite u16_bytes_length; reflexivity.
  - destruct p as [[[[? ?] ?] ?] [[[? ?] ?] ?]]; cbn [v16_write_4x neon_impl16]; rewrite u16_bytes_word;
      cases k 8; cases c 4; lanes; reflexivity.
Qed.

(** * AVX2 and AVX-512: what is loaded and stored instead *)

Definition avx_backend (b : backend) : Prop := b = AVX2 \/ b = AVX512.
Definition lanes_of (b : backend) : nat := match b with Scalar => 1 | AVX2 => 8 | AVX512 => 16 | NEON => 4 end.

Lemma word_ptr_add : forall n l i,
  u16_of (byte (ptr_add n l) i) (byte (ptr_add n l) (S i)) = word_at l (n + i).
Proof. intros. rewrite !byte_ptr_add. unfold word_at, u16_of. rewrite Nat.add_succ_r. reflexivity. Qed.

Lemma ptr_add_add : forall n m (l : list Z), ptr_add n (ptr_add m l) = ptr_add (m + n) l.
Proof.
  intros n m. induction m; intros l; [reflexivity|].
  destruct l; cbn [ptr_add skipn Nat.add]; [destruct n; reflexivity|apply IHm].
Qed.

(** Position, in bytes, from which component [c] of pixel [k] of a packing with
    [n] components is taken: the loads advance by one byte per lane where two
    are needed *)
Definition avx_read_from (len n k c : nat) : nat :=
  let t := n * (k mod len) + c in
  n * len * (k / len) + len * (t / len) + 2 * (t mod len).

Theorem C74_avx_loads : forall b l k c, avx_backend b -> k < 2 * lanes_of b ->
  (c < 3 -> ch3 (lanes_of b) (v16_load_3x (impl16_of b) l) c k
            = f32_of_Z (word_at l (avx_read_from (lanes_of b) 3 k c))) /\
  (c < 4 -> ch4 (lanes_of b) (v16_load_4x (impl16_of b) l) c k
            = f32_of_Z (word_at l (avx_read_from (lanes_of b) 4 k c))).
Proof.
  intros b l k c [-> | ->] Hk; cbn [lanes_of] in Hk; split; intros Hc.
  - cases k 16; cases c 3; lanes; rewrite ?ptr_add_add, ?word_ptr_add; reflexivity.
  - cases k 16; cases c 4; lanes; rewrite ?ptr_add_add, ?word_ptr_add; reflexivity.
  - cases k 32; cases c 3; lanes; rewrite ?ptr_add_add, ?word_ptr_add; reflexivity.
  - cases k 32; cases c 4; lanes; rewrite ?ptr_add_add, ?word_ptr_add; reflexivity.
Qed.

(** The pixel whose components the RGBA store puts at place [k] *)
Definition avx_stored_pixel (len k : nat) : nat :=
  let i := k mod len in
  let half := len / 2 in
  len * (k / len) + 4 * ((i mod half) / 2) + 2 * (i / half) + i mod 2.

(** The number the interleaving stores of both make of a float *)
Definition avx_word (x : f32) : Z := sat_u16 (cvtps_epi32 x).

Theorem C74_avx_rgba_store : forall b p k c, avx_backend b -> k < 2 * lanes_of b -> c < 4 ->
  word_at (v16_write_4x (impl16_of b) p) (2 * (4 * k + c))
    = avx_word (ch4 (lanes_of b) p c (avx_stored_pixel (lanes_of b) k)).
Proof.
  assert (A : forall l1 l2, u16_bytes l1 ++ u16_bytes l2 = u16_bytes (l1 ++ l2))
    by (intros; unfold u16_bytes; rewrite flat_map_app; reflexivity).
  intros b p k c [-> | ->] Hk Hc; cbn [lanes_of] in Hk; destruct p as [[[[r0 g0] b0] a0] [[[r1 g1] b1] a1]];
    cbn [v16_write_4x impl16_of avx2_impl16 avx512_impl16].
  - unfold avx2_store16_4x.
    destruct (avx2_interleave_4x_u16 r0 g0 b0 a0) as [lo0 hi0] eqn:E0.
    destruct (avx2_interleave_4x_u16 r1 g1 b1 a1) as [lo1 hi1] eqn:E1.
    rewrite A, u16_bytes_word.
    apply (f_equal fst) in E0 as L0; apply (f_equal snd) in E0 as H0.
    apply (f_equal fst) in E1 as L1; apply (f_equal snd) in E1 as H1.
    cbn [fst snd] in *. subst lo0 hi0 lo1 hi1. clear E0 E1.
    cases k 16; cases c 4; lanes; reflexivity.
  - unfold avx512_store16_4x.
    destruct (avx512_interleave_4x_u16 r0 g0 b0 a0) as [lo0 hi0] eqn:E0.
    destruct (avx512_interleave_4x_u16 r1 g1 b1 a1) as [lo1 hi1] eqn:E1.
    rewrite A, u16_bytes_word.
    apply (f_equal fst) in E0 as L0; apply (f_equal snd) in E0 as H0.
    apply (f_equal fst) in E1 as L1; apply (f_equal snd) in E1 as H1.
    cbn [fst snd] in *. subst lo0 hi0 lo1 hi1. clear E0 E1.
    cases k 32; cases c 4; lanes; reflexivity.
Qed.

(** Exactly what it writes: the pixels in the order of the RGBA store, but of
    every group of four the third one with the red and green of the first *)
Definition avx_rgb_pixel (len k c : nat) : nat :=
  avx_stored_pixel len (if (k mod 4 =? 2) && (c <? 2) then k - 2 else k).

Lemma avx_word_bytes : forall x, (avx_word x mod 256 + 256 * (avx_word x / 256))%Z = avx_word x.
Proof. intros x. pose proof (Z.div_mod (avx_word x) 256). lia. Qed.

Theorem C74_avx_rgb_store_pixels : forall b p k c, avx_backend b -> k < 2 * lanes_of b -> c < 3 ->
  word_at (v16_write_3x (impl16_of b) p) (2 * (3 * k + c))
    = avx_word (ch3 (lanes_of b) p c (avx_rgb_pixel (lanes_of b) k c)).
Proof.
  intros b [[[a0 b0] c0] [[a1 b1] c1]] k c [-> | ->] Hk Hc; cbn [lanes_of] in Hk; rewrite <- avx_word_bytes.
  - cases k 16; cases c 3; cbv -[sat_u16 cvtps_epi32 Z.modulo Z.div Z.add Z.mul]; reflexivity.
  - cases k 32; cases c 3; cbv -[sat_u16 cvtps_epi32 Z.modulo Z.div Z.add Z.mul]; reflexivity.
Qed.

(** [p] with the red component of pixel 4 replaced *)
Definition with_red_4 (x : f32) (p : (vec * vec * vec) * (vec * vec * vec)) :=
  let '((a0, b0, c0), q) := p in ((fun k => if k =? 4 then x else a0 k), b0, c0, q).

Lemma set_red_4 : forall x p n, 4 < n -> ch3 n (with_red_4 x p) 0 4 = x.
Proof.
  intros x [[[a0 b0] c0] [[a1 b1] c1]] n H. cbn [with_red_4 ch3]. unfold stream.
  replace (4 <? n) with true by (symmetry; apply Nat.ltb_lt; exact H). reflexivity.
Qed.

(** The RGB store loses components: whatever the red of pixel 4 is, the same
    bytes are written *)
Theorem C74_avx_rgb_store : forall b x p, avx_backend b ->
  v16_write_3x (impl16_of b) (with_red_4 x p) = v16_write_3x (impl16_of b) p.
Proof.
  intros b x [[[a0 b0] c0] [[a1 b1] c1]] [-> | ->];
    cbn [with_red_4 v16_write_3x impl16_of avx2_impl16 avx512_impl16]; f_equal;
    cbv -[sat_u16 cvtps_epi32 Z.modulo Z.div]; reflexivity.
Qed.

(** * So neither of them meets the specification, in any of the four operations *)

Definition ramp16 : list Z := flat_map (fun k => [Z.of_nat k; 0%Z]) (seq 0 160).
Definition ramp4 : (vec * vec * vec * vec) * (vec * vec * vec * vec) :=
  let v d := fun k => f32_of_Z (Z.of_nat k + d) in ((v 0%Z, v 100%Z, v 200%Z, v 300%Z), (v 0%Z, v 100%Z, v 200%Z, v 300%Z)).

Theorem C74_avx_refuted : forall b, avx_backend b ->
  (exists l, ch3 (lanes_of b) (v16_load_3x (impl16_of b) l) 0 8 <> f32_of_Z (word_at l (2 * (3 * 8 + 0)))) /\
  (exists l, ch4 (lanes_of b) (v16_load_4x (impl16_of b) l) 0 7 <> f32_of_Z (word_at l (2 * (4 * 7 + 0)))) /\
  (forall q : f32 -> Z, q (f32_of_Z 1) <> q (f32_of_Z 2) ->
     ~ vector16_spec (lanes_of b) (impl16_of b) q) /\
  (exists p, word_at (v16_write_4x (impl16_of b) p) (2 * (4 * 2 + 0)) = 4%Z /\ ch4 (lanes_of b) p 0 2 = f32_of_Z 2).
Proof.
  intros b Hb. split; [|split; [|split]].
  - exists ramp16. destruct Hb as [-> | ->]; vm_compute; discriminate.
  - exists ramp16. destruct Hb as [-> | ->]; vm_compute; discriminate.
  - intros q Hq S. assert (L : 4 < lanes_of b) by (destruct Hb as [-> | ->]; cbn; lia).
    set (p := ((cst (f32_of_Z 1), cst (f32_of_Z 1), cst (f32_of_Z 1)),
               (cst (f32_of_Z 1), cst (f32_of_Z 1), cst (f32_of_Z 1)))).
    pose proof (v16s_write_3x _ _ _ S (with_red_4 (f32_of_Z 1) p) 4 0 ltac:(lia) ltac:(lia)) as W1.
    pose proof (v16s_write_3x _ _ _ S (with_red_4 (f32_of_Z 2) p) 4 0 ltac:(lia) ltac:(lia)) as W2.
    rewrite !C74_avx_rgb_store, set_red_4 in W1, W2 by assumption. congruence.
  - exists ramp4. destruct Hb as [-> | ->]; vm_compute; split; reflexivity.
Qed.

(** No image reaches this code: every packed RGB or RGBA format has 8-bit samples *)
Theorem C74_no_such_format : forall f,
  In f [RGB; BGR; RGBA; BGRA] -> bits_per_component f = 8.
Proof. intros f [<-|[<-|[<-|[<-|[]]]]]; reflexivity. Qed.

(** Words 0, 1, 2, ... behind the pointer: NEON gives pixel 5 the components
    20 .. 23, AVX2 gives it 12 .. 15 *)
Example C74_example : forall c, c < 4 ->
  ch4 4 (v16_load_4x neon_impl16 ramp16) c 5 = f32_of_Z (Z.of_nat (20 + c)) /\
  ch4 8 (v16_load_4x avx2_impl16 ramp16) c 5 = f32_of_Z (Z.of_nat (12 + c)).
Proof. intros c H. cases c 4; vm_compute; split; reflexivity. Qed.

Example C74_order_example :
  map (avx_stored_pixel 8) (seq 0 8) = [0; 1; 4; 5; 2; 3; 6; 7] /\
  map (avx_stored_pixel 16) (seq 16 16)
    = [16; 17; 20; 21; 24; 25; 28; 29; 18; 19; 22; 23; 26; 27; 30; 31] /\
  map (fun k => map (avx_rgb_pixel 8 k) [0; 1; 2]) [2; 3; 6] = [[0; 0; 4]; [5; 5; 5]; [2; 2; 6]].
Proof. repeat split; reflexivity. Qed.

Print Assumptions C74_packed16_partial.
Print Assumptions C74_avx_loads.
Print Assumptions C74_avx_rgba_store.
Print Assumptions C74_avx_rgb_store.
Print Assumptions C74_avx_rgb_store_pixels.
Print Assumptions C74_avx_refuted.
Print Assumptions C74_no_such_format.
