(** C28, C29: nominal ranges, and what gray becomes. *)

From Coq Require Import List ZArith Bool Arith Reals Lia Lra Psatz.
From Flocq Require Import Core.
From Verif Require Import Base Types Planes ImageM F32 Vector Simd SpecVector SimdProofs QuantProofs SpecGeom GeomProofs
  SpecColor SpecConvert SpecRun Formats Visit Convert VisitProofs ColorProofs ConvertProofs ExactProofs PropConvert PropFidelity
  SpecReal FloatProofs AccProofs TargetProofs PropColor PropRound.
Import ListNotations.
Local Open Scope R_scope.

(** * Intervals of binary32 numbers *)

Definition small (x : f32) : Prop := is_num x /\ Rabs (fval x) <= 5000.
Definition smallb (x : f32) : bool :=
  SpecFloat.valid_binary 24 128 x && BinarySingleNaN.is_finite_SF x && f32_le x (f32_of_Z 5000) && f32_le (f32_of_Z (-5000)) x.

Lemma smallb_small : forall x, smallb x = true -> small x.
Proof.
  intros x H. unfold smallb in H. apply andb_prop in H as [H H4]. apply andb_prop in H as [H H3]. apply andb_prop in H as [H1 H2].
  assert (N : is_num x) by (split; assumption). split; [exact N|].
  destruct (f32_of_Z_num 5000 ltac:(lia)) as (NP & VP). destruct (f32_of_Z_num (-5000) ltac:(lia)) as (NM & VM).
  rewrite f32_le_num in H3, H4 by assumption. rewrite VP in H3. rewrite VM in H4.
  apply Rabs_le. split.
  - destruct (Rle_bool_spec (IZR (-5000)) (fval x)); [lra|discriminate].
  - destruct (Rle_bool_spec (fval x) 5000); [lra|discriminate].
Qed.

Definition within (lo hi x : f32) : Prop := small lo /\ small hi /\ is_num x /\ fval lo <= fval x <= fval hi.

Lemma within_small : forall lo hi x, within lo hi x -> Rabs (fval x) <= 5000.
Proof. intros lo hi x ((_ & L) & (_ & U) & _ & B). apply Rabs_le_inv in L, U. apply Rabs_le. lra. Qed.

Lemma big : forall v, Rabs v <= 25000000 -> Rabs v <= bpow radix2 127.
Proof. intros v H. eapply Rle_trans; [exact H|]. replace (bpow radix2 127) with (IZR (2 ^ 127)) by reflexivity. apply IZR_le. discriminate. Qed.

Lemma le_val : forall a b, small a -> small b -> f32_le a b = true -> fval a <= fval b.
Proof. intros a b (A & _) (B & _) H. rewrite f32_le_num in H by assumption. destruct (Rle_bool_spec (fval a) (fval b)); [assumption|discriminate]. Qed.

Lemma prod_big : forall a b, Rabs a <= 5000 -> Rabs b <= 5000 -> Rabs (a * b) <= bpow radix2 127.
Proof. intros a b A B. apply big. rewrite Rabs_mult. pose proof (Rabs_pos a). pose proof (Rabs_pos b). nra. Qed.
Lemma sum_big : forall a b, Rabs a <= 5000 -> Rabs b <= 5000 -> Rabs (a + b) <= bpow radix2 127.
Proof. intros a b A B. apply big. eapply Rle_trans; [apply Rabs_triang|]. lra. Qed.

Lemma within_mul : forall lo hi x c, within lo hi x -> smallb c = true -> smallb (f32_mul lo c) = true -> smallb (f32_mul hi c) = true ->
  if f32_le (f32_of_Z 0) c then within (f32_mul lo c) (f32_mul hi c) (f32_mul x c)
  else within (f32_mul hi c) (f32_mul lo c) (f32_mul x c).
Proof.
  intros lo hi x c W C L H. apply smallb_small in C, L, H. pose proof (within_small _ _ _ W) as XS. destruct W as ((NL & BL) & (NH & BH) & NX & B).
  destruct (f32_mul_num x c NX (proj1 C) (prod_big _ _ XS (proj2 C))) as (N & V).
  destruct (f32_mul_num lo c NL (proj1 C) (prod_big _ _ BL (proj2 C))) as (_ & VL).
  destruct (f32_mul_num hi c NH (proj1 C) (prod_big _ _ BH (proj2 C))) as (_ & VH).
  destruct (f32_of_Z_num 0 ltac:(lia)) as (NZ & VZ).
  rewrite f32_le_num by (try exact NZ; apply C). rewrite VZ. destruct (Rle_bool_spec (IZR 0) (fval c)).
  - split; [exact L|split; [exact H|split; [exact N|]]]. rewrite V, VL, VH. split; apply rnd_mono; nra.
  - split; [exact H|split; [exact L|split; [exact N|]]]. rewrite V, VL, VH. split; apply rnd_mono; nra.
Qed.

Lemma within_mul_pos : forall lo hi x c, within lo hi x -> smallb c = true -> f32_le (f32_of_Z 0) c = true ->
  smallb (f32_mul lo c) = true -> smallb (f32_mul hi c) = true -> within (f32_mul lo c) (f32_mul hi c) (f32_mul x c).
Proof. intros lo hi x c W C P L H. pose proof (within_mul lo hi x c W C L H) as R. rewrite P in R. exact R. Qed.

Lemma within_add : forall lo hi x lo' hi' x', within lo hi x -> within lo' hi' x' -> smallb (f32_add lo lo') = true -> smallb (f32_add hi hi') = true ->
  within (f32_add lo lo') (f32_add hi hi') (f32_add x x').
Proof.
  intros lo hi x lo' hi' x' W W' L H. apply smallb_small in L, H. pose proof (within_small _ _ _ W) as XS. pose proof (within_small _ _ _ W') as XS'.
  destruct W as ((NL & BL) & (NH & BH) & NX & B). destruct W' as ((NL' & BL') & (NH' & BH') & NX' & B').
  destruct (f32_add_num x x' NX NX' (sum_big _ _ XS XS')) as (N & V).
  destruct (f32_add_num lo lo' NL NL' (sum_big _ _ BL BL')) as (_ & VL).
  destruct (f32_add_num hi hi' NH NH' (sum_big _ _ BH BH')) as (_ & VH).
  split; [exact L|split; [exact H|split; [exact N|]]]. rewrite V, VL, VH. split; apply rnd_mono; lra.
Qed.

Lemma within_const : forall c, smallb c = true -> within c c c.
Proof. intros c C. apply smallb_small in C. split; [exact C|split; [exact C|split; [apply C|lra]]]. Qed.

(** division by a positive constant that is at least 1 *)
Lemma within_div : forall lo hi x c, within lo hi x -> smallb c = true -> f32_le (f32_of_Z 1) c = true ->
  smallb (f32_div lo c) = true -> smallb (f32_div hi c) = true -> within (f32_div lo c) (f32_div hi c) (f32_div x c).
Proof.
  intros lo hi x c W C C1 L H. apply smallb_small in C, L, H. pose proof (within_small _ _ _ W) as XS. destruct W as ((NL & BL) & (NH & BH) & NX & B).
  destruct (f32_of_Z_num 1 ltac:(lia)) as (N1 & V1). rewrite f32_le_num in C1 by (try exact N1; apply C). rewrite V1 in C1.
  destruct (Rle_bool_spec 1 (fval c)) as [C0|]; [|discriminate].
  assert (I : 0 < / fval c <= 1). { split; [apply Rinv_0_lt_compat; lra|]. rewrite <- Rinv_1. apply Rinv_le_contravar; lra. }
  assert (DB : forall a, Rabs a <= 5000 -> Rabs (a / fval c) <= bpow radix2 127).
  { intros a A. apply big. unfold Rdiv. rewrite Rabs_mult, (Rabs_right (/ fval c)) by lra. pose proof (Rabs_pos a). nra. }
  assert (C00 : fval c <> 0) by lra.
  destruct (f32_div_num x c NX (proj1 C) C00 (DB _ XS)) as (N & V).
  destruct (f32_div_num lo c NL (proj1 C) C00 (DB _ BL)) as (_ & VL).
  destruct (f32_div_num hi c NH (proj1 C) C00 (DB _ BH)) as (_ & VH).
  split; [exact L|split; [exact H|split; [exact N|]]]. rewrite V, VL, VH. split; apply rnd_mono; unfold Rdiv; nra.
Qed.

Lemma within_weaken : forall lo hi lo' hi' x, within lo hi x -> smallb lo' = true -> smallb hi' = true ->
  f32_le lo' lo = true -> f32_le hi hi' = true -> within lo' hi' x.
Proof.
  intros lo hi lo' hi' x (L & H & N & B) L' H' A C. apply smallb_small in L', H'.
  apply le_val in A; try assumption. apply le_val in C; try assumption. split; [exact L'|split; [exact H'|split; [exact N|lra]]].
Qed.

(** * The encoded values *)

Definition zero32 : f32 := flit 0 0.
Definition one32 : f32 := flit 1 0.
Definition half32 : f32 := flit 5 1.
Definition mhalf32 : f32 := f32_neg half32.

(** Components of a color in the unit cube *)
Definition unit32 (c : f32 * f32 * f32) : Prop := within zero32 one32 (fst3 c) /\ within zero32 one32 (snd3 c) /\ within zero32 one32 (thd3 c).

Ltac chk := clear; vm_compute; reflexivity.

Lemma within_dot : forall A B C x y z, within zero32 one32 x -> within zero32 one32 y -> within zero32 one32 z ->
  smallb A = true -> smallb B = true -> smallb C = true ->
  smallb (f32_mul zero32 A) = true -> smallb (f32_mul zero32 B) = true -> smallb (f32_mul zero32 C) = true ->
  smallb (f32_mul one32 A) = true -> smallb (f32_mul one32 B) = true -> smallb (f32_mul one32 C) = true ->
  let ord c lo hi := if f32_le (f32_of_Z 0) c then lo else hi in
  let lo := f32_add (f32_add (ord A (f32_mul zero32 A) (f32_mul one32 A)) (ord B (f32_mul zero32 B) (f32_mul one32 B))) (ord C (f32_mul zero32 C) (f32_mul one32 C)) in
  let hi := f32_add (f32_add (ord A (f32_mul one32 A) (f32_mul zero32 A)) (ord B (f32_mul one32 B) (f32_mul zero32 B))) (ord C (f32_mul one32 C) (f32_mul zero32 C)) in
  smallb (f32_add (ord A (f32_mul zero32 A) (f32_mul one32 A)) (ord B (f32_mul zero32 B) (f32_mul one32 B))) = true ->
  smallb (f32_add (ord A (f32_mul one32 A) (f32_mul zero32 A)) (ord B (f32_mul one32 B) (f32_mul zero32 B))) = true ->
  smallb lo = true -> smallb hi = true -> within lo hi (dot A B C x y z).
Proof.
  intros A B C x y z WX WY WZ SA SB SC A0 B0 C0 A1 B1 C1 ord lo hi S1 S2 SL SH.
  pose proof (within_mul _ _ x A WX SA A0 A1) as WA. pose proof (within_mul _ _ y B WY SB B0 B1) as WB. pose proof (within_mul _ _ z C WZ SC C0 C1) as WC.
  unfold dot, lo, hi. change (@fadd f32 _) with f32_add. change (@fmul f32 _) with f32_mul.
  apply within_add; try assumption; [apply within_add; try assumption|]; unfold ord.
  - destruct (f32_le _ A); exact WA.
  - destruct (f32_le _ B); exact WB.
  - destruct (f32_le _ C); exact WC.
Qed.

(** Luma and centred chroma of a color in the unit cube, in binary32.  Also for
    the code's BT.2020, whose weights add up to less than 1. *)
Lemma yuv_within : forall s t p L c, is_ictcp s = false -> unit32 c ->
  let yuv := rgb_yuv L s t p c in
  within zero32 one32 (fst3 yuv) /\ within mhalf32 half32 (snd3 yuv) /\ within mhalf32 half32 (thd3 yuv).
Proof.
  intros s t p L [[r g] b] S (WR & WG & WB). unfold fst3, snd3, thd3 in *. cbn [fst snd] in *.
  destruct s; try discriminate S; cbn [rgb_yuv weights_to_yuv luma_weights fst snd];
    (split; [|split]); (eapply within_weaken; [eapply within_dot; try eassumption; chk|chk|chk|chk|chk]).
Qed.

Lemma mean4_within : forall a b c d, unit32 a -> unit32 b -> unit32 c -> unit32 d -> unit32 (mean4 a b c d).
Proof.
  assert (M : forall a b c d, within zero32 one32 a -> within zero32 one32 b -> within zero32 one32 c -> within zero32 one32 d ->
    within zero32 one32 (f32_mul (f32_add (f32_add a b) (f32_add c d)) (flit 25 2))).
  { intros a b c d A B C D. eapply within_weaken.
    - apply (within_mul_pos (f32_add (f32_add zero32 zero32) (f32_add zero32 zero32)) (f32_add (f32_add one32 one32) (f32_add one32 one32))).
      + apply within_add; [apply within_add; [exact A|exact B|chk|chk]|apply within_add; [exact C|exact D|chk|chk]|chk|chk].
      + chk. + chk. + chk. + chk.
    - chk. - chk. - chk. - chk. }
  intros a b c d (A1 & A2 & A3) (B1 & B2 & B3) (C1 & C2 & C3) (D1 & D2 & D3).
  unfold unit32, mean4, fst3, snd3, thd3 in *. cbn [fst snd]. split; [|split]; apply M; assumption.
Qed.

Lemma mean2_within : forall a b, within mhalf32 half32 a -> within mhalf32 half32 b ->
  within mhalf32 half32 (f32_div (f32_add a b) (flit 2 0)).
Proof.
  intros a b A B. eapply within_weaken.
  - apply (within_div (f32_add mhalf32 mhalf32) (f32_add half32 half32)); [apply within_add; try assumption; chk| | | |]; chk.
  - chk. - chk. - chk. - chk.
Qed.

(** Bounds of the encoded values *)
Definition enc_lo (full : bool) (c : comp) : f32 :=
  let i := YuvCI TLinear PrBT709 SpBT601 full in match c with CY => encode_y i zero32 | _ => encode_c i mhalf32 end.
Definition enc_hi (full : bool) (c : comp) : f32 :=
  let i := YuvCI TLinear PrBT709 SpBT601 full in match c with CY => encode_y i one32 | _ => encode_c i half32 end.

Lemma encode_y_within : forall i y, within zero32 one32 y -> within (enc_lo (yc_full_range i) CY) (enc_hi (yc_full_range i) CY) (encode_y i y).
Proof.
  intros [t p s []] y W; cbn [yc_full_range]; unfold encode_y, enc_lo, enc_hi, compress_y; cbn [yc_full_range]; [exact W|].
  eapply within_weaken; [apply within_add; [apply within_const; chk|apply (within_mul_pos _ _ _ (fdiv (flit 219 0) (flit 255 0)) W); chk|chk|chk]|chk|chk|chk|chk].
Qed.

Lemma encode_c_within : forall i u c, c = CU \/ c = CV -> within mhalf32 half32 u ->
  within (enc_lo (yc_full_range i) c) (enc_hi (yc_full_range i) c) (encode_c i u).
Proof.
  intros [t p s full] u c HC W.
  assert (W1 : within zero32 one32 (f32_add u half32)).
  { eapply within_weaken; [apply within_add; [exact W|apply (within_const half32); chk|chk|chk]|chk|chk|chk|chk]. }
  replace (enc_lo (yc_full_range (YuvCI t p s full)) c) with (enc_lo full CU) by (destruct HC as [-> | ->]; reflexivity).
  replace (enc_hi (yc_full_range (YuvCI t p s full)) c) with (enc_hi full CU) by (destruct HC as [-> | ->]; reflexivity).
  destruct full; unfold encode_c, compress_c; cbn [yc_full_range].
  - eapply within_weaken; [exact W1|chk|chk|chk|chk].
  - eapply within_weaken; [apply within_add; [apply within_const; chk|apply (within_mul_pos _ _ _ (fdiv (flit 224 0) (flit 255 0)) W1); chk|chk|chk]|chk|chk|chk|chk].
Qed.

(** * C28 *)

(** A binary32 number in 0 .. 1 *)
Definition in_unit (x : f32) : Prop :=
  SpecFloat.valid_binary 24 128 x = true /\ f32_le (f32_of_Z 0) x = true /\ f32_le x (f32_of_Z 1) = true.

Lemma in_unit_within : forall x, in_unit x -> within zero32 one32 x.
Proof.
  intros x (V & L & U).
  assert (F : BinarySingleNaN.is_finite_SF x = true).
  { destruct x as [| [] | |]; try reflexivity; vm_compute in L, U; discriminate. }
  assert (N : is_num x) by (split; assumption).
  destruct (f32_of_Z_num 0 ltac:(lia)) as (N0 & V0). destruct (f32_of_Z_num 1 ltac:(lia)) as (N1 & V1).
  rewrite f32_le_num in L, U by assumption. rewrite V0 in L. rewrite V1 in U.
  destruct (Rle_bool_spec (IZR 0) (fval x)); [|discriminate]. destruct (Rle_bool_spec (fval x) (IZR 1)); [|discriminate].
  split; [apply smallb_small; chk|]. split; [apply smallb_small; chk|]. split; [exact N|].
  change zero32 with (f32_of_Z 0). change one32 with (f32_of_Z 1). rewrite V0, V1. lra.
Qed.

Lemma within_le : forall lo hi x, within lo hi x -> f32_le lo x = true /\ f32_le x hi = true.
Proof.
  intros lo hi x ((NL & _) & (NH & _) & N & B). rewrite !f32_le_num by assumption.
  split; apply Rle_bool_true; lra.
Qed.

(** The binary32 number closest to [n]/255 *)
Definition of_255 (n : Z) : f32 := fdiv (f32_of_Z n) (f32_of_Z 255).
Definition lowest (full : bool) : f32 := if full then of_255 0 else of_255 16.
Definition highest (full : bool) (c : comp) : f32 := if full then of_255 255 else match c with CY => of_255 235 | _ => of_255 240 end.

(** Whatever the color, rounding never carries a component out of its nominal
    range: 0 .. 1, or 16/255 .. 235/255 and 16/255 .. 240/255. *)
Theorem C28_binary32 : forall L i r g b, is_ictcp (yc_space i) = false ->
  in_unit r -> in_unit g -> in_unit b ->
  let '(y, u, v) := rgb_yuv L (yc_space i) (yc_transfer i) (yc_primaries i) (r, g, b) in
  forall c e, (c = CY /\ e = encode_y i y) \/ (c = CU /\ e = encode_c i u) \/ (c = CV /\ e = encode_c i v) ->
  f32_le (lowest (yc_full_range i)) e = true /\ f32_le e (highest (yc_full_range i) c) = true.
Proof.
  intros L i r g b S R G B.
  pose proof (yuv_within (yc_space i) (yc_transfer i) (yc_primaries i) L (r, g, b) S
    (conj (in_unit_within _ R) (conj (in_unit_within _ G) (in_unit_within _ B)))) as W.
  cbv zeta in W. destruct (rgb_yuv _ _ _ _ _) as [[y u] v]. destruct W as (WY & WU & WV). unfold fst3, snd3, thd3 in *. cbn [fst snd] in *.
  intros c e H. apply within_le. destruct H as [(-> & ->)|[(-> & ->)|(-> & ->)]].
  - eapply within_weaken; [apply encode_y_within, WY|..]; destruct (yc_full_range i); chk.
  - eapply within_weaken; [apply (encode_c_within i u CU ltac:(auto) WU)|..]; destruct (yc_full_range i); chk.
  - eapply within_weaken; [apply (encode_c_within i v CV ltac:(auto) WV)|..]; destruct (yc_full_range i); chk.
Qed.
Print Assumptions C28_binary32.

(** Red is in the unit cube and not at its corner in V. *)
Example C28_example : in_unit (of_255 77) /\ in_unit (of_255 255) /\ in_unit (of_255 0).
Proof. repeat split; reflexivity. Qed.

(** ** At the API *)

(** Smallest and largest sample.  8 bits: 16 .. 235 and 16 .. 240; the code
    scales these with 1023/255 and 4095/255 for 10 and 12 bits. *)
Definition nominal (f : pixel_format) (full : bool) (c : comp) : Z * Z :=
  if full then (0, max_level f)%Z
  else match max_level f, c with
       | 1023, CY => (64, 943) | 1023, _ => (64, 963)
       | 4095, CY => (256, 3774) | 4095, _ => (256, 3854)
       | _, CY => (16, 235) | _, _ => (16, 240)
       end%Z.

Lemma norm_unit : forall m im ps c x y, valid_image im ps -> bytes_ok m -> sampling_of (im_format im) = SRGB -> in_image im x y ->
  within zero32 one32 (norm m (im_format im) ps c x y).
Proof.
  intros m im ps c x y V B S HI. unfold norm. destruct (component m (im_format im) ps c x y) as [z|] eqn:G.
  - assert (R : (0 <= z <= 255)%Z).
    { assert (LV : levels_ok m im ps) by (apply bytes_levels; [exact B|destruct (im_format im); try discriminate S; reflexivity]).
      pose proof (LV c x y z HI G) as R. destruct (im_format im); try discriminate S; exact R. }
    replace (max_level (im_format im)) with 255%Z by (destruct (im_format im); try discriminate S; reflexivity).
    assert (C : forallb (fun n => smallb (of_255 (Z.of_nat n)) && f32_le zero32 (of_255 (Z.of_nat n)) && f32_le (of_255 (Z.of_nat n)) one32) (seq 0 256) = true) by chk.
    rewrite forallb_forall in C. specialize (C (Z.to_nat z)). rewrite Z2Nat.id in C by lia.
    assert (I : In (Z.to_nat z) (seq 0 256)) by (apply in_seq; lia). specialize (C I).
    apply andb_prop in C as [C C3]. apply andb_prop in C as [C1 C2].
    apply (within_weaken (of_255 z) (of_255 z)); [apply within_const, C1|chk|chk|exact C2|exact C3].
  - apply (within_weaken one32 one32); [apply within_const; chk|chk|chk|chk|chk].
Qed.

Lemma target_within : forall L f i pix c x y, is_ictcp (yc_space i) = false -> sampling_of f <> SRGB -> has_comp f c = true ->
  (forall p, In p ((x, y) :: chroma_block (sampling_of f) x y) -> unit32 (fst (pix (fst p) (snd p)))) ->
  within (enc_lo (yc_full_range i) c) (enc_hi (yc_full_range i) c) (target L f (CYUV i) pix c x y).
Proof.
  intros L f i pix c x y S SF HC U.
  assert (W : forall q, unit32 q -> _) by (intros q Q; exact (yuv_within (yc_space i) (yc_transfer i) (yc_primaries i) L q S Q)). cbv zeta in W.
  assert (CC : c = CY \/ c = CU \/ c = CV) by (unfold has_comp in HC; destruct (sampling_of f), c; auto; congruence).
  pose proof (U (x, y) ltac:(left; reflexivity)) as U0. cbn [fst snd] in U0.
  assert (CH : forall sel, (sel = snd3 \/ sel = thd3) -> within mhalf32 half32
    (match sampling_of f with
     | S420 => sel (rgb_yuv L (yc_space i) (yc_transfer i) (yc_primaries i)
         (mean4 (fst (pix (2 * (x / 2)) (2 * (y / 2)))) (fst (pix (2 * (x / 2)) (2 * (y / 2) + 1)))
                (fst (pix (2 * (x / 2) + 1) (2 * (y / 2)))) (fst (pix (2 * (x / 2) + 1) (2 * (y / 2) + 1)))))
     | S422 => fdiv (fadd (sel (rgb_yuv L (yc_space i) (yc_transfer i) (yc_primaries i) (fst (pix (2 * (x / 2)) y))))
                          (sel (rgb_yuv L (yc_space i) (yc_transfer i) (yc_primaries i) (fst (pix (2 * (x / 2) + 1) y))))) (flit 2 0)
     | _ => sel (rgb_yuv L (yc_space i) (yc_transfer i) (yc_primaries i) (fst (pix x y)))
     end)%nat).
  { intros sel SEL.
    assert (WS : forall q, unit32 q -> within mhalf32 half32 (sel (rgb_yuv L (yc_space i) (yc_transfer i) (yc_primaries i) q)))
      by (intros q Q; destruct SEL as [-> | ->]; apply (W q Q)).
    destruct (sampling_of f) eqn:SE.
    - apply WS. assert (UP : forall p, In p (chroma_block S420 x y) -> unit32 (fst (pix (fst p) (snd p)))) by (intros p P; apply U; right; exact P).
      unfold chroma_block in UP.
      apply mean4_within; match goal with |- unit32 (fst (pix ?a ?b)) => apply (UP (a, b)); rewrite ?Nat.add_1_r; cbn [In]; auto 8 end.
    - assert (UP : forall p, In p (chroma_block S422 x y) -> unit32 (fst (pix (fst p) (snd p)))) by (intros p P; apply U; right; exact P).
      unfold chroma_block in UP.
      apply mean2_within; apply WS; match goal with |- unit32 (fst (pix ?a ?b)) => apply (UP (a, b)); rewrite ?Nat.add_1_r; cbn [In]; auto 8 end.
    - apply WS, U0.
    - congruence. }
  pose proof (CH snd3 ltac:(auto)) as CU'. pose proof (CH thd3 ltac:(auto)) as CV'. pose proof (proj1 (W _ U0)) as CY'. clear CH U U0 W.
  unfold target. destruct (sampling_of f); try congruence;
    (destruct CC as [-> |[-> | ->]]; [apply encode_y_within, CY'|apply encode_c_within; [auto|exact CU']|apply encode_c_within; [auto|exact CV']]).
Qed.

Lemma nominal_store : forall cb f full c v, sampling_of f <> SRGB -> has_comp f c = true -> within (enc_lo full c) (enc_hi full c) v ->
  (fst (nominal f full c) <= quantise (quant_of cb) f v <= snd (nominal f full c))%Z.
Proof.
  intros cb f full c v SF HC W.
  assert (CC : c = CY \/ c = CU \/ c = CV) by (unfold has_comp in HC; destruct (sampling_of f), c; auto; congruence).
  set (lo := fst (nominal f full c)). set (hi := snd (nominal f full c)).
  set (M := f32_of_Z (max_level f)).
  assert (WM : within (f32_mul (enc_lo full c) M) (f32_mul (enc_hi full c) M) (f32_mul v M)
    /\ f32_le (f32_of_Z lo) (f32_mul (enc_lo full c) M) = true
    /\ f32_lt (f32_mul (f32_mul (enc_hi full c) M) (f32_of_Z 2)) (f32_of_Z (2 * hi + 1)) = true).
  { assert (ML : (max_level f = 255 \/ max_level f = 1023 \/ max_level f = 4095)%Z) by (destruct f; cbn; auto).
    unfold lo, hi, M, nominal. clear lo hi M HC SF.
    destruct ML as [-> |[-> | ->]]; destruct full, CC as [-> |[-> | ->]];
      (split; [apply (within_mul_pos _ _ v _ W); chk|split; chk]). }
  assert (LOHI : (0 <= lo <= hi /\ hi <= top f /\ hi <= 4095)%Z).
  { unfold lo, hi. clear. destruct f, full, c; cbn; lia. }
  destruct WM as ((SL & SH & N & B1 & B2) & LO & HI). clearbody lo hi.
  destruct (f32_of_Z_num lo ltac:(lia)) as (NL & VL).
  rewrite f32_le_num in LO by (try exact NL; apply SL). destruct (Rle_bool_spec (fval (f32_of_Z lo)) (fval (f32_mul (enc_lo full c) M))) as [LO'|]; [|discriminate].
  rewrite VL in LO'.
  destruct (f32_of_Z_num (2 * hi + 1) ltac:(lia)) as (N1 & V1). destruct (f32_of_Z_num 2 ltac:(lia)) as (N2 & V2).
  set (E := f32_mul (enc_hi full c) M) in *.
  destruct (f32_mul_num E (f32_of_Z 2) (proj1 SH) N2) as (NE & VE).
  { rewrite V2. apply prod_big; [apply SH|rewrite Rabs_right; lra]. }
  rewrite f32_lt_num in HI by assumption. destruct (Rlt_bool_spec (fval (f32_mul E (f32_of_Z 2))) (fval (f32_of_Z (2 * hi + 1)))) as [HI'|]; [|discriminate].
  assert (EH : fval E * 2 < IZR (2 * hi + 1)).
  { apply Rnot_le_lt. intros C. rewrite VE, V1, V2 in HI'. rewrite <- V1 in C. apply rnd_mono in C. rewrite (rnd_num _ N1), V1 in C. lra. }
  rewrite plus_IZR, mult_IZR in EH.
  assert (R0 : 0 <= IZR lo) by (apply IZR_le; lia). assert (R1 : IZR hi <= IZR (top f)) by (apply IZR_le; lia). assert (R2 : IZR hi <= 4095) by (apply IZR_le; lia).
  pose proof (quantise_val cb f v) as Q. cbv zeta in Q. fold M in Q. specialize (Q N).
  assert (Q' : stored_for cb 0 (clamp (IZR (top f)) (fval (f32_mul v M))) (quantise (quant_of cb) f v)).
  { apply Q; [apply Rabs_def1; lra|]. right; right. lra. }
  clear Q. set (z := quantise (quant_of cb) f v) in *. set (q := fval (f32_mul v M)) in *.
  assert (CL : IZR lo <= clamp (IZR (top f)) q < IZR hi + 1 / 2).
  { assert (IZR lo <= IZR hi) by (apply IZR_le; lia). unfold clamp, Rmax, Rmin. repeat destruct (Rle_dec _ _); lra. }
  set (w := clamp (IZR (top f)) q) in *. clearbody w.
  assert (ZB : IZR lo - 1 < IZR z < IZR hi + 1).
  { destruct cb; cbn [stored_for] in Q'; unfold truncated, rounded in Q'; try lra; apply Rabs_le_inv in Q'; lra. }
  assert (Z1 : IZR (lo - 1) < IZR z) by (rewrite minus_IZR; lra). assert (Z2 : IZR z < IZR (hi + 1)) by (rewrite plus_IZR; lra).
  apply lt_IZR in Z1, Z2. lia.
Qed.

(** Every sample of a converted RGB image is in the nominal range of its format,
    on every back end: nothing is clipped, and limited range never leaves
    16 .. 235 (16 .. 240 for chroma). *)
Theorem C28_nominal_range : forall lm b m src sps dst dps i,
  converts lm b m src sps dst dps -> bytes_ok m ->
  sampling_of (im_format src) = SRGB -> sampling_of (im_format dst) <> SRGB ->
  im_color dst = CYUV i -> is_ictcp (yc_space i) = false ->
  same_light (im_color src) (im_color dst) = true ->
  forall c x y, has_comp (im_format dst) c = true -> in_image dst x y ->
  exists z, stored lm b m src dst dps c x y = Some z /\
    (fst (nominal (im_format dst) (yc_full_range i) c) <= z <= snd (nominal (im_format dst) (yc_full_range i) c))%Z.
Proof.
  intros lm b m src sps dst dps i CVT BM SS SD CI SP SL c x y HC HI.
  pose proof (converts_convertible _ _ _ _ _ _ _ CVT) as CT. assert (VS : valid_image src sps) by apply CVT.
  assert (SK : same_image_kind src dst = false).
  { unfold same_image_kind. apply andb_false_iff; left. destruct (im_format src), (im_format dst); try reflexivity; cbn in SS, SD; congruence. }
  assert (ICT : ictcp_chroma420 (im_format dst) (im_color dst) c = false).
  { unfold ictcp_chroma420. rewrite CI. destruct (sampling_of (im_format dst)); try reflexivity. rewrite SP. destruct c; reflexivity. }
  rewrite (stored_expected _ _ _ _ _ _ _ CVT c x y HC HI ICT). eexists; split; [reflexivity|].
  apply nominal_store; [exact SD|exact HC|]. unfold expected_value. rewrite SK, CI. rewrite CI in SL.
  apply target_within; [exact SP|exact SD|exact HC|].
  intros p P. unfold recolored. rewrite SL.
  assert (HI' : in_image src (fst p) (snd p)).
  { assert (A : in_image dst (fst p) (snd p)) by (eapply block_in_image; [apply CT|apply CT|exact HI|exact P]).
    destruct A. unfold in_image. rewrite (cv_width _ _ _ _ CT), (cv_height _ _ _ _ CT). auto. }
  unfold source_pixel. rewrite SS. cbn [fst]. unfold unit32, fst3, snd3, thd3. cbn [fst snd].
  split; [|split]; apply norm_unit; assumption.
Qed.
Print Assumptions C28_nominal_range.

Example C28_example_image : forall b,
  converts ex_lm b ex_mem ex_src ex_src_planes ex_dst ex_dst_planes /\ bytes_ok ex_mem /\
  sampling_of (im_format ex_src) = SRGB /\ sampling_of (im_format ex_dst) <> SRGB /\
  im_color ex_dst = CYUV (YuvCI TLinear PrBT709 SpBT709 true) /\ same_light (im_color ex_src) (im_color ex_dst) = true.
Proof. intros b. destruct (C48_example b) as (A & B & C & D & E & F & _). tauto. Qed.

(** * C29 *)

(** All pixels that share the chroma sample of ([x], [y]) have the gray level [g]. *)
Definition gray_block (m : mem) (src : image) (sps : list (slice * nat)) (s : sampling) (x y : nat) (g : Z) : Prop :=
  forall c p, c = CR \/ c = CG \/ c = CB -> In p ((x, y) :: chroma_block s x y) -> given m src sps c (fst p) (snd p) = Some g.

Definition gray_yuv (s : color_space) (g : Z) : f32 * f32 * f32 :=
  weights_to_yuv (luma_weights s) (of_255 g, of_255 g, of_255 g).
Definition gray_value (s : color_space) (full : bool) (c : comp) (g : Z) : f32 :=
  let i := YuvCI TLinear PrBT709 s full in
  match c with CY => encode_y i (fst3 (gray_yuv s g)) | CU => encode_c i (snd3 (gray_yuv s g)) | _ => encode_c i (thd3 (gray_yuv s g)) end.

Definition grays : list Z := map Z.of_nat (seq 0 256).
Lemma in_grays : forall g, (0 <= g <= 255)%Z -> In g grays.
Proof. intros g G. apply in_map_iff. exists (Z.to_nat g). split; [lia|]. apply in_seq. lia. Qed.

Definition f32_eqb (a b : f32) : bool :=
  match a, b with
  | SpecFloat.S754_zero s, SpecFloat.S754_zero t => Bool.eqb s t
  | SpecFloat.S754_finite s m e, SpecFloat.S754_finite t n k => Bool.eqb s t && Pos.eqb m n && Z.eqb e k
  | _, _ => false
  end.
Lemma f32_eqb_eq : forall a b, f32_eqb a b = true -> a = b.
Proof.
  intros [s|s| |s m e] [t|t| |t n k] H; try discriminate H; cbn in H.
  - apply eqb_prop in H. subst. reflexivity.
  - apply andb_prop in H as [H H3]. apply andb_prop in H as [H1 H2]. apply eqb_prop in H1. apply Pos.eqb_eq in H2. apply Z.eqb_eq in H3. subst. reflexivity.
Qed.

(** The mean of equal grays, or of their chroma, is exact. *)
Lemma gray_mean4 : forall g, (0 <= g <= 255)%Z ->
  f32_mul (f32_add (f32_add (of_255 g) (of_255 g)) (f32_add (of_255 g) (of_255 g))) (flit 25 2) = of_255 g.
Proof.
  intros g G. apply f32_eqb_eq.
  assert (C : forallb (fun g => f32_eqb (f32_mul (f32_add (f32_add (of_255 g) (of_255 g)) (f32_add (of_255 g) (of_255 g))) (flit 25 2)) (of_255 g)) grays = true) by chk.
  rewrite forallb_forall in C. apply C, in_grays, G.
Qed.

Lemma gray_mean2 : forall s g, (s = SpBT601 \/ s = SpBT709) -> (0 <= g <= 255)%Z ->
  f32_div (f32_add (snd3 (gray_yuv s g)) (snd3 (gray_yuv s g))) (flit 2 0) = snd3 (gray_yuv s g) /\
  f32_div (f32_add (thd3 (gray_yuv s g)) (thd3 (gray_yuv s g))) (flit 2 0) = thd3 (gray_yuv s g).
Proof.
  intros s g S G.
  assert (C : forallb (fun s => forallb (fun g => let u := snd3 (gray_yuv s g) in let v := thd3 (gray_yuv s g) in
    f32_eqb (f32_div (f32_add u u) (flit 2 0)) u && f32_eqb (f32_div (f32_add v v) (flit 2 0)) v) grays) [SpBT601; SpBT709] = true) by chk.
  rewrite forallb_forall in C. specialize (C s). rewrite forallb_forall in C. specialize (C ltac:(destruct S as [-> | ->]; cbn; auto) g (in_grays g G)).
  cbv zeta in C. apply andb_prop in C as [C1 C2]. split; apply f32_eqb_eq; assumption.
Qed.

Lemma stored_gray : forall lm b m src sps dst dps i g,
  converts lm b m src sps dst dps -> sampling_of (im_format src) = SRGB -> sampling_of (im_format dst) <> SRGB ->
  im_color dst = CYUV i -> yc_space i = SpBT601 \/ yc_space i = SpBT709 ->
  same_light (im_color src) (im_color dst) = true ->
  forall c x y, has_comp (im_format dst) c = true -> in_image dst x y ->
  (0 <= g <= 255)%Z -> gray_block m src sps (sampling_of (im_format dst)) x y g ->
  stored lm b m src dst dps c x y
    = Some (quantise (quant_of (column_backend b (im_width dst) x)) (im_format dst) (gray_value (yc_space i) (yc_full_range i) c g)).
Proof.
  intros lm b m src sps dst dps i g CVT SS SD CI SP SL c x y HC HI G GB.
  assert (SK : same_image_kind src dst = false).
  { unfold same_image_kind. apply andb_false_iff; left. destruct (im_format src), (im_format dst); try reflexivity; cbn in SS, SD; congruence. }
  assert (ICT : ictcp_chroma420 (im_format dst) (im_color dst) c = false).
  { unfold ictcp_chroma420. rewrite CI. destruct (sampling_of (im_format dst)); try reflexivity. destruct SP as [-> | ->], c; reflexivity. }
  assert (CC : c = CY \/ c = CU \/ c = CV) by (unfold has_comp in HC; destruct (sampling_of (im_format dst)), c; auto; congruence).
  rewrite (stored_expected _ _ _ _ _ _ _ CVT c x y HC HI ICT). f_equal. f_equal. unfold expected_value. rewrite SK, CI. rewrite CI in SL.
  set (L := lane_of lm _).
  set (pix := fun x y => recolored L (im_color src) (CYUV i) (source_pixel L m (im_format src) (im_color src) sps x y)).
  assert (PX : forall p, In p ((x, y) :: chroma_block (sampling_of (im_format dst)) x y) -> fst (pix (fst p) (snd p)) = (of_255 g, of_255 g, of_255 g)).
  { intros p P. unfold pix, recolored. rewrite SL. unfold source_pixel. rewrite SS. cbn [fst]. unfold norm.
    pose proof (fun c H => GB c p H P) as A. unfold given in A. rewrite !A by auto.
    replace (max_level (im_format src)) with 255%Z by (destruct (im_format src); try discriminate SS; reflexivity). reflexivity. }
  pose proof (PX (x, y) ltac:(left; reflexivity)) as P0. cbn [fst snd] in P0.
  assert (RY : rgb_yuv L (yc_space i) (yc_transfer i) (yc_primaries i) (of_255 g, of_255 g, of_255 g) = gray_yuv (yc_space i) g)
    by (unfold gray_yuv; destruct SP as [-> | ->]; reflexivity).
  assert (EY : forall v, encode_y (YuvCI TLinear PrBT709 (yc_space i) (yc_full_range i)) v = encode_y i v) by reflexivity.
  assert (EC : forall v, encode_c (YuvCI TLinear PrBT709 (yc_space i) (yc_full_range i)) v = encode_c i v) by reflexivity.
  destruct (gray_mean2 (yc_space i) g SP G) as (M2U & M2V). pose proof (gray_mean4 g G) as M4.
  unfold target, gray_value. fold pix. rewrite !EY, !EC. clear EY EC GB.
  destruct (sampling_of (im_format dst)) eqn:SE; try congruence; cbv zeta.
  - assert (UP : forall p, In p (chroma_block S420 x y) -> fst (pix (fst p) (snd p)) = (of_255 g, of_255 g, of_255 g)) by (intros p P; apply PX; right; exact P).
    unfold chroma_block in UP.
    assert (E : forall a b c d, a = (of_255 g, of_255 g, of_255 g) -> b = a -> c = a -> d = a -> mean4 a b c d = a).
    { intros a1 b1 c1 d1 -> -> -> ->. unfold mean4. cbn [fst snd]. change (@fmul f32 _) with f32_mul. change (@fadd f32 _) with f32_add. rewrite M4. reflexivity. }
    assert (PP : forall a b, In (a, b) [((2 * (x / 2))%nat, (2 * (y / 2))%nat); ((2 * (x / 2))%nat, Datatypes.S (2 * (y / 2))); (Datatypes.S (2 * (x / 2)), (2 * (y / 2))%nat); (Datatypes.S (2 * (x / 2)), Datatypes.S (2 * (y / 2)))] ->
      fst (pix a b) = (of_255 g, of_255 g, of_255 g)) by (intros a1 b1 H; exact (UP (a1, b1) H)).
    assert (EM : mean4 (fst (pix (2 * (x / 2)) (2 * (y / 2)))%nat) (fst (pix (2 * (x / 2)) (2 * (y / 2) + 1))%nat)
                   (fst (pix (2 * (x / 2) + 1) (2 * (y / 2)))%nat) (fst (pix (2 * (x / 2) + 1) (2 * (y / 2) + 1))%nat) = (of_255 g, of_255 g, of_255 g)).
    { rewrite !Nat.add_1_r.
      pose proof (PP (2 * (x / 2)) (2 * (y / 2)) ltac:(cbn [In]; auto 8))%nat as Q1. pose proof (PP (2 * (x / 2)) (Datatypes.S (2 * (y / 2))) ltac:(cbn [In]; auto 8))%nat as Q2.
      pose proof (PP (Datatypes.S (2 * (x / 2))) (2 * (y / 2)) ltac:(cbn [In]; auto 8))%nat as Q3. pose proof (PP (Datatypes.S (2 * (x / 2))) (Datatypes.S (2 * (y / 2))) ltac:(cbn [In]; auto 8))%nat as Q4.
      rewrite Q1, Q2, Q3, Q4. apply E; reflexivity. }
    destruct CC as [-> |[-> | ->]]; [rewrite P0, RY; reflexivity|rewrite EM, RY; reflexivity|rewrite EM, RY; reflexivity].
  - assert (UP : forall p, In p (chroma_block S422 x y) -> fst (pix (fst p) (snd p)) = (of_255 g, of_255 g, of_255 g)) by (intros p P; apply PX; right; exact P).
    unfold chroma_block in UP.
    pose proof (UP ((2 * (x / 2))%nat, y) ltac:(cbn [In]; auto)) as P1. pose proof (UP (Datatypes.S (2 * (x / 2)), y) ltac:(cbn [In]; auto)) as P2.
    cbn [fst snd] in P1, P2. rewrite <- Nat.add_1_r in P2.
    destruct CC as [-> |[-> | ->]]; [rewrite P0, RY; reflexivity|rewrite P1, P2, RY|rewrite P1, P2, RY].
    + change (@fdiv f32 _) with f32_div. change (@fadd f32 _) with f32_add. rewrite M2U. reflexivity.
    + change (@fdiv f32 _) with f32_div. change (@fadd f32 _) with f32_add. rewrite M2V. reflexivity.
  - destruct CC as [-> |[-> | ->]]; rewrite P0, RY; reflexivity.
Qed.

Ltac all_grays :=
  match goal with
  | C : forallb _ grays = true, G : (0 <= ?g <= 255)%Z |- _ => rewrite forallb_forall in C; specialize (C g (in_grays g G)); cbv beta in C
  end.

(** What a conversion of gray has in common *)
Definition gray_conversion (lm : libm) (b : backend) (m : mem) (src : image) (sps : list (slice * nat)) (dst : image) (dps : list (slice * nat))
    (i : yuv_color_info) (bits : Z) : Prop :=
  converts lm b m src sps dst dps /\ sampling_of (im_format src) = SRGB /\ sampling_of (im_format dst) <> SRGB /\
  im_color dst = CYUV i /\ (yc_space i = SpBT601 \/ yc_space i = SpBT709) /\
  same_light (im_color src) (im_color dst) = true /\ max_level (im_format dst) = (2 ^ bits - 1)%Z.

(** Black and white, 8 bits per sample: 0 and 255, or 16 and 235, on every back
    end; neutral chroma is 128 or, with truncation, 127. *)
Theorem C29_black_white : forall lm b m src sps dst dps i, gray_conversion lm b m src sps dst dps i 8 ->
  forall x y, in_image dst x y ->
  let block := gray_block m src sps (sampling_of (im_format dst)) x y in
  let luma := stored lm b m src dst dps CY x y in
  (block 0%Z -> luma = Some (if yc_full_range i then 0 else 16)%Z) /\
  (block 255%Z -> luma = Some (if yc_full_range i then 255 else 235)%Z).
Proof.
  intros lm b m src sps dst dps i (CVT & SS & SD & CI & SP & SL & ML) x y HI block luma.
  assert (HC : has_comp (im_format dst) CY = true) by (unfold has_comp; destruct (sampling_of (im_format dst)); congruence).
  unfold luma, block. pose proof (fun g GB G => stored_gray lm b m src sps dst dps i g CVT SS SD CI SP SL CY x y HC HI G GB) as ST.
  split; intros GB; rewrite (ST _ GB) by lia; clear ST GB; f_equal;
    destruct (column_backend b (im_width dst) x), (im_format dst); try discriminate ML; try (cbn in SD; congruence);
    destruct SP as [-> | ->], (yc_full_range i); chk.
Qed.
Print Assumptions C29_black_white.

(** The gray ramp, 8 bits, full range: luma is the gray level where stores round
    (AVX2, AVX-512); where they truncate it may be one less. *)
Theorem C29_ramp_full : forall lm b m src sps dst dps i, gray_conversion lm b m src sps dst dps i 8 -> yc_full_range i = true ->
  forall x y g, in_image dst x y -> (0 <= g <= 255)%Z -> gray_block m src sps (sampling_of (im_format dst)) x y g ->
  exists z, stored lm b m src dst dps CY x y = Some z /\
    (rounds (column_backend b (im_width dst) x) = true -> z = g) /\ (g - 1 <= z <= g)%Z.
Proof.
  intros lm b m src sps dst dps i (CVT & SS & SD & CI & SP & SL & ML) FU x y g HI G GB.
  assert (HC : has_comp (im_format dst) CY = true) by (unfold has_comp; destruct (sampling_of (im_format dst)); congruence).
  rewrite (stored_gray lm b m src sps dst dps i _ CVT SS SD CI SP SL CY x y HC HI G GB), FU. eexists; split; [reflexivity|].
  set (cb := column_backend b (im_width dst) x). clearbody cb.
  assert (AG : approx (of_255 g) (IZR g / 255) u7) by (apply acc_norm; lia).
  assert (G' : 0 <= IZR g / 255 <= 1) by (assert (0 <= IZR g <= 255) by (split; apply IZR_le; lia); lra).
  assert (WK : exists k, weights_known (yc_space i) k /\ (k = bt601 \/ k = bt709)) by (destruct SP as [E | E]; rewrite E; unfold weights_known; eauto 6).
  destruct WK as (k & WK & KK). destruct (acc_yuv _ _ _ _ _ _ _ _ u7 WK AG AG AG) as (AY & _ & _); try (apply abs_bound; lra); try (unfold u7; lra).
  assert (NY : luma k (IZR g / 255) (IZR g / 255) (IZR g / 255) = IZR g / 255) by (destruct KK as [-> | ->]; unfold_k; lra). rewrite NY in AY.
  assert (AC : approx (gray_value (yc_space i) true CY g) (y_level true 1 (IZR g / 255)) (1 / 100000)).
  { unfold gray_value. eapply approx_le; [eapply (acc_encode_y (YuvCI TLinear PrBT709 (yc_space i) true)); [eassumption|apply abs_bound; lra|unfold u7; lra]|unfold u7; lra]. }
  change (2 ^ 8 - 1)%Z with 255%Z in ML.
  assert (TOP : top (im_format dst) = 255%Z) by (destruct (im_format dst); try discriminate ML; reflexivity).
  destruct (acc_store cb (im_format dst) _ _ _ AC) as (ST & _).
  { unfold y_level. apply abs_bound; lra. }
  { lra. }
  { right; right. rewrite TOP, ML. unfold y_level. lra. }
  rewrite TOP, ML, clamp_id in ST by (unfold y_level; lra).
  set (z := quantise _ _ _) in *. clearbody z.
  unfold y_level, u7 in ST. destruct cb; cbn [stored_for rounds] in ST |- *; unfold truncated, rounded in ST; try (apply Rabs_le_inv in ST).
  all: assert (g - 2 < z < g + 1)%Z by (split; apply lt_IZR; rewrite ?plus_IZR, ?minus_IZR; lra).
  all: split; [intros; try discriminate|lia].
  all: assert (g - 1 < z)%Z by (apply lt_IZR; rewrite ?minus_IZR; lra); lia.
Qed.
Print Assumptions C29_ramp_full.

(** Chroma of gray, 8 bits: 127 or 128; exactly 128 in limited range where
    stores round, exactly 127 in full range where they truncate (127.5 is
    neutral). *)
Theorem C29_chroma : forall lm b m src sps dst dps i, gray_conversion lm b m src sps dst dps i 8 ->
  forall c x y g, c = CU \/ c = CV -> in_image dst x y -> (0 <= g <= 255)%Z -> gray_block m src sps (sampling_of (im_format dst)) x y g ->
  exists z, stored lm b m src dst dps c x y = Some z /\
    (z = 127 \/ z = 128)%Z /\
    (rounds (column_backend b (im_width dst) x) = true -> yc_full_range i = false -> z = 128%Z) /\
    (rounds (column_backend b (im_width dst) x) = false -> yc_full_range i = true -> z = 127%Z).
Proof.
  intros lm b m src sps dst dps i (CVT & SS & SD & CI & SP & SL & ML) c x y g CC HI G GB.
  assert (HC : has_comp (im_format dst) c = true) by (unfold has_comp; destruct CC as [-> | ->], (sampling_of (im_format dst)); congruence).
  rewrite (stored_gray lm b m src sps dst dps i _ CVT SS SD CI SP SL c x y HC HI G GB). eexists; split; [reflexivity|].
  set (cb := column_backend b (im_width dst) x). clearbody cb.
  assert (AG : approx (of_255 g) (IZR g / 255) u7) by (apply acc_norm; lia).
  assert (G' : 0 <= IZR g / 255 <= 1) by (assert (0 <= IZR g <= 255) by (split; apply IZR_le; lia); lra).
  assert (WK : exists k, weights_known (yc_space i) k /\ (k = bt601 \/ k = bt709)) by (destruct SP as [E | E]; rewrite E; unfold weights_known; eauto 6).
  destruct WK as (k & WK & KK). destruct (acc_yuv _ _ _ _ _ _ _ _ u7 WK AG AG AG) as (_ & AU & AV); try (apply abs_bound; lra); try (unfold u7; lra).
  set (w := IZR g / 255) in *.
  assert (NC : SpecReal.cb k w w w = 0 /\ SpecReal.cr k w w w = 0) by (destruct KK as [-> | ->]; unfold_k; split; field).
  destruct NC as (NU & NV). rewrite NU in AU. rewrite NV in AV.
  assert (AC : approx (gray_value (yc_space i) (yc_full_range i) c g) (c_level (yc_full_range i) 1 0) (1 / 100000)).
  { unfold gray_value. destruct CC as [-> | ->]; (eapply approx_le; [eapply (acc_encode_c (YuvCI TLinear PrBT709 (yc_space i) (yc_full_range i)));
      [eassumption|apply abs_bound; lra|unfold u7; lra]|unfold u7; lra]). }
  change (2 ^ 8 - 1)%Z with 255%Z in ML.
  assert (TOP : top (im_format dst) = 255%Z) by (destruct (im_format dst); try discriminate ML; reflexivity).
  destruct (acc_store cb (im_format dst) _ _ _ AC) as (ST & _).
  { unfold c_level. destruct (yc_full_range i); apply abs_bound; lra. }
  { lra. }
  { right; right. rewrite TOP, ML. unfold c_level. destruct (yc_full_range i); lra. }
  rewrite TOP, ML, clamp_id in ST by (unfold c_level; destruct (yc_full_range i); lra).
  set (z := quantise _ _ _) in *. clearbody z.
  assert (B : (127 <= z <= 128)%Z /\ (rounds cb = true -> yc_full_range i = false -> z = 128%Z) /\ (rounds cb = false -> yc_full_range i = true -> z = 127%Z)).
  { unfold c_level, u7 in ST. destruct cb; cbn [stored_for rounds] in ST |- *; unfold truncated, rounded in ST; destruct (yc_full_range i).
    all: try (apply Rabs_le_inv in ST).
    all: assert (126 < z < 129)%Z by (split; apply lt_IZR; lra).
    all: split; [lia|split; intros; try discriminate].
    all: first [assert (127 < z)%Z by (apply lt_IZR; lra)|assert (z < 128)%Z by (apply lt_IZR; lra)]; lia. }
  destruct B as (B1 & B2 & B3). split; [lia|]. split; assumption.
Qed.
Print Assumptions C29_chroma.

(** 10 and 12 bits in limited range: black is 64 and 256 or 257, as the standards
    say (64, 256); white is 942 or 943 and 3773 or 3774, not the 940 and 3760 of
    the standards. *)
Theorem C29_deep_white : forall lm b m src sps dst dps i bits, (bits = 10 \/ bits = 12)%Z ->
  gray_conversion lm b m src sps dst dps i bits -> yc_full_range i = false ->
  forall x y, in_image dst x y ->
  let block := gray_block m src sps (sampling_of (im_format dst)) x y in
  let luma := stored lm b m src dst dps CY x y in
  let up := if rounds (column_backend b (im_width dst) x) then 1%Z else 0%Z in
  (block 0%Z -> luma = Some (if bits =? 10 then 64 else 256 + up)%Z) /\
  (block 255%Z -> luma = Some (if bits =? 10 then 942 + up else 3773 + up)%Z).
Proof.
  intros lm b m src sps dst dps i bits BT (CVT & SS & SD & CI & SP & SL & ML) FU x y HI block luma up.
  assert (HC : has_comp (im_format dst) CY = true) by (unfold has_comp; destruct (sampling_of (im_format dst)); congruence).
  unfold luma, block, up. pose proof (fun g GB G => stored_gray lm b m src sps dst dps i g CVT SS SD CI SP SL CY x y HC HI G GB) as ST.
  split; intros GB; rewrite (ST _ GB) by lia; clear ST GB; rewrite FU; f_equal;
    destruct BT as [-> | ->]; destruct (column_backend b (im_width dst) x), (im_format dst); try discriminate ML; try (cbn in SD; congruence);
    destruct SP as [-> | ->]; chk.
Qed.
Print Assumptions C29_deep_white.

(** Full range: 0 and 1023, 0 and 4095. *)
Theorem C29_deep_full : forall lm b m src sps dst dps i bits, (bits = 10 \/ bits = 12)%Z ->
  gray_conversion lm b m src sps dst dps i bits -> yc_full_range i = true ->
  forall x y, in_image dst x y ->
  let block := gray_block m src sps (sampling_of (im_format dst)) x y in
  let luma := stored lm b m src dst dps CY x y in
  (block 0%Z -> luma = Some 0%Z) /\ (block 255%Z -> luma = Some (2 ^ bits - 1)%Z).
Proof.
  intros lm b m src sps dst dps i bits BT (CVT & SS & SD & CI & SP & SL & ML) FU x y HI block luma.
  assert (HC : has_comp (im_format dst) CY = true) by (unfold has_comp; destruct (sampling_of (im_format dst)); congruence).
  unfold luma, block. pose proof (fun g GB G => stored_gray lm b m src sps dst dps i g CVT SS SD CI SP SL CY x y HC HI G GB) as ST.
  split; intros GB; rewrite (ST _ GB) by lia; clear ST GB; rewrite FU; f_equal;
    destruct BT as [-> | ->]; destruct (column_backend b (im_width dst) x), (im_format dst); try discriminate ML; try (cbn in SD; congruence);
    destruct SP as [-> | ->]; chk.
Qed.
Print Assumptions C29_deep_full.

(** Concrete conversions: a gray 4x2 RGB image to I420 in full range and to I010
    in limited range, BT.709 *)
Definition gray_mem (g : Z) : mem := fun _ _ => g.
Definition gray_i010_planes : list (slice * nat) := [(Slice 1 0 20, 10); (Slice 1 20 4, 4); (Slice 1 24 4, 4)]%nat.
Definition gray_i010 : image := ex_image I010 4%nat 2%nat (CYUV (YuvCI TLinear PrBT709 SpBT709 false)) gray_i010_planes.

Example C29_example : forall b g, (0 <= g <= 255)%Z ->
  gray_conversion ex_lm b (gray_mem g) ex_src ex_src_planes ex_dst ex_dst_planes (YuvCI TLinear PrBT709 SpBT709 true) 8 /\
  forall x y, in_image ex_dst x y -> gray_block (gray_mem g) ex_src ex_src_planes S420 x y g.
Proof.
  intros b g G. split.
  - destruct (C48_example b) as ((A1 & A2 & A3 & A4 & A5) & B & C & D & E & F & _).
    split; [|split; [exact C|split; [exact D|split; [exact E|split; [right; reflexivity|split; [exact F|reflexivity]]]]]].
    split; [exact A1|split; [exact A2|split; [exact A3|split; [exact A4|]]]].
    rewrite <- A5. destruct b; vm_compute; reflexivity.
  - intros x y _ c p [-> | [-> | ->]] _; reflexivity.
Qed.

(** A program that keeps every gray level, has neutral chroma at 128 and white at
    940 in 10 bits is not what the code is: gray 53 is stored as 52 by the scalar
    back end, the chroma of white as 127, and 10-bit white as 942. *)
Theorem C29_refuted :
  gray_conversion ex_lm Scalar (gray_mem 53) ex_src ex_src_planes ex_dst ex_dst_planes (YuvCI TLinear PrBT709 SpBT709 true) 8 /\
  stored ex_lm Scalar (gray_mem 53) ex_src ex_dst ex_dst_planes CY 0 0 = Some 52%Z /\
  stored ex_lm AVX2 (gray_mem 53) ex_src ex_dst ex_dst_planes CY 0 0 = Some 52%Z /\
  stored ex_lm Scalar (gray_mem 255) ex_src ex_dst ex_dst_planes CU 0 0 = Some 127%Z /\
  snd (convert ex_lm Scalar (gray_mem 255) ex_src gray_i010) = Ok tt /\
  stored ex_lm Scalar (gray_mem 255) ex_src gray_i010 gray_i010_planes CY 0 0 = Some 942%Z /\
  stored ex_lm Scalar (gray_mem 255) ex_src gray_i010 gray_i010_planes CU 0 0 = Some 513%Z.
Proof.
  split; [apply C29_example; lia|]. repeat split; vm_compute; reflexivity.
Qed.
Print Assumptions C29_refuted.
