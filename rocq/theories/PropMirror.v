(** C88: mirrored and upside-down pictures. *)

From Coq Require Import List ZArith Bool Arith Lia SpecFloat.
From Verif Require Import Base Types Planes ImageM F32 Vector Simd Formats Visit Convert
  SpecGeom SpecVector SpecColor SpecConvert SpecRun GeomProofs SimdProofs ColorProofs VisitProofs ConvertProofs ExecProofs PropConvert PropFidelity PropLayout.
Import ListNotations.

(** * Specification *)

(** The position of a column or row in the mirrored picture, if it is mirrored in this direction *)
Definition mirrored (on : bool) (size x : nat) : nat := if on then size - 1 - x else x.

(** The second picture is the first one, left and right exchanged ([h]), upside down ([v]), or both *)
Definition mirror_image (h v : bool) (m1 : mem) (im1 : image) (ps1 : list (slice * nat)) (m2 : mem) (im2 : image) (ps2 : list (slice * nat)) : Prop :=
  im_format im1 = im_format im2 /\ im_color im1 = im_color im2 /\ im_width im1 = im_width im2 /\ im_height im1 = im_height im2 /\
  forall c x y, in_image im2 x y -> given m2 im2 ps2 c x y = given m1 im1 ps1 c (mirrored h (im_width im1) x) (mirrored v (im_height im1) y).

(** * Proof *)

Lemma sf_add_comm : forall prec emax a b, SFadd prec emax a b = SFadd prec emax b a.
Proof.
  intros prec emax [sa|sa| |sa ma ea] [sb|sb| |sb mb eb]; cbn; try reflexivity; try (destruct sa, sb; reflexivity).
  rewrite (Z.min_comm eb ea). f_equal. apply Z.add_comm.
Qed.

Lemma fadd_comm : forall a b : f32, fadd a b = fadd b a.
Proof. intros a b. apply sf_add_comm. Qed.

Lemma mean4_columns : forall a b c d, mean4 a b c d = mean4 c d a b.
Proof. intros a b c d. unfold mean4. cbv beta zeta. f_equal; [f_equal|]; apply (f_equal (fun s : f32 => fmul s (flit 25 2))), fadd_comm. Qed.

Lemma mean4_rows : forall a b c d, mean4 a b c d = mean4 b a d c.
Proof.
  intros a b c d. unfold mean4. cbv beta zeta.
  f_equal; [f_equal|]; apply (f_equal (fun s : f32 => fmul s (flit 25 2))), (f_equal2 (fun s t : f32 => fadd s t)); apply fadd_comm.
Qed.

Lemma mirrored_block : forall on w x, w mod 2 = 0 -> x < w ->
  let x0 := 2 * (x / 2) in let x0' := 2 * (mirrored on w x / 2) in
  mirrored on w x < w /\ x0 + 1 < w /\
  if on then mirrored on w x0 = x0' + 1 /\ mirrored on w (x0 + 1) = x0' else mirrored on w x0 = x0' /\ mirrored on w (x0 + 1) = x0' + 1.
Proof.
  intros on w x E H x0 x0'. pose proof (Nat.div_mod w 2 ltac:(lia)) as D. rewrite E in D.
  pose proof (Nat.div_mod x 2 ltac:(lia)) as Dx. pose proof (Nat.mod_upper_bound x 2 ltac:(lia)) as Mx.
  unfold x0, x0', mirrored. destruct on; [|lia].
  pose proof (Nat.div_mod (w - 1 - x) 2 ltac:(lia)) as Dy. pose proof (Nat.mod_upper_bound (w - 1 - x) 2 ltac:(lia)) as My. lia.
Qed.

Lemma target_mirrored : forall L f color pix1 pix2 h v W H c x y, W mod 2 = 0 -> H mod 2 = 0 -> x < W -> y < H ->
  (forall x y, x < W -> y < H -> pix2 x y = pix1 (mirrored h W x) (mirrored v H y)) ->
  target L f color pix2 c x y = target L f color pix1 c (mirrored h W x) (mirrored v H y).
Proof.
  intros L f color pix1 pix2 h v W H c x y EW EH HX HY P. unfold target.
  destruct (mirrored_block h W x EW HX) as (BX & IX & X). destruct (mirrored_block v H y EH HY) as (BY & IY & Y).
  destruct (sampling_of f).
  - destruct color as [|i]; [reflexivity|]. cbv zeta. rewrite !P by lia.
    assert (M : mean4 (fst (pix1 (mirrored h W (2 * (x / 2))) (mirrored v H (2 * (y / 2))))) (fst (pix1 (mirrored h W (2 * (x / 2))) (mirrored v H (2 * (y / 2) + 1))))
                      (fst (pix1 (mirrored h W (2 * (x / 2) + 1)) (mirrored v H (2 * (y / 2))))) (fst (pix1 (mirrored h W (2 * (x / 2) + 1)) (mirrored v H (2 * (y / 2) + 1))))
              = let x0 := 2 * (mirrored h W x / 2) in let y0 := 2 * (mirrored v H y / 2) in
                mean4 (fst (pix1 x0 y0)) (fst (pix1 x0 (y0 + 1))) (fst (pix1 (x0 + 1) y0)) (fst (pix1 (x0 + 1) (y0 + 1)))).
    { cbv zeta. destruct h, v; destruct X as (-> & ->); destruct Y as (-> & ->).
      - rewrite mean4_columns. apply mean4_rows.
      - apply mean4_columns.
      - apply mean4_rows.
      - reflexivity. }
    rewrite M. reflexivity.
  - destruct color as [|i]; [reflexivity|]. cbv zeta. rewrite !P by lia.
    destruct h; destruct X as (-> & ->); [|reflexivity].
    destruct c; try reflexivity; apply (f_equal (encode_c i)), (f_equal (fun s : f32 => fdiv s (flit 2 0))), fadd_comm.
  - destruct color as [|i]; [reflexivity|]. rewrite !(P x y HX HY). reflexivity.
  - rewrite !(P x y HX HY). reflexivity.
Qed.

(** * C88 *)

(** Converting the mirrored picture gives the mirror image of the converted picture *)
Theorem C88_mirror_partial : forall lm b h v m1 src1 sps1 dst1 dps1 m2 src2 sps2 dst2 dps2,
  converts lm b m1 src1 sps1 dst1 dps1 -> converts lm b m2 src2 sps2 dst2 dps2 ->
  mirror_image h v m1 src1 sps1 m2 src2 sps2 -> im_format dst1 = im_format dst2 -> im_color dst1 = im_color dst2 ->
  forall c x y, has_comp (im_format dst2) c = true -> in_image dst2 x y ->
  ictcp_chroma420 (im_format dst2) (im_color dst2) c = false ->                                    (* missing: see C88_ictcp_refuted *)
  column_backend b (im_width dst1) (mirrored h (im_width dst1) x) = column_backend b (im_width dst1) x -> (* missing: see C88_tail_refuted *)
  stored lm b m2 src2 dst2 dps2 c x y = stored lm b m1 src1 dst1 dps1 c (mirrored h (im_width dst1) x) (mirrored v (im_height dst1) y).
Proof.
  intros lm b h v m1 src1 sps1 dst1 dps1 m2 src2 sps2 dst2 dps2 C1 C2 (EF & EC & EW & EH & G) DF DC c x y HC (HX & HY) NI CB.
  assert (T1 := converts_convertible _ _ _ _ _ _ _ C1). assert (T2 := converts_convertible _ _ _ _ _ _ _ C2).
  pose proof (cv_width _ _ _ _ T1) as W1. pose proof (cv_height _ _ _ _ T1) as H1. pose proof (cv_width _ _ _ _ T2) as W2. pose proof (cv_height _ _ _ _ T2) as H2.
  pose proof (cv_even_w _ _ _ _ T1) as E1. pose proof (cv_even_h _ _ _ _ T1) as E2.
  assert (DW : im_width dst2 = im_width dst1) by congruence. assert (DH : im_height dst2 = im_height dst1) by congruence.
  rewrite DW in HX. rewrite DH in HY.
  assert (IN : in_image dst1 (mirrored h (im_width dst1) x) (mirrored v (im_height dst1) y))
    by (split; [apply (mirrored_block h _ x E1 HX)|apply (mirrored_block v _ y E2 HY)]).
  rewrite (stored_expected lm b m2 src2 sps2 dst2 dps2 C2 c x y HC) by (try (split; lia); exact NI).
  rewrite (stored_expected lm b m1 src1 sps1 dst1 dps1 C1 c _ _) by (try exact IN; rewrite DF, ?DC; assumption).
  rewrite CB, DW, DF. f_equal. f_equal. set (L := lane_of lm _).
  assert (N : forall c x y, x < im_width dst1 -> y < im_height dst1 ->
    norm m2 (im_format src2) sps2 c x y = norm m1 (im_format src1) sps1 c (mirrored h (im_width dst1) x) (mirrored v (im_height dst1) y)).
  { intros k u w U V. unfold norm. pose proof (G k u w) as GG. unfold given in GG. rewrite EF in *.
    rewrite GG by (split; lia). rewrite W1, H1. reflexivity. }
  unfold expected_value. assert (SK : same_image_kind src2 dst2 = same_image_kind src1 dst1) by (unfold same_image_kind; rewrite EF, EC, DF, DC; reflexivity).
  rewrite SK. destruct (same_image_kind src1 dst1); [apply N; assumption|].
  rewrite DF, <- DC. apply target_mirrored; try assumption. intros u w U V. rewrite EC. f_equal.
  unfold source_pixel. rewrite EF in *. rewrite !N by assumption. reflexivity.
Qed.
Print Assumptions C88_mirror_partial.

(** Upside down needs no condition on columns *)
Theorem C88_upside_down_partial : forall lm b m1 src1 sps1 dst1 dps1 m2 src2 sps2 dst2 dps2,
  converts lm b m1 src1 sps1 dst1 dps1 -> converts lm b m2 src2 sps2 dst2 dps2 ->
  mirror_image false true m1 src1 sps1 m2 src2 sps2 -> im_format dst1 = im_format dst2 -> im_color dst1 = im_color dst2 ->
  forall c x y, has_comp (im_format dst2) c = true -> in_image dst2 x y ->
  ictcp_chroma420 (im_format dst2) (im_color dst2) c = false ->                                    (* missing: see C88_ictcp_refuted *)
  stored lm b m2 src2 dst2 dps2 c x y = stored lm b m1 src1 dst1 dps1 c x (im_height dst1 - 1 - y).
Proof.
  intros lm b m1 src1 sps1 dst1 dps1 m2 src2 sps2 dst2 dps2 C1 C2 M DF DC c x y HC HI NI.
  exact (C88_mirror_partial lm b false true m1 src1 sps1 dst1 dps1 m2 src2 sps2 dst2 dps2 C1 C2 M DF DC c x y HC HI NI eq_refl).
Qed.
Print Assumptions C88_upside_down_partial.

(** Left and right exchanged: on CPUs without SIMD, and in pictures whose width is a
    multiple of two vectors *)
Theorem C88_left_right_partial : forall lm b m1 src1 sps1 dst1 dps1 m2 src2 sps2 dst2 dps2,
  converts lm b m1 src1 sps1 dst1 dps1 -> converts lm b m2 src2 sps2 dst2 dps2 ->
  mirror_image true false m1 src1 sps1 m2 src2 sps2 -> im_format dst1 = im_format dst2 -> im_color dst1 = im_color dst2 ->
  b = Scalar \/ im_width dst1 mod (lanes b * 2) = 0 ->                                              (* missing: see C88_tail_refuted *)
  forall c x y, has_comp (im_format dst2) c = true -> in_image dst2 x y ->
  ictcp_chroma420 (im_format dst2) (im_color dst2) c = false ->                                    (* missing: see C88_ictcp_refuted *)
  stored lm b m2 src2 dst2 dps2 c x y = stored lm b m1 src1 dst1 dps1 c (im_width dst1 - 1 - x) y.
Proof.
  intros lm b m1 src1 sps1 dst1 dps1 m2 src2 sps2 dst2 dps2 C1 C2 M DF DC A c x y HC HI NI.
  apply (C88_mirror_partial lm b true false m1 src1 sps1 dst1 dps1 m2 src2 sps2 dst2 dps2 C1 C2 M DF DC c x y HC HI NI).
  assert (DW : im_width dst2 = im_width dst1).
  { destruct M as (_ & _ & EW & _). pose proof (cv_width _ _ _ _ (converts_convertible _ _ _ _ _ _ _ C1)). pose proof (cv_width _ _ _ _ (converts_convertible _ _ _ _ _ _ _ C2)). congruence. }
  destruct HI as (HX & _). rewrite DW in HX. unfold column_backend, vector_columns. destruct A as [-> |A].
  - destruct (_ <? _), (_ <? _); reflexivity.
  - rewrite A, Nat.sub_0_r. cbn [mirrored]. destruct (Nat.ltb_spec (im_width dst1 - 1 - x) (im_width dst1)), (Nat.ltb_spec x (im_width dst1)); try reflexivity; lia.
Qed.
Print Assumptions C88_left_right_partial.

(** The picture of [ex_rgb22] in buffer 0, turned by half a turn in buffer 2 *)
Definition turned_mem : mem := fun b i =>
  match b with 2 => ex_mem 0 (7 * (1 - i / 7) + 3 * (1 - i mod 7 / 3) + i mod 7 mod 3) | _ => ex_mem b i end.
Definition turned_planes : list (slice * nat) := [(Slice 2 0 14, 7)].
Definition turned : image := ex_image RGB 2 2 ex_rgb turned_planes.

Example C88_example : forall b,
  converts ex_lm b turned_mem ex_rgb22 ex_rgb_planes (ex_i420 3 ex_yuv) (ex_yuv_planes 3) /\
  converts ex_lm b turned_mem turned turned_planes (ex_i420 4 ex_yuv) (ex_yuv_planes 4) /\
  mirror_image true true turned_mem ex_rgb22 ex_rgb_planes turned_mem turned turned_planes /\
  given turned_mem ex_rgb22 ex_rgb_planes CR 0 0 <> given turned_mem turned turned_planes CR 0 0 /\
  stored ex_lm b turned_mem ex_rgb22 (ex_i420 3 ex_yuv) (ex_yuv_planes 3) CY 1 1 = stored ex_lm b turned_mem turned (ex_i420 4 ex_yuv) (ex_yuv_planes 4) CY 0 0 /\
  stored ex_lm b turned_mem ex_rgb22 (ex_i420 3 ex_yuv) (ex_yuv_planes 3) CY 0 0 <> stored ex_lm b turned_mem turned (ex_i420 4 ex_yuv) (ex_yuv_planes 4) CY 0 0.
Proof.
  intros b. split; [ex_converts b|]. split; [ex_converts b|]. split.
  { repeat (split; [reflexivity|]). intros c x y (X & Y). cbn in X, Y. destruct x as [|[|x]], y as [|[|y]]; try lia; destruct c; reflexivity. }
  destruct b; vm_compute; (split; [discriminate|split; [reflexivity|discriminate]]).
Qed.

(** The chroma of 4:2:0 ICtCp is that of the upper row (C19), so turning a picture
    upside down changes it: black above red has neutral chroma, red above black has not. *)
Definition upside_mem : mem := fun b i => nth i (nth b [[20; 0; 0; 20; 0; 0; 0; 0; 0; 0; 0; 0]%Z] []) 0%Z.
Theorem C88_ictcp_refuted : forall b,
  converts ex_lm b red_mem red_src red_planes red_dst (ex_yuv_planes 1) /\ converts ex_lm b upside_mem red_src red_planes red_dst (ex_yuv_planes 1) /\
  mirror_image false true red_mem red_src red_planes upside_mem red_src red_planes /\
  stored ex_lm b upside_mem red_src red_dst (ex_yuv_planes 1) SpecGeom.CV 0 0 <> stored ex_lm b red_mem red_src red_dst (ex_yuv_planes 1) SpecGeom.CV 0 1.
Proof.
  intros b. split; [ex_converts b|]. split; [ex_converts b|]. split.
  { repeat (split; [reflexivity|]). intros c x y (X & Y). cbn in X, Y. destruct x as [|[|x]], y as [|[|y]]; try lia; destruct c; reflexivity. }
  destruct b; vm_compute; discriminate.
Qed.
Print Assumptions C88_ictcp_refuted.

(** A flat gray picture of 18 columns is its own mirror image; with AVX2 its first
    columns have another chroma than its last ones (C24). *)
Theorem C88_tail_refuted :
  let src := gray_src 18 in let sps := [(Slice 0 0 108, 54)] in let dst := gray_dst 18 in let dps := gray_planes 18 in
  converts ex_lm AVX2 gray_mem src sps dst dps /\ mirror_image true false gray_mem src sps gray_mem src sps /\
  stored ex_lm AVX2 gray_mem src dst dps CU 0 0 <> stored ex_lm AVX2 gray_mem src dst dps CU 17 0.
Proof.
  cbv zeta. destruct C24_refuted as ((C & _) & _). split; [exact C|]. split.
  - repeat (split; [reflexivity|]). intros c x y (X & Y). cbn in X, Y. unfold given.
    do 18 (destruct x as [|x]; [destruct y as [|[|y]]; try lia; destruct c; reflexivity|]). lia.
  - vm_compute. discriminate.
Qed.
Print Assumptions C88_tail_refuted.
