(** C81: what is stored for YUV colors above 1 with the PQ curve. *)

From Coq Require Import List ZArith Bool Arith Reals Lia Lra Psatz.
From Coq Require Import Floats.SpecFloat.
From Flocq Require Import Core.
From Verif Require Import Base Types Planes ImageM F32 Vector Simd SpecVector SimdProofs QuantProofs SpecGeom GeomProofs
  SpecColor SpecConvert SpecRun Formats Visit Convert VisitProofs ColorProofs ConvertProofs ExactProofs PropConvert PropFidelity
  SpecReal FloatProofs AccProofs TargetProofs PropColor ColorR SpecTransfer PowerProofs MathProofs SpecMath LaneProofs TransferProofs
  Math NegProofs RecolorProofs PropRecolor GamutProofs PropGamut GrayProofs PropGray PropDrift PropBT2020 PropOut.
Import ListNotations.
Local Open Scope R_scope.

(** 32 x 2 pixels of one color in limited range with the PQ curve: luma 235, V 128 *)
Definition super_mem (u : Z) : mem := fun b i => if i <? 64 then 235%Z else if i <? 128 then u else 128%Z.
Definition super_info : yuv_color_info := YuvCI TBT2100PQ PrBT709 SpBT709 false.
Definition super : image := ex_image I444 32 2 (CYUV super_info) cyan_planes.
Definition super_dst : image := ex_image RGB 32 2 (CRGB TSRGB PrBT709) cyan_dst_planes.

Lemma super_converts : forall sp sl b u, b = AVX2 \/ b = AVX512 \/ b = NEON ->
  converts (libm_of sp sl) b (super_mem u) super cyan_planes super_dst cyan_dst_planes.
Proof.
  intros sp sl b u HB. split; [|split; [|split; [|split]]]; try (split; [reflexivity|split; [repeat constructor; cbn; unfold usize; cbn; lia|reflexivity]]).
  - apply single_disjoint.
  - intros _ p q a c P Q. destruct p as [|[|[|p]]], q as [|[|[|q]]]; try lia; cbn; intros E1 E2; injection E1 as <-; injection E2 as <-; reflexivity.
  - destruct HB as [-> |[-> | ->]]; vm_compute; reflexivity.
Qed.

Ltac super_colors := unfold read_at, y_at, u_at, v_at, level;
  repeat match goal with |- context [component ?m ?f ?p ?c ?x ?y] => let v := eval vm_compute in (component m f p c x y) in change (component m f p c x y) with v end;
  cbn [im_format super ex_image yc_full_range yc_space super_info read_green];
  unfold green, red, blue, level_y, level_c, w_g, bt709; cbn [w_r w_b]; change (IZR (max_level I444)) with 255; lra.

(** More blue, no blue: raising U from 150 to 160 raises the PQ code of blue from
    1.18 to 1.27, and the sample that AVX2 and AVX-512 store falls from 255 to 0
    (NEON: 255).  All of these samples are in the nominal range of 16 .. 235 (240). *)
Theorem C81_above_one_refuted : forall sp sl,
  (forall b u, b = AVX2 \/ b = AVX512 \/ b = NEON -> converts (libm_of sp sl) b (super_mem u) super cyan_planes super_dst cyan_dst_planes) /\
  (let s c := read_at bt709 (super_mem 150) super cyan_planes super_info c 0 0 in s CR = 1 /\ 98 / 100 < s CG < 1 /\ 118 / 100 < s CB < 119 / 100) /\
  (let s c := read_at bt709 (super_mem 160) super cyan_planes super_info c 0 0 in s CR = 1 /\ 97 / 100 < s CG < 1 /\ 126 / 100 < s CB < 127 / 100) /\
  (forall b, b = AVX2 \/ b = AVX512 ->
    map (fun c => stored (libm_of sp sl) b (super_mem 150) super super_dst cyan_dst_planes c 0 0) comps = [Some 255; Some 255; Some 255]%Z /\
    map (fun c => stored (libm_of sp sl) b (super_mem 160) super super_dst cyan_dst_planes c 0 0) comps = [Some 255; Some 255; Some 0]%Z) /\
  map (fun c => stored (libm_of sp sl) NEON (super_mem 160) super super_dst cyan_dst_planes c 0 0) comps = [Some 255; Some 255; Some 255]%Z.
Proof.
  intros sp sl. pose proof (super_converts sp sl) as C. split; [exact C|].
  split; [cbv zeta; super_colors|]. split; [cbv zeta; super_colors|]. split.
  - intros b HB. pose proof (fun u => C b u ltac:(tauto)) as C1.
    split; unfold comps; cbn [map]; rewrite !(stored_expected _ _ _ _ _ _ _ (C1 _)) by (try reflexivity; split; cbn; lia);
      destruct HB as [-> | ->]; vm_compute; reflexivity.
  - unfold comps; cbn [map]. rewrite !(stored_expected _ _ _ _ _ _ _ (C NEON _ ltac:(auto))) by (try reflexivity; split; cbn; lia). vm_compute. reflexivity.
Qed.
Print Assumptions C81_above_one_refuted.

(** With a U above the nominal range the PQ code of blue reaches 2, where the
    denominator of the curve is negative: the pixel, brighter than white in all
    its channels but red, is stored as black by AVX2, and as yellow by NEON *)
Theorem C81_superwhite_refuted : forall sp sl,
  (let s c := read_at bt709 (super_mem 255) super cyan_planes super_info c 0 0 in s CR = 1 /\ 89 / 100 < s CG < 1 /\ 2 < s CB < 21 / 10) /\
  map (fun c => stored (libm_of sp sl) AVX2 (super_mem 255) super super_dst cyan_dst_planes c 0 0) comps = [Some 0; Some 0; Some 0]%Z /\
  map (fun c => stored (libm_of sp sl) NEON (super_mem 255) super super_dst cyan_dst_planes c 0 0) comps = [Some 255; Some 255; Some 0]%Z.
Proof.
  intros sp sl. pose proof (super_converts sp sl) as C.
  split; [cbv zeta; super_colors|]. split; unfold comps; cbn [map].
  - rewrite !(stored_expected _ _ _ _ _ _ _ (C AVX2 _ ltac:(auto))) by (try reflexivity; split; cbn; lia). vm_compute. reflexivity.
  - rewrite !(stored_expected _ _ _ _ _ _ _ (C NEON _ ltac:(auto))) by (try reflexivity; split; cbn; lia). vm_compute. reflexivity.
Qed.
Print Assumptions C81_superwhite_refuted.
