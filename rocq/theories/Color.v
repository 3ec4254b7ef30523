(** Color conversion, generic over the vector type (src/color/{space,transfer,primaries}.rs).

    [F] is the element type and [V] the vector type.  Decimal literals are
    [flit digits decimals]; constant expressions are evaluated with the element
    type's own operations, as rustc does for [f32]. *)

From Coq Require Import ZArith Bool List.
From Verif Require Import Types F32 Vector.
Import ListNotations.
Local Open Scope Z_scope.

(** [[f32; 3]; 3]: row and column index *)
Definition mat (F : Type) := nat -> nat -> F.
Definition mk_mat {F} (d : F) (rows : list (list F)) : mat F :=
  fun i j => nth j (nth i rows []) d.

Section Color.
  Context {F V M : Type} {FO : FOps F} {VO : VOps F V M}.

  Definition lit0 : F := flit 0 0.
  Definition lit1 : F := flit 1 0.
  Definition lit2 : F := flit 2 0.
  Definition lit_half : F := flit 5 1.

  (** * src/color/transfer.rs *)

  (** transfer.rs:116-118, 121-123 (module [gamma]); [g] is GAMMA as f32 *)
  Definition gamma_linear_to_scaled (g : Z) (i : V) : V :=
    vpowf i (fdiv lit1 (fdiv (flit g 0) (flit 10 0))).
  Definition gamma_scaled_to_linear (g : Z) (i : V) : V :=
    vpowf i (fdiv (flit g 0) (flit 10 0)).

  (** transfer.rs:130-140 (module [srgb]) *)
  Definition srgb_linear_to_scaled (i : V) : V :=
    let mask := vlef i (flit 31308 7) in
    let a := vmulf i (flit 1292 2) in
    let b := vsubf (vmul (splat (flit 1055 3)) (vpowf i (fdiv lit1 (flit 24 1)))) (flit 55 3) in
    select a b mask.

  (** transfer.rs:143-153 *)
  Definition srgb_scaled_to_linear (i : V) : V :=
    let mask := vlef i (flit 4045 5) in
    let a := vdivf i (flit 1292 2) in
    let b := vpowf (vdivf (vaddf i (flit 55 3)) (flit 1055 3)) (flit 24 1) in
    select a b mask.

  (** transfer.rs:160-170 (module [sdr]) *)
  Definition sdr_linear_to_scaled (i : V) : V :=
    let mask := vlt i (splat (flit 1805397 8)) in
    let a := vmul (splat (flit 45 1)) i in
    let b := vsubf (vmul (splat (flit 1099 3)) (vpowf i (flit 45 2))) (flit 99 3) in
    select a b mask.

  (** transfer.rs:173-183 *)
  Definition sdr_scaled_to_linear (i : V) : V :=
    let mask := vltf i (flit 81490956 9) in
    let a := vdivf i (flit 45 1) in
    let b := vpowf (vdivf (vaddf i (flit 993 4)) (flit 1099 3)) (fdiv lit1 (flit 45 2)) in
    select a b mask.

  (** transfer.rs:189-196 (module [bt2100_pq]) *)
  Definition pq_m1 : F := flit 15930176 8.
  Definition pq_m2 : F := flit 7884375 5.
  Definition pq_c1 : F := flit 8359375 7.
  Definition pq_c2 : F := flit 18851563 6.
  Definition pq_c3 : F := flit 186875 4.
  Definition pq_l : F := flit 10000 0.

  (** transfer.rs:200-211 *)
  Definition pq_linear_to_scaled (i : V) : V :=
    let i := vmaxf i lit0 in
    let i := vdivf i pq_l in
    let ym1 := vpowf i pq_m1 in
    let a := vaddf (vmulf ym1 pq_c2) pq_c1 in
    let b := vaddf (vmulf ym1 pq_c3) lit1 in
    vpowf (vdiv a b) pq_m2.

  (** transfer.rs:215-225 *)
  Definition pq_scaled_to_linear (i : V) : V :=
    let i := vmaxf i lit0 in
    let e := vpowf i (fdiv lit1 pq_m2) in
    let a := vmaxf (vsubf e pq_c1) lit0 in
    let b := vsub (splat pq_c2) (vmulf e pq_c3) in
    vmulf (vpowf (vdiv a b) (fdiv lit1 pq_m1)) pq_l.

  (** transfer.rs:230-234 (module [bt2100_hlg]); [E] is std::f32::consts::E *)
  Definition hlg_a : F := flit 17883277 8.
  Definition hlg_b : F := flit 28466892 8.
  Definition hlg_c : F := flit 5599107 7.
  Definition hlg_e : F := flit 271828182845904523536 20.

  (** transfer.rs:237-252 *)
  Definition hlg_linear_to_scaled (i : V) : V :=
    let i := vmaxf i lit0 in
    let mask := vlef i (fdiv lit1 (flit 12 0)) in
    let a := vsqrt (vmulf i (flit 3 0)) in
    let b := vaddf (vmul (splat hlg_a) (vln (vsubf (vmul (splat (flit 12 0)) i) hlg_b))) hlg_c in
    select a b mask.

  (** transfer.rs:255-268 *)
  Definition hlg_scaled_to_linear (i : V) : V :=
    let i := vmaxf i lit0 in
    let mask := vlef i lit_half in
    let a := vdivf (vpowf i lit2) (flit 3 0) in
    let b := vdivf (vaddf (vpow (splat hlg_e) (vdivf (vsubf i hlg_c) hlg_a)) hlg_b) (flit 12 0) in
    select a b mask.

  (** transfer.rs:38-72 [linear_to_scaled_v], applied to one element of the
      array; also 23-28 [linear_to_scaled] for [V] = [f32] *)
  Definition linear_to_scaled (t : color_transfer) (i : V) : V :=
    match t with
    | TLinear => i
    | TGamma22 => gamma_linear_to_scaled 22 i
    | TGamma28 => gamma_linear_to_scaled 28 i
    | TSRGB => srgb_linear_to_scaled i
    | TSDR => sdr_linear_to_scaled i
    | TBT2100PQ => pq_linear_to_scaled i
    | TBT2100HLG => hlg_linear_to_scaled i
    end.

  (** transfer.rs:75-109 [scaled_to_linear_v]; also 30-35 [scaled_to_linear] *)
  Definition scaled_to_linear (t : color_transfer) (i : V) : V :=
    match t with
    | TLinear => i
    | TGamma22 => gamma_scaled_to_linear 22 i
    | TGamma28 => gamma_scaled_to_linear 28 i
    | TSRGB => srgb_scaled_to_linear i
    | TSDR => sdr_scaled_to_linear i
    | TBT2100PQ => pq_scaled_to_linear i
    | TBT2100HLG => hlg_scaled_to_linear i
    end.

  (** * src/color/primaries.rs *)

  (** primaries.rs:74-107 (module [generated_consts]) *)
  Definition ST240_RGB_TO_XYZ : mat F := mk_mat lit0
    [[flit 39031416 8; flit 20383073 8; flit 25401404 9];
     [flit 3700937 7; flit 71034116 8; flit 11341577 8];
     [flit 19004808 8; flit 8582816 8; flit 95024043 8]].
  Definition ST240_XYZ_TO_RGB : mat F := mk_mat lit0
    [[flit 3506003 6; flit (-10092703) 7; flit 26740361 9];
     [flit (-17397907) 7; flit 19292052 7; flit (-18375263) 8];
     [flit (-5440582) 7; flit 27603257 9; flit 10636142 7]].
  Definition BT709_RGB_TO_XYZ : mat F := mk_mat lit0
    [[flit 41239083 8; flit 21263903 8; flit 1933082 8];
     [flit 35758436 8; flit 7151687 7; flit 11919474 8];
     [flit 1804808 7; flit 7219231 8; flit 95053214 8]].
  Definition BT709_XYZ_TO_RGB : mat F := mk_mat lit0
    [[flit 32409694 7; flit (-9692435) 7; flit 55630032 9];
     [flit (-1537383) 6; flit 18759671 7; flit (-20397685) 8];
     [flit (-49861073) 8; flit 4155508 8; flit 10569714 7]].
  Definition BT2020_RGB_TO_XYZ : mat F := mk_mat lit0
    [[flit 63695806 8; flit 2627002 7; flit 0 1];
     [flit 14461692 8; flit 6779981 7; flit 28072689 9];
     [flit 16888095 8; flit 5930171 8; flit 1060985 6]].
  Definition BT2020_XYZ_TO_RGB : mat F := mk_mat lit0
    [[flit 17166512 7; flit (-66668427) 8; flit 17639855 9];
     [flit (-3556708) 7; flit 16164812 7; flit (-4277061) 8];
     [flit (-25336626) 8; flit 1576853 8; flit 9421032 7]].

  (** primaries.rs:16-24 [rgb_to_xyz_mat], 27-35 [xyz_to_rgb_mat] *)
  Definition rgb_to_xyz_mat (p : color_primaries) : mat F :=
    match p with
    | PrST240M => ST240_RGB_TO_XYZ
    | PrBT709 => BT709_RGB_TO_XYZ
    | PrBT2020 => BT2020_RGB_TO_XYZ
    end.
  Definition xyz_to_rgb_mat (p : color_primaries) : mat F :=
    match p with
    | PrST240M => ST240_XYZ_TO_RGB
    | PrBT709 => BT709_XYZ_TO_RGB
    | PrBT2020 => BT2020_XYZ_TO_RGB
    end.

  (** primaries.rs:39-54 [rgb_to_xyz] *)
  Definition rgb_to_xyz (fw : mat F) (r g b : V) : V * V * V :=
    let x := vadd (vadd (vmulf r (fw 0%nat 0%nat)) (vmulf g (fw 1%nat 0%nat))) (vmulf b (fw 2%nat 0%nat)) in
    let y := vadd (vadd (vmulf r (fw 0%nat 1%nat)) (vmulf g (fw 1%nat 1%nat))) (vmulf b (fw 2%nat 1%nat)) in
    let z := vadd (vadd (vmulf r (fw 0%nat 2%nat)) (vmulf g (fw 1%nat 2%nat))) (vmulf b (fw 2%nat 2%nat)) in
    (x, y, z).

  (** primaries.rs:57-72 [xyz_to_rgb] *)
  Definition xyz_to_rgb (bw : mat F) (x y z : V) : V * V * V :=
    let r := vadd (vadd (vmulf x (bw 0%nat 0%nat)) (vmulf y (bw 1%nat 0%nat))) (vmulf z (bw 2%nat 0%nat)) in
    let g := vadd (vadd (vmulf x (bw 0%nat 1%nat)) (vmulf y (bw 1%nat 1%nat))) (vmulf z (bw 2%nat 1%nat)) in
    let b := vadd (vadd (vmulf x (bw 0%nat 2%nat)) (vmulf y (bw 1%nat 2%nat))) (vmulf z (bw 2%nat 2%nat)) in
    (r, g, b).

  (** * src/color/space.rs *)

  (** color/mod.rs:64-71 [mat_idxs]: Y/U/V = 0/1/2, R/G/B = 0/1/2 *)
  Definition iY := 0%nat. Definition iU := 1%nat. Definition iV := 2%nat.
  Definition iR := 0%nat. Definition iG := 1%nat. Definition iB := 2%nat.

  (** space.rs:270-289 [make_matrices] *)
  Definition mk_yuv_to_rgb (kr kg kb : F) : mat F := mk_mat lit0
    [[lit1; lit1; lit1];
     [lit0; fmul (fneg (fdiv kb kg)) (fsub lit2 (fmul lit2 kb)); fsub lit2 (fmul lit2 kb)];
     [fsub lit2 (fmul lit2 kr); fmul (fneg (fdiv kr kg)) (fsub lit2 (fmul lit2 kr)); lit0]].
  Definition mk_rgb_to_yuv (kr kg kb : F) : mat F := mk_mat lit0
    [[kr; kg; kb];
     [fmul (flit (-5) 1) (fdiv kr (fsub lit1 kb)); fmul (flit (-5) 1) (fdiv kg (fsub lit1 kb)); lit_half];
     [lit_half; fmul (flit (-5) 1) (fdiv kg (fsub lit1 kr)); fmul (flit (-5) 1) (fdiv kb (fsub lit1 kr))]].

  (** space.rs:290-294; the BT.2020 line really says 0.322 *)
  Definition BT601_YUV_TO_RGB := mk_yuv_to_rgb (flit 299 3) (flit 587 3) (flit 114 3).
  Definition BT601_RGB_TO_YUV := mk_rgb_to_yuv (flit 299 3) (flit 587 3) (flit 114 3).
  Definition BT709_YUV_TO_RGB := mk_yuv_to_rgb (flit 2126 4) (flit 7152 4) (flit 722 4).
  Definition BT709_RGB_TO_YUV := mk_rgb_to_yuv (flit 2126 4) (flit 7152 4) (flit 722 4).
  Definition BT2020_YUV_TO_RGB := mk_yuv_to_rgb (flit 2627 4) (flit 322 3) (flit 593 4).
  Definition BT2020_RGB_TO_YUV := mk_rgb_to_yuv (flit 2627 4) (flit 322 3) (flit 593 4).

  (** space.rs:131-137 [convert_yuv_to_rgb_matrix] *)
  Definition convert_yuv_to_rgb_matrix (m : mat F) (y u v : V) : V * V * V :=
    let r := vadd y (vmulf v (m iV iR)) in
    let g := vadd y (vadd (vmulf v (m iV iG)) (vmulf u (m iU iG))) in
    let b := vadd y (vmulf u (m iU iB)) in
    (r, g, b).

  (** space.rs:150-157 [prepare_rgb] *)
  Definition prepare_rgb (m : mat F) (u v : V) : V * V * V :=
    let r := vmulf v (m iV iR) in
    let g := vadd (vmulf v (m iV iG)) (vmulf u (m iU iG)) in
    let b := vmulf u (m iU iB) in
    (r, g, b).

  (** space.rs:140-186 [convert_yx4_uv_to_rgb_matrix]; the arrays are in the
      order 00, 01, 10, 11 *)
  Definition convert_yx4_uv_to_rgb_matrix (m : mat F) (y00 y01 y10 y11 u v : V)
      : (V * V * V) * (V * V * V) * (V * V * V) * (V * V * V) :=
    let '(left_u, right_u) := vzip u u in
    let '(left_v, right_v) := vzip v v in
    let '(r_left, g_left, b_left) := prepare_rgb m left_u left_v in
    let '(r_right, g_right, b_right) := prepare_rgb m right_u right_v in
    let r00 := vadd y00 r_left in
    let g00 := vadd y00 g_left in
    let b00 := vadd y00 b_left in
    let r01 := vadd y01 r_right in
    let g01 := vadd y01 g_right in
    let b01 := vadd y01 b_right in
    let r10 := vadd y10 r_left in
    let g10 := vadd y10 g_left in
    let b10 := vadd y10 b_left in
    let r11 := vadd y11 r_right in
    let g11 := vadd y11 g_right in
    let b11 := vadd y11 b_right in
    ((r00, g00, b00), (r01, g01, b01), (r10, g10, b10), (r11, g11, b11)).

  (** space.rs:189-204 [convert_rgb_to_yuv_matrix] *)
  Definition convert_rgb_to_yuv_matrix (m : mat F) (r g b : V) : V * V * V :=
    let y := vadd (vadd (vmulf r (m 0%nat 0%nat)) (vmulf g (m 0%nat 1%nat))) (vmulf b (m 0%nat 2%nat)) in
    let u := vadd (vadd (vmulf r (m 1%nat 0%nat)) (vmulf g (m 1%nat 1%nat))) (vmulf b (m 1%nat 2%nat)) in
    let v := vadd (vadd (vmulf r (m 2%nat 0%nat)) (vmulf g (m 2%nat 1%nat))) (vmulf b (m 2%nat 2%nat)) in
    (y, u, v).

  (** space.rs:214-232 [calc_y], [calc_u], [calc_v] *)
  Definition calc_y (m : mat F) (r g b : V) : V :=
    vadd (vadd (vmulf r (m iY iR)) (vmulf g (m iY iG))) (vmulf b (m iY iB)).
  Definition calc_u (m : mat F) (r g b : V) : V :=
    vadd (vadd (vmulf r (m iU iR)) (vmulf g (m iU iG))) (vmulf b (m iU iB)).
  Definition calc_v (m : mat F) (r g b : V) : V :=
    vadd (vadd (vmulf r (m iV iR)) (vmulf g (m iV iG))) (vmulf b (m iV iB)).

  (** space.rs:207-267 [rgbx4_to_yx4_uv_matrix]; pixels in the order 00, 01, 10, 11 *)
  Definition rgbx4_to_yx4_uv_matrix (m : mat F) (r g b : V * V * V * V) : (V * V * V * V) * V * V :=
    let '(r0, r1, r2, r3) := r in
    let '(g0, g1, g2, g3) := g in
    let '(b0, b1, b2, b3) := b in
    let y00 := calc_y m r0 g0 b0 in
    let y01 := calc_y m r1 g1 b1 in
    let y10 := calc_y m r2 g2 b2 in
    let y11 := calc_y m r3 g3 b3 in
    let rgb0_r := vadd r0 r2 in
    let rgb0_g := vadd g0 g2 in
    let rgb0_b := vadd b0 b2 in
    let rgb1_r := vadd r1 r3 in
    let rgb1_g := vadd g1 g3 in
    let rgb1_b := vadd b1 b3 in
    let '(rgb0_r, rgb1_r) := vunzip rgb0_r rgb1_r in
    let '(rgb0_g, rgb1_g) := vunzip rgb0_g rgb1_g in
    let '(rgb0_b, rgb1_b) := vunzip rgb0_b rgb1_b in
    let r := vadd rgb0_r rgb1_r in
    let g := vadd rgb0_g rgb1_g in
    let b := vadd rgb0_b rgb1_b in
    let r := vmulf r (flit 25 2) in
    let g := vmulf g (flit 25 2) in
    let b := vmulf b (flit 25 2) in
    let u := calc_u m r g b in
    let v := calc_v m r g b in
    ((y00, y01, y10, y11), u, v).

  (** space.rs:355-361 [xyz_to_lms] *)
  Definition xyz_to_lms (x y z : V) : V * V * V :=
    let l := vadd (vadd (vmulf x (flit 3593 4)) (vmulf y (flit 6976 4))) (vmulf z (flit (-359) 4)) in
    let m := vadd (vadd (vmulf x (flit (-1921) 4)) (vmulf y (flit 11005 4))) (vmulf z (flit 754 4)) in
    let s := vadd (vadd (vmulf x (flit 71 4)) (vmulf y (flit 748 4))) (vmulf z (flit 8433 4)) in
    (l, m, s).

  (** space.rs:364-378 [lms_to_xyz] *)
  Definition lms_to_xyz (l m s : V) : V * V * V :=
    let x := vadd (vadd (vmulf l (flit 20700345 7)) (vmulf m (flit (-13262312) 7))) (vmulf s (flit 20670232 8)) in
    let y := vadd (vadd (vmulf l (flit 3647498 7)) (vmulf m (flit 6805457 7))) (vmulf s (flit (-4532032) 8)) in
    let z := vadd (vadd (vmulf l (flit (-4978125) 8)) (vmulf m (flit (-49197882) 9))) (vmulf s (flit 11880972 7)) in
    (x, y, z).

  (** space.rs:381-416 [pq_rgb_to_yuv] *)
  Definition pq_rgb_to_yuv (t : color_transfer) (m : mat F) (r g b : V) : V * V * V :=
    let r := scaled_to_linear t r in
    let g := scaled_to_linear t g in
    let b := scaled_to_linear t b in
    let '(x, y, z) := rgb_to_xyz m r g b in
    let '(l, m, s) := xyz_to_lms x y z in
    let l := pq_linear_to_scaled l in
    let m := pq_linear_to_scaled m in
    let s := pq_linear_to_scaled s in
    let y := vadd (vmulf l lit_half) (vmulf m lit_half) in
    let u := vdivf (vadd (vadd (vmulf l (flit 6610 0)) (vmulf m (flit (-13613) 0))) (vmulf s (flit 7003 0)))
                   (flit 4096 0) in
    let v := vdivf (vadd (vadd (vmulf l (flit 17933 0)) (vmulf m (flit (-17390) 0))) (vmulf s (flit (-543) 0)))
                   (flit 4096 0) in
    (y, u, v).

  (** space.rs:419-446 [pq_yuv_to_rgb] *)
  Definition pq_yuv_to_rgb (t : color_transfer) (mt : mat F) (y u v : V) : V * V * V :=
    let l := vadd (vadd y (vmulf u (flit 8609037 9))) (vmulf v (flit 111029625 9)) in
    let m := vadd (vadd y (vmulf u (flit (-8609037) 9))) (vmulf v (flit (-111029625) 9)) in
    let s := vadd (vadd y (vmulf u (flit 5600313 7))) (vmulf v (flit (-32062715) 8)) in
    let l := pq_scaled_to_linear l in
    let m := pq_scaled_to_linear m in
    let s := pq_scaled_to_linear s in
    let '(x, y, z) := lms_to_xyz l m s in
    let '(r, g, b) := xyz_to_rgb mt x y z in
    (linear_to_scaled t r, linear_to_scaled t g, linear_to_scaled t b).

  (** space.rs:449-482 [hlg_rgb_to_yuv] *)
  Definition hlg_rgb_to_yuv (t : color_transfer) (m : mat F) (r g b : V) : V * V * V :=
    let r := scaled_to_linear t r in
    let g := scaled_to_linear t g in
    let b := scaled_to_linear t b in
    let '(x, y, z) := rgb_to_xyz m r g b in
    let '(l, m, s) := xyz_to_lms x y z in
    let l := hlg_linear_to_scaled l in
    let m := hlg_linear_to_scaled m in
    let s := hlg_linear_to_scaled s in
    let y := vmulf (vadd l m) lit_half in
    let u := vadd (vsub (vmulf l (flit 88500977 8)) (vmulf m (flit 18225098 7))) (vmulf s (flit 9375 4)) in
    let v := vsub (vsub (vmulf l (flit 2319336 6)) (vmulf m (flit 22490234 7))) (vmulf s (flit 703125 7)) in
    (y, u, v).

  (** space.rs:485-518 [hlg_yuv_to_rgb] *)
  Definition hlg_yuv_to_rgb (t : color_transfer) (mt : mat F) (y u v : V) : V * V * V :=
    let l := vadd (vadd y (vmul u (splat (flit 1571858 8)))) (vmul v (splat (flit 20958106 8))) in
    let m := vadd (vadd y (vmul u (splat (flit (-1571858) 8)))) (vmul v (splat (flit (-20958106) 8))) in
    let s := vadd (vadd y (vmul u (splat (flit 10212711 7)))) (vmul v (splat (flit (-6052745) 7))) in
    let l := hlg_scaled_to_linear l in
    let m := hlg_scaled_to_linear m in
    let s := hlg_scaled_to_linear s in
    let '(x, y, z) := lms_to_xyz l m s in
    let '(r, g, b) := xyz_to_rgb mt x y z in
    (linear_to_scaled t r, linear_to_scaled t g, linear_to_scaled t b).

  (** space.rs:298-323 [bt2100_yx4_uv_to_rgb] *)
  Definition bt2100_yx4_uv_to_rgb (f : color_transfer -> mat F -> V -> V -> V -> V * V * V)
      (t : color_transfer) (m : mat F) (y00 y01 y10 y11 u v : V)
      : (V * V * V) * (V * V * V) * (V * V * V) * (V * V * V) :=
    let '(left_u, right_u) := vzip u u in
    let '(left_v, right_v) := vzip v v in
    let rgb00 := f t m y00 left_u left_v in
    let rgb01 := f t m y01 right_u right_v in
    let rgb10 := f t m y10 left_u left_v in
    let rgb11 := f t m y11 right_u right_v in
    (rgb00, rgb01, rgb10, rgb11).

  (** space.rs:326-346 [bt2100_rgbx4_to_yx4_uv]: the sums really use the first
      pixel three times and the lower row not at all *)
  Definition bt2100_rgbx4_to_yx4_uv (f : color_transfer -> mat F -> V -> V -> V -> V * V * V)
      (t : color_transfer) (m : mat F) (r g b : V * V * V * V) : (V * V * V * V) * V * V :=
    let '(r0, r1, r2, r3) := r in
    let '(g0, g1, g2, g3) := g in
    let '(b0, b1, b2, b3) := b in
    let '(y00, u00, v00) := f t m r0 g0 b0 in
    let '(y01, u01, v01) := f t m r1 g1 b1 in
    let '(y10, _, _) := f t m r2 g2 b2 in
    let '(y11, _, _) := f t m r3 g3 b3 in
    let u := vadd (vadd (vadd u00 u01) u00) u00 in
    let v := vadd (vadd (vadd v00 v01) v00) v00 in
    let u := vdivf u (flit 4 0) in
    let v := vdivf v (flit 4 0) in
    ((y00, y01, y10, y11), u, v).

  (** space.rs:28-43 [ColorSpace::yuv_to_rgb] *)
  Definition yuv_to_rgb (s : color_space) (t : color_transfer) (m : mat F) (y u v : V) : V * V * V :=
    match s with
    | SpBT601 => convert_yuv_to_rgb_matrix BT601_YUV_TO_RGB y u v
    | SpBT709 => convert_yuv_to_rgb_matrix BT709_YUV_TO_RGB y u v
    | SpBT2020 => convert_yuv_to_rgb_matrix BT2020_YUV_TO_RGB y u v
    | SpICtCpPQ => pq_yuv_to_rgb t m y u v
    | SpICtCpHLG => hlg_yuv_to_rgb t m y u v
    end.

  (** space.rs:45-89 [ColorSpace::yx4_uv_to_rgb] *)
  Definition yx4_uv_to_rgb (s : color_space) (t : color_transfer) (m : mat F) (y00 y01 y10 y11 u v : V)
      : (V * V * V) * (V * V * V) * (V * V * V) * (V * V * V) :=
    match s with
    | SpBT601 => convert_yx4_uv_to_rgb_matrix BT601_YUV_TO_RGB y00 y01 y10 y11 u v
    | SpBT709 => convert_yx4_uv_to_rgb_matrix BT709_YUV_TO_RGB y00 y01 y10 y11 u v
    | SpBT2020 => convert_yx4_uv_to_rgb_matrix BT2020_YUV_TO_RGB y00 y01 y10 y11 u v
    | SpICtCpPQ => bt2100_yx4_uv_to_rgb pq_yuv_to_rgb t m y00 y01 y10 y11 u v
    | SpICtCpHLG => bt2100_yx4_uv_to_rgb hlg_yuv_to_rgb t m y00 y01 y10 y11 u v
    end.

  (** space.rs:92-107 [ColorSpace::rgb_to_yuv] *)
  Definition rgb_to_yuv (s : color_space) (t : color_transfer) (m : mat F) (r g b : V) : V * V * V :=
    match s with
    | SpBT601 => convert_rgb_to_yuv_matrix BT601_RGB_TO_YUV r g b
    | SpBT709 => convert_rgb_to_yuv_matrix BT709_RGB_TO_YUV r g b
    | SpBT2020 => convert_rgb_to_yuv_matrix BT2020_RGB_TO_YUV r g b
    | SpICtCpPQ => pq_rgb_to_yuv t m r g b
    | SpICtCpHLG => hlg_rgb_to_yuv t m r g b
    end.

  (** space.rs:109-128 [ColorSpace::rgbx4_to_yx4_uv] *)
  Definition rgbx4_to_yx4_uv (s : color_space) (t : color_transfer) (m : mat F) (r g b : V * V * V * V)
      : (V * V * V * V) * V * V :=
    match s with
    | SpBT601 => rgbx4_to_yx4_uv_matrix BT601_RGB_TO_YUV r g b
    | SpBT709 => rgbx4_to_yx4_uv_matrix BT709_RGB_TO_YUV r g b
    | SpBT2020 => rgbx4_to_yx4_uv_matrix BT2020_RGB_TO_YUV r g b
    | SpICtCpPQ => bt2100_rgbx4_to_yx4_uv pq_rgb_to_yuv t m r g b
    | SpICtCpHLG => bt2100_rgbx4_to_yx4_uv hlg_rgb_to_yuv t m r g b
    end.
End Color.
