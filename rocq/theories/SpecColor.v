(** Specification of the color math: one pixel, one number at a time.

    The formulas are generic in the number type: [f32] gives the exact bit
    pattern a conversion has to produce (so the order of the operations
    matters), [R] gives the mathematical meaning.  [L] holds the comparison,
    maximum, power and logarithm of the back end. *)

From Coq Require Import ZArith Bool List.
From Verif Require Import Types F32.

Declare Scope F_scope.
Delimit Scope F_scope with F.
Infix "+" := fadd : F_scope.
Infix "-" := fsub : F_scope.
Infix "*" := fmul : F_scope.
Infix "/" := fdiv : F_scope.

Section SpecColor.
  Context {F : Type} {FO : FOps F}.
  Local Open Scope F_scope.

  (** Decimal constants: [dec digits decimals] is digits * 10^-decimals *)
  Local Notation dec := flit.
  Local Notation one := (flit 1 0).
  Local Notation zero := (flit 0 0).
  Local Notation half := (flit 5 1).

  (** * Transfer functions *)

  (** Linear light to stored signal *)
  Definition oetf (L : lane_ops F) (t : color_transfer) (i : F) : F :=
    match t with
    | TLinear => i
    | TGamma22 => l_pow L i (one / (dec 22 0 / dec 10 0))
    | TGamma28 => l_pow L i (one / (dec 28 0 / dec 10 0))
    | TSRGB =>
        if l_le L i (dec 31308 7)                                    (* 0.0031308 *)
        then i * dec 1292 2                                          (* 12.92 i *)
        else dec 1055 3 * l_pow L i (one / dec 24 1) - dec 55 3      (* 1.055 i^(1/2.4) - 0.055 *)
    | TSDR =>
        if l_lt L i (dec 1805397 8)
        then dec 45 1 * i                                            (* 4.5 i *)
        else dec 1099 3 * l_pow L i (dec 45 2) - dec 99 3            (* 1.099 i^0.45 - 0.099 *)
    | TBT2100PQ =>
        let y := l_max L i zero / dec 10000 0 in
        let ym := l_pow L y (dec 15930176 8) in
        l_pow L ((ym * dec 18851563 6 + dec 8359375 7) / (ym * dec 186875 4 + one)) (dec 7884375 5)
    | TBT2100HLG =>
        let e := l_max L i zero in
        if l_le L e (one / dec 12 0)
        then fsqrt (e * dec 3 0)
        else dec 17883277 8 * l_ln L (dec 12 0 * e - dec 28466892 8) + dec 5599107 7
    end.

  (** Stored signal to linear light; the SDR branch has the code's 0.0993 *)
  Definition eotf (L : lane_ops F) (t : color_transfer) (i : F) : F :=
    match t with
    | TLinear => i
    | TGamma22 => l_pow L i (dec 22 0 / dec 10 0)
    | TGamma28 => l_pow L i (dec 28 0 / dec 10 0)
    | TSRGB =>
        if l_le L i (dec 4045 5)
        then i / dec 1292 2
        else l_pow L ((i + dec 55 3) / dec 1055 3) (dec 24 1)
    | TSDR =>
        if l_lt L i (dec 81490956 9)
        then i / dec 45 1
        else l_pow L ((i + dec 993 4) / dec 1099 3) (one / dec 45 2)
    | TBT2100PQ =>
        let e := l_pow L (l_max L i zero) (one / dec 7884375 5) in
        l_pow L (l_max L (e - dec 8359375 7) zero / (dec 18851563 6 - e * dec 186875 4)) (one / dec 15930176 8)
          * dec 10000 0
    | TBT2100HLG =>
        let e := l_max L i zero in
        if l_le L e half
        then l_pow L e (dec 2 0) / dec 3 0
        else (l_pow L (dec 271828182845904523536 20) ((e - dec 5599107 7) / dec 17883277 8) + dec 28466892 8)
               / dec 12 0
    end.

  (** * Linear maps *)

  (** Sum of three products, left to right *)
  Definition dot (a b c : F) (x y z : F) : F := x * a + y * b + z * c.

  Definition map3 (f : F -> F) (v : F * F * F) : F * F * F := let '(a, b, c) := v in (f a, f b, f c).

  (** Linear RGB to CIE XYZ and back *)
  Definition to_xyz (p : color_primaries) (c : F * F * F) : F * F * F :=
    let '(r, g, b) := c in
    match p with
    | PrST240M =>
        (dot (dec 39031416 8) (dec 3700937 7) (dec 19004808 8) r g b,
         dot (dec 20383073 8) (dec 71034116 8) (dec 8582816 8) r g b,
         dot (dec 25401404 9) (dec 11341577 8) (dec 95024043 8) r g b)
    | PrBT709 =>
        (dot (dec 41239083 8) (dec 35758436 8) (dec 1804808 7) r g b,
         dot (dec 21263903 8) (dec 7151687 7) (dec 7219231 8) r g b,
         dot (dec 1933082 8) (dec 11919474 8) (dec 95053214 8) r g b)
    | PrBT2020 =>
        (dot (dec 63695806 8) (dec 14461692 8) (dec 16888095 8) r g b,
         dot (dec 2627002 7) (dec 6779981 7) (dec 5930171 8) r g b,
         dot (dec 0 1) (dec 28072689 9) (dec 1060985 6) r g b)
    end.

  Definition from_xyz (p : color_primaries) (c : F * F * F) : F * F * F :=
    let '(x, y, z) := c in
    match p with
    | PrST240M =>
        (dot (dec 3506003 6) (dec (-17397907) 7) (dec (-5440582) 7) x y z,
         dot (dec (-10092703) 7) (dec 19292052 7) (dec 27603257 9) x y z,
         dot (dec 26740361 9) (dec (-18375263) 8) (dec 10636142 7) x y z)
    | PrBT709 =>
        (dot (dec 32409694 7) (dec (-1537383) 6) (dec (-49861073) 8) x y z,
         dot (dec (-9692435) 7) (dec 18759671 7) (dec 4155508 8) x y z,
         dot (dec 55630032 9) (dec (-20397685) 8) (dec 10569714 7) x y z)
    | PrBT2020 =>
        (dot (dec 17166512 7) (dec (-3556708) 7) (dec (-25336626) 8) x y z,
         dot (dec (-66668427) 8) (dec 16164812 7) (dec 1576853 8) x y z,
         dot (dec 17639855 9) (dec (-4277061) 8) (dec 9421032 7) x y z)
    end.

  Definition to_lms (c : F * F * F) : F * F * F :=
    let '(x, y, z) := c in
    (dot (dec 3593 4) (dec 6976 4) (dec (-359) 4) x y z,
     dot (dec (-1921) 4) (dec 11005 4) (dec 754 4) x y z,
     dot (dec 71 4) (dec 748 4) (dec 8433 4) x y z).

  Definition from_lms (c : F * F * F) : F * F * F :=
    let '(l, m, s) := c in
    (dot (dec 20700345 7) (dec (-13262312) 7) (dec 20670232 8) l m s,
     dot (dec 3647498 7) (dec 6805457 7) (dec (-4532032) 8) l m s,
     dot (dec (-4978125) 8) (dec (-49197882) 9) (dec 11880972 7) l m s).

  (** * YUV *)

  (** Luma weights (kr, kg, kb); the code's BT.2020 has kg = 0.322 (the
      recommendation says 0.678) *)
  Definition luma_weights (s : color_space) : F * F * F :=
    match s with
    | SpBT601 => (dec 299 3, dec 587 3, dec 114 3)
    | SpBT709 => (dec 2126 4, dec 7152 4, dec 722 4)
    | _ => (dec 2627 4, dec 322 3, dec 593 4)
    end.

  (** Y = kr R + kg G + kb B; U = (B - Y) / (2 (1 - kb)); V = (R - Y) / (2 (1 - kr)), written as
      the matrix the standards derive from it *)
  Definition weights_to_yuv (k : F * F * F) (c : F * F * F) : F * F * F :=
    let '(kr, kg, kb) := k in
    let '(r, g, b) := c in
    (dot kr kg kb r g b,
     dot (dec (-5) 1 * (kr / (one - kb))) (dec (-5) 1 * (kg / (one - kb))) half r g b,
     dot half (dec (-5) 1 * (kg / (one - kr))) (dec (-5) 1 * (kb / (one - kr))) r g b).

  (** R = Y + (2 - 2 kr) V; B = Y + (2 - 2 kb) U; G from the luma equation *)
  Definition weights_to_rgb (k : F * F * F) (c : F * F * F) : F * F * F :=
    let '(kr, kg, kb) := k in
    let '(y, u, v) := c in
    let cr := dec 2 0 - dec 2 0 * kr in
    let cb := dec 2 0 - dec 2 0 * kb in
    (y + v * cr,
     y + (v * (fneg (kr / kg) * cr) + u * (fneg (kb / kg) * cb)),
     y + u * cb).

  (** ICtCp (BT.2100): stored RGB -> linear RGB -> XYZ -> LMS -> PQ or HLG
      signal -> I, Ct, Cp *)
  Definition ictcp_lms (L : lane_ops F) (t' : color_transfer) (t : color_transfer) (p : color_primaries)
      (c : F * F * F) : F * F * F :=
    map3 (oetf L t') (to_lms (to_xyz p (map3 (eotf L t) c))).

  Definition ictcp_rgb (L : lane_ops F) (t' : color_transfer) (t : color_transfer) (p : color_primaries)
      (lms : F * F * F) : F * F * F :=
    map3 (oetf L t) (from_xyz p (from_lms (map3 (eotf L t') lms))).

  (** RGB to Y, U, V with U and V centred on zero *)
  Definition rgb_yuv (L : lane_ops F) (s : color_space) (t : color_transfer) (p : color_primaries)
      (c : F * F * F) : F * F * F :=
    match s with
    | SpBT601 | SpBT709 | SpBT2020 => weights_to_yuv (luma_weights s) c
    | SpICtCpPQ =>
        let '(l, m, s) := ictcp_lms L TBT2100PQ t p c in
        (l * half + m * half,
         dot (dec 6610 0) (dec (-13613) 0) (dec 7003 0) l m s / dec 4096 0,
         dot (dec 17933 0) (dec (-17390) 0) (dec (-543) 0) l m s / dec 4096 0)
    | SpICtCpHLG =>
        let '(l, m, s) := ictcp_lms L TBT2100HLG t p c in
        ((l + m) * half,
         l * dec 88500977 8 - m * dec 18225098 7 + s * dec 9375 4,
         l * dec 2319336 6 - m * dec 22490234 7 - s * dec 703125 7)
    end.

  Definition yuv_rgb (L : lane_ops F) (s : color_space) (t : color_transfer) (p : color_primaries)
      (c : F * F * F) : F * F * F :=
    let '(y, u, v) := c in
    match s with
    | SpBT601 | SpBT709 | SpBT2020 => weights_to_rgb (luma_weights s) (y, u, v)
    | SpICtCpPQ =>
        ictcp_rgb L TBT2100PQ t p
          (y + u * dec 8609037 9 + v * dec 111029625 9,
           y + u * dec (-8609037) 9 + v * dec (-111029625) 9,
           y + u * dec 5600313 7 + v * dec (-32062715) 8)
    | SpICtCpHLG =>
        ictcp_rgb L TBT2100HLG t p
          (y + u * dec 1571858 8 + v * dec 20958106 8,
           y + u * dec (-1571858) 8 + v * dec (-20958106) 8,
           y + u * dec 10212711 7 + v * dec (-6052745) 7)
    end.

  (** * Ranges *)

  (** Limited range: Y in 16/255 .. 235/255, U and V in 16/255 .. 240/255 *)
  Definition expand_y (full : bool) (y : F) : F :=
    if full then y else (y - dec 16 0 / dec 255 0) * (dec 255 0 / dec 219 0).
  Definition expand_c (full : bool) (u : F) : F :=
    if full then u else (u - dec 16 0 / dec 255 0) * (dec 255 0 / dec 224 0).
  Definition compress_y (full : bool) (y : F) : F :=
    if full then y else dec 16 0 / dec 255 0 + y * (dec 219 0 / dec 255 0).
  Definition compress_c (full : bool) (u : F) : F :=
    if full then u else dec 16 0 / dec 255 0 + u * (dec 224 0 / dec 255 0).

  (** Stored (normalised to 0..1) YUV of a pixel to RGB *)
  Definition decode_yuv (L : lane_ops F) (i : yuv_color_info) (y u v : F) : F * F * F :=
    yuv_rgb L (yc_space i) (yc_transfer i) (yc_primaries i)
      (expand_y (yc_full_range i) y,
       expand_c (yc_full_range i) u - half,
       expand_c (yc_full_range i) v - half).

  (** Stored luma, and stored chroma from a centred chroma value *)
  Definition encode_y (i : yuv_color_info) (y : F) : F := compress_y (yc_full_range i) y.
  Definition encode_c (i : yuv_color_info) (u : F) : F := compress_c (yc_full_range i) (u + half).

  (** Change of transfer function and primaries *)
  Definition recolor (L : lane_ops F) (ts td : color_transfer) (ps pd : color_primaries) (c : F * F * F)
      : F * F * F :=
    map3 (oetf L td) (from_xyz pd (to_xyz ps (map3 (eotf L ts) c))).
End SpecColor.
