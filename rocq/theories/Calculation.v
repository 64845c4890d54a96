(** * manipulation/color_calculation.cpp

    The C++ functions are overloaded on the class of their arguments; here each overload
    has the class in its name, and [add], [mix], [subtract] are the overloads on
    color_base.  Function arguments are evaluated from left to right. *)
From Coq Require Import ZArith QArith List Bool.
From Verif Require Import Arith Outcome ColorModel GammaModel MatrixModel SpaceModel Heap Converter.
Import ListNotations.
Local Open Scope fl_scope.
Local Open Scope monad_scope.

Section Calculation.
Context {F : Type} {AF : Arith F}.
Local Notation color := (color F).
Local Notation M := (M F).
Local Notation "$ n" := (fz n%Z) (at level 1, n at level 0, format "$ n").

(** [throw new std::invalid_argument(..)] *)
Definition throw_invalid {A} : M A := lift (Throw (by_pointer invalid_argument)).

(** [weight < 0.f || weight > 1.f] *)
Definition bad_weight (w : F) : bool := (w <? $0) || ($1 <? w).

(** Read the two arguments as objects of class [T] and allocate the object computed from them. *)
Definition new2 (T : ctype) (f : color -> color -> outcome color) (color1 color2 : ptr) : M ptr :=
  c1 <- load_as T color1 ;; c2 <- load_as T color2 ;; r <- lift (f c1 c2) ;; alloc r.

(** Convert both arguments, then call the function. *)
Definition both (conv : ptr -> M ptr) (f : ptr -> ptr -> M ptr) (color1 color2 : ptr) : M ptr :=
  a <- conv color1 ;; b <- conv color2 ;; f a b.

(** color_calculation.cpp:744-751 convert_to_vector *)
Definition convert_to_vector (hue saturation third : F) : F * F * F :=
  (fcos (hue / $180 * fpi) * saturation, fsin (hue / $180 * fpi) * saturation, third).

(** color_calculation.cpp:753-759 convert_from_vector *)
Definition convert_from_vector (v : F * F * F) : F * F * F :=
  let '(x, y, z) := v in
  (fatan2 y x * $180 / fpi, fsqrt (fpow x $2 + fpow y $2), z).

(** ** add *)

(** [std::sqrtf(weight1 * std::powf(a, 2.f) + weight2 * std::powf(b, 2.f))] *)
Definition add_root (w1 w2 a b : F) : F := fsqrt (w1 * fpow a $2 + w2 * fpow b $2).
(** [weight1 * a + weight2 * b] *)
Definition add_lin (w1 w2 a b : F) : F := w1 * a + w2 * b.

(** The constructed objects. *)
Definition add_rgb_true_f (w1 w2 : F) (ia : bool) (c1 c2 : color) : outcome color :=
  with3 c1 (fun r1 g1 b1 => with3 c2 (fun r2 g2 b2 =>
    let r := add_root w1 w2 r1 r2 in
    let g := add_root w1 w2 g1 g2 in
    let b := add_root w1 w2 b1 b2 in
    let a := if ia then add_root w1 w2 (alpha c1) (alpha c2) else alpha c1 in
    rgb_truecolor (fmin (fmax r $0) $255) (fmin (fmax g $0) $255) (fmin (fmax b $0) $255)
                  (fmin (fmax a $0) $255) (rgb_space c1))).
Definition add_rgb_deep_f (w1 w2 : F) (ia : bool) (c1 c2 : color) : outcome color :=
  with3 c1 (fun r1 g1 b1 => with3 c2 (fun r2 g2 b2 =>
    let r := add_root w1 w2 r1 r2 in
    let g := add_root w1 w2 g1 g2 in
    let b := add_root w1 w2 b1 b2 in
    let a := if ia then add_root w1 w2 (alpha c1) (alpha c2) else alpha c1 in
    rgb_deepcolor r g b a (rgb_space c1))).
Definition add_grey_true_f (w1 w2 : F) (ia : bool) (c1 c2 : color) : outcome color :=
  with1 c1 (fun g1 => with1 c2 (fun g2 =>
    let v := add_lin w1 w2 g1 g2 in
    let a := if ia then add_lin w1 w2 (alpha c1) (alpha c2) else alpha c1 in
    grey_truecolor (fmin (fmax v $0) $255) (fmin (fmax a $0) $255) (rgb_space c1))).
Definition add_grey_deep_f (w1 w2 : F) (ia : bool) (c1 c2 : color) : outcome color :=
  with1 c1 (fun g1 => with1 c2 (fun g2 =>
    let v := add_lin w1 w2 g1 g2 in
    let a := if ia then add_lin w1 w2 (alpha c1) (alpha c2) else alpha c1 in
    grey_deepcolor v a (rgb_space c1))).
Definition add_cmyk_f (w1 w2 : F) (ia : bool) (c1 c2 : color) : outcome color :=
  with4 c1 (fun x1 m1 y1 k1 => with4 c2 (fun x2 m2 y2 k2 =>
    let c := add_lin w1 w2 x1 x2 in
    let m := add_lin w1 w2 m1 m2 in
    let y := add_lin w1 w2 y1 y2 in
    let k := add_lin w1 w2 k1 k2 in
    let a := if ia then add_lin w1 w2 (alpha c1) (alpha c2) else alpha c1 in
    cmyk c m y k a (rgb_space c1))).
Definition add_hsv_f (w1 w2 : F) (ia : bool) (c1 c2 : color) : outcome color :=
  with3 c1 (fun h1 s1 v1 => with3 c2 (fun h2 s2 v2 =>
    let '(x1, y1, z1) := convert_to_vector h1 s1 v1 in
    let '(x2, y2, z2) := convert_to_vector h2 s2 v2 in
    let x := add_lin w1 w2 x1 x2 in
    let y := add_lin w1 w2 y1 y2 in
    let z := add_lin w1 w2 z1 z2 in
    let a := if ia then add_lin w1 w2 (alpha c1) (alpha c2) else alpha c1 in
    let '(h, s, v) := convert_from_vector (x, y, z) in
    hsv h s v a (rgb_space c1))).
(** The three overloads that add componentwise and construct with [mk]. *)
Definition add3_f (mk : F -> F -> F -> F -> option nat -> outcome color)
    (w1 w2 : F) (ia : bool) (c1 c2 : color) : outcome color :=
  with3 c1 (fun x1 y1 z1 => with3 c2 (fun x2 y2 z2 =>
    let x := add_lin w1 w2 x1 x2 in
    let y := add_lin w1 w2 y1 y2 in
    let z := add_lin w1 w2 z1 z2 in
    let a := if ia then add_lin w1 w2 (alpha c1) (alpha c2) else alpha c1 in
    mk x y z a (rgb_space c1))).

(** The weight checks of every add. *)
Definition check2 (w1 w2 : F) (k : M ptr) : M ptr :=
  if bad_weight w1 then throw_invalid else if bad_weight w2 then throw_invalid else k.

(** color_calculation.cpp:42-53 *)
Definition add_rgb_true (color1 color2 : ptr) (w1 w2 : F) (ia : bool) : M ptr :=
  check2 w1 w2 (new2 RGB_TRUE (add_rgb_true_f w1 w2 ia) color1 color2).
(** color_calculation.cpp:55-66 *)
Definition add_rgb_deep (color1 color2 : ptr) (w1 w2 : F) (ia : bool) : M ptr :=
  check2 w1 w2 (new2 RGB_DEEP (add_rgb_deep_f w1 w2 ia) color1 color2).
(** color_calculation.cpp:68-77 *)
Definition add_grey_true (color1 color2 : ptr) (w1 w2 : F) (ia : bool) : M ptr :=
  check2 w1 w2 (new2 GREY_TRUE (add_grey_true_f w1 w2 ia) color1 color2).
(** color_calculation.cpp:79-88 *)
Definition add_grey_deep (color1 color2 : ptr) (w1 w2 : F) (ia : bool) : M ptr :=
  check2 w1 w2 (new2 GREY_DEEP (add_grey_deep_f w1 w2 ia) color1 color2).
(** color_calculation.cpp:90-102 *)
Definition add_cmyk (color1 color2 : ptr) (w1 w2 : F) (ia : bool) : M ptr :=
  check2 w1 w2 (new2 CMYK (add_cmyk_f w1 w2 ia) color1 color2).
(** color_calculation.cpp:112-127 *)
Definition add_hsv (color1 color2 : ptr) (w1 w2 : F) (ia : bool) : M ptr :=
  check2 w1 w2 (new2 HSV (add_hsv_f w1 w2 ia) color1 color2).
(** color_calculation.cpp:104-110 *)
Definition add_hsi (color1 color2 : ptr) (w1 w2 : F) (ia : bool) : M ptr :=
  check2 w1 w2 (q <- both to_hsv (fun a b => add_hsv a b w1 w2 ia) color1 color2 ;; to_hsi q).
(** color_calculation.cpp:129-135 *)
Definition add_hsl (color1 color2 : ptr) (w1 w2 : F) (ia : bool) : M ptr :=
  check2 w1 w2 (q <- both to_hsv (fun a b => add_hsv a b w1 w2 ia) color1 color2 ;; to_hsl q).
(** color_calculation.cpp:137-143 *)
Definition add_hcy (color1 color2 : ptr) (w1 w2 : F) (ia : bool) : M ptr :=
  check2 w1 w2 (q <- both to_hsv (fun a b => add_hsv a b w1 w2 ia) color1 color2 ;; to_hcy q).
(** color_calculation.cpp:145-156 *)
Definition add_xyz (color1 color2 : ptr) (w1 w2 : F) (ia : bool) : M ptr :=
  check2 w1 w2 (new2 XYZ (add3_f xyz w1 w2 ia) color1 color2).
(** color_calculation.cpp:158-169 *)
Definition add_xyy (color1 color2 : ptr) (w1 w2 : F) (ia : bool) : M ptr :=
  check2 w1 w2 (new2 XYY (add3_f xyy w1 w2 ia) color1 color2).
(** color_calculation.cpp:171-182 *)
Definition add_cieluv (color1 color2 : ptr) (w1 w2 : F) (ia : bool) : M ptr :=
  check2 w1 w2 (new2 CIELUV (add3_f cieluv w1 w2 ia) color1 color2).
(** color_calculation.cpp:184-190 *)
Definition add_lab (color1 color2 : ptr) (w1 w2 : F) (ia : bool) : M ptr :=
  check2 w1 w2 (q <- both to_xyz (fun a b => add_xyz a b w1 w2 ia) color1 color2 ;; to_lab q).
(** color_calculation.cpp:192-198 *)
Definition add_lch_ab (color1 color2 : ptr) (w1 w2 : F) (ia : bool) : M ptr :=
  check2 w1 w2 (q <- both to_xyz (fun a b => add_xyz a b w1 w2 ia) color1 color2 ;; to_lch_ab q).
(** color_calculation.cpp:200-206 *)
Definition add_lch_uv (color1 color2 : ptr) (w1 w2 : F) (ia : bool) : M ptr :=
  check2 w1 w2 (q <- both to_xyz (fun a b => add_xyz a b w1 w2 ia) color1 color2 ;; to_lch_uv q).

(** color_calculation.cpp:4-40: the overload on color_base; the default branch of the switch returns nullptr *)
Definition add (color1 color2 : ptr) (w1 w2 : F) (ia : bool) : M ptr :=
  check2 w1 w2 (
  c <- load color1 ;;
  match ty c with
  | RGB_TRUE => both to_rgb_true (fun a b => add_rgb_true a b w1 w2 ia) color1 color2
  | RGB_DEEP => both to_rgb_deep (fun a b => add_rgb_deep a b w1 w2 ia) color1 color2
  | GREY_TRUE => both to_grey_true (fun a b => add_grey_true a b w1 w2 ia) color1 color2
  | GREY_DEEP => both to_grey_deep (fun a b => add_grey_deep a b w1 w2 ia) color1 color2
  | CMYK => both to_cmyk (fun a b => add_cmyk a b w1 w2 ia) color1 color2
  | HSV => both to_hsv (fun a b => add_hsv a b w1 w2 ia) color1 color2
  | HSL => both to_hsl (fun a b => add_hsl a b w1 w2 ia) color1 color2
  | XYZ => both to_xyz (fun a b => add_xyz a b w1 w2 ia) color1 color2
  | XYY => both to_xyy (fun a b => add_xyy a b w1 w2 ia) color1 color2
  | CIELUV => both to_cieluv (fun a b => add_cieluv a b w1 w2 ia) color1 color2
  | LAB => both to_lab (fun a b => add_lab a b w1 w2 ia) color1 color2
  | LCH_AB => both to_lch_ab (fun a b => add_lch_ab a b w1 w2 ia) color1 color2
  | LCH_UV => both to_lch_uv (fun a b => add_lch_uv a b w1 w2 ia) color1 color2
  | _ => ret None
  end).

(** ** mix *)

(** The weight check of the typed mix and subtract functions. *)
Definition check1 (w : F) (k : M ptr) : M ptr := if bad_weight w then throw_invalid else k.
(** The weight check of the mix and subtract overloads on color_base: [weight <= 0.f || weight > 1.f] *)
Definition check_strict (w : F) (k : M ptr) : M ptr := if (w <=? $0) || ($1 <? w) then throw_invalid else k.

(** color_calculation.cpp:241-244 *)
Definition mix_rgb_true (color1 color2 : ptr) (w : F) (ia : bool) : M ptr := add_rgb_true color1 color2 w ($1 - w) ia.
(** color_calculation.cpp:246-251 *)
Definition mix_rgb_deep (color1 color2 : ptr) (w : F) (ia : bool) : M ptr := check1 w (add_rgb_deep color1 color2 w ($1 - w) ia).
(** color_calculation.cpp:253-258 *)
Definition mix_grey_true (color1 color2 : ptr) (w : F) (ia : bool) : M ptr := check1 w (add_grey_true color1 color2 w ($1 - w) ia).
(** color_calculation.cpp:260-265 *)
Definition mix_grey_deep (color1 color2 : ptr) (w : F) (ia : bool) : M ptr := check1 w (add_grey_deep color1 color2 w ($1 - w) ia).
(** color_calculation.cpp:267-272 *)
Definition mix_cmyk (color1 color2 : ptr) (w : F) (ia : bool) : M ptr := check1 w (add_cmyk color1 color2 w ($1 - w) ia).
(** color_calculation.cpp:274-279 *)
Definition mix_hsi (color1 color2 : ptr) (w : F) (ia : bool) : M ptr := check1 w (add_hsi color1 color2 w ($1 - w) ia).
(** color_calculation.cpp:281-286 *)
Definition mix_hsv (color1 color2 : ptr) (w : F) (ia : bool) : M ptr := check1 w (add_hsv color1 color2 w ($1 - w) ia).
(** color_calculation.cpp:288-293 *)
Definition mix_hsl (color1 color2 : ptr) (w : F) (ia : bool) : M ptr := check1 w (add_hsl color1 color2 w ($1 - w) ia).
(** color_calculation.cpp:295-300 *)
Definition mix_hcy (color1 color2 : ptr) (w : F) (ia : bool) : M ptr := check1 w (add_hcy color1 color2 w ($1 - w) ia).
(** color_calculation.cpp:302-307 *)
Definition mix_xyz (color1 color2 : ptr) (w : F) (ia : bool) : M ptr := check1 w (add_xyz color1 color2 w ($1 - w) ia).
(** color_calculation.cpp:309-314 *)
Definition mix_xyy (color1 color2 : ptr) (w : F) (ia : bool) : M ptr := check1 w (add_xyy color1 color2 w ($1 - w) ia).
(** color_calculation.cpp:316-321 *)
Definition mix_cieluv (color1 color2 : ptr) (w : F) (ia : bool) : M ptr := check1 w (add_cieluv color1 color2 w ($1 - w) ia).
(** color_calculation.cpp:323-328 *)
Definition mix_lab (color1 color2 : ptr) (w : F) (ia : bool) : M ptr := check1 w (add_lab color1 color2 w ($1 - w) ia).
(** color_calculation.cpp:330-335 *)
Definition mix_lch_ab (color1 color2 : ptr) (w : F) (ia : bool) : M ptr := check1 w (add_lch_ab color1 color2 w ($1 - w) ia).
(** color_calculation.cpp:337-342 *)
Definition mix_lch_uv (color1 color2 : ptr) (w : F) (ia : bool) : M ptr := check1 w (add_lch_uv color1 color2 w ($1 - w) ia).
(** color_calculation.cpp:208-239 *)
Definition mix (color1 color2 : ptr) (w : F) (ia : bool) : M ptr :=
  check_strict w (
  c <- load color1 ;;
  match ty c with
  | RGB_TRUE => both to_rgb_true (fun a b => mix_rgb_true a b w ia) color1 color2
  | RGB_DEEP => both to_rgb_deep (fun a b => mix_rgb_deep a b w ia) color1 color2
  | GREY_TRUE => both to_grey_true (fun a b => mix_grey_true a b w ia) color1 color2
  | GREY_DEEP => both to_grey_deep (fun a b => mix_grey_deep a b w ia) color1 color2
  | CMYK => both to_cmyk (fun a b => mix_cmyk a b w ia) color1 color2
  | HSV => both to_hsv (fun a b => mix_hsv a b w ia) color1 color2
  | HSL => both to_hsl (fun a b => mix_hsl a b w ia) color1 color2
  | XYZ => both to_xyz (fun a b => mix_xyz a b w ia) color1 color2
  | LAB => both to_lab (fun a b => mix_lab a b w ia) color1 color2
  | LCH_AB => both to_lch_ab (fun a b => mix_lch_ab a b w ia) color1 color2
  | LCH_UV => both to_lch_uv (fun a b => mix_lch_uv a b w ia) color1 color2
  | _ => ret None
  end).

(** ** subtract *)

(** [a - weight * b] *)
Definition sub_lin (w a b : F) : F := a - w * b.

(** The constructed objects: the overloads on classes with three components ... *)
Definition sub3_f (mk : F -> F -> F -> F -> option nat -> outcome color)
    (w : F) (ia : bool) (c1 c2 : color) : outcome color :=
  with3 c1 (fun x1 y1 z1 => with3 c2 (fun x2 y2 z2 =>
    let x := sub_lin w x1 x2 in
    let y := sub_lin w y1 y2 in
    let z := sub_lin w z1 z2 in
    let a := if ia then sub_lin w (alpha c1) (alpha c2) else alpha c1 in
    mk x y z a (rgb_space c1))).
(** ... the greys ... *)
Definition sub1_f (mk : F -> F -> option nat -> outcome color)
    (w : F) (ia : bool) (c1 c2 : color) : outcome color :=
  with1 c1 (fun g1 => with1 c2 (fun g2 =>
    mk (sub_lin w g1 g2) (if ia then sub_lin w (alpha c1) (alpha c2) else alpha c1) (rgb_space c1))).
Definition sub_cmyk_f (w : F) (ia : bool) (c1 c2 : color) : outcome color :=
  with4 c1 (fun x1 m1 y1 k1 => with4 c2 (fun x2 m2 y2 k2 =>
    let c := sub_lin w x1 x2 in
    let m := sub_lin w m1 m2 in
    let y := sub_lin w y1 y2 in
    let k := sub_lin w k1 k2 in
    let a := if ia then sub_lin w (alpha c1) (alpha c2) else alpha c1 in
    cmyk c m y k a (rgb_space c1))).
Definition sub_hsv_f (w : F) (ia : bool) (c1 c2 : color) : outcome color :=
  with3 c1 (fun h1 s1 v1 => with3 c2 (fun h2 s2 v2 =>
    let '(x1, y1, z1) := convert_to_vector h1 s1 v1 in
    let '(x2, y2, z2) := convert_to_vector h2 s2 v2 in
    let x := sub_lin w x1 x2 in
    let y := sub_lin w y1 y2 in
    let z := sub_lin w z1 z2 in
    let '(h, s, v) := convert_from_vector (x, y, z) in
    let a := if ia then sub_lin w (alpha c1) (alpha c2) else alpha c1 in
    hsv h s v a (rgb_space c1))).

(** color_calculation.cpp:377-387 *)
Definition subtract_rgb_true (color1 color2 : ptr) (w : F) (ia : bool) : M ptr :=
  check1 w (new2 RGB_TRUE (sub3_f rgb_truecolor w ia) color1 color2).
(** color_calculation.cpp:389-399 *)
Definition subtract_rgb_deep (color1 color2 : ptr) (w : F) (ia : bool) : M ptr :=
  check1 w (new2 RGB_DEEP (sub3_f rgb_deepcolor w ia) color1 color2).
(** color_calculation.cpp:401-406 *)
Definition subtract_grey_true (color1 color2 : ptr) (w : F) (ia : bool) : M ptr :=
  check1 w (new2 GREY_TRUE (sub1_f grey_truecolor w ia) color1 color2).
(** color_calculation.cpp:408-413 *)
Definition subtract_grey_deep (color1 color2 : ptr) (w : F) (ia : bool) : M ptr :=
  check1 w (new2 GREY_DEEP (sub1_f grey_deepcolor w ia) color1 color2).
(** color_calculation.cpp:415-426 *)
Definition subtract_cmyk (color1 color2 : ptr) (w : F) (ia : bool) : M ptr :=
  check1 w (new2 CMYK (sub_cmyk_f w ia) color1 color2).
(** color_calculation.cpp:435-449 *)
Definition subtract_hsv (color1 color2 : ptr) (w : F) (ia : bool) : M ptr :=
  check1 w (new2 HSV (sub_hsv_f w ia) color1 color2).
(** color_calculation.cpp:428-433: the inner call leaves include_alpha at its default, false *)
Definition subtract_hsi (color1 color2 : ptr) (w : F) (ia : bool) : M ptr :=
  check1 w (q <- both to_hsv (fun a b => subtract_hsv a b w false) color1 color2 ;; to_hsi q).
(** color_calculation.cpp:451-456: the inner call leaves include_alpha at its default, false *)
Definition subtract_hsl (color1 color2 : ptr) (w : F) (ia : bool) : M ptr :=
  check1 w (q <- both to_hsv (fun a b => subtract_hsv a b w false) color1 color2 ;; to_hsl q).
(** color_calculation.cpp:458-463: the inner call leaves include_alpha at its default, false *)
Definition subtract_hcy (color1 color2 : ptr) (w : F) (ia : bool) : M ptr :=
  check1 w (q <- both to_hsv (fun a b => subtract_hsv a b w false) color1 color2 ;; to_hcy q).
(** color_calculation.cpp:465-475 *)
Definition subtract_xyz (color1 color2 : ptr) (w : F) (ia : bool) : M ptr :=
  check1 w (new2 XYZ (sub3_f xyz w ia) color1 color2).
(** color_calculation.cpp:477-487 *)
Definition subtract_xyy (color1 color2 : ptr) (w : F) (ia : bool) : M ptr :=
  check1 w (new2 XYY (sub3_f xyy w ia) color1 color2).
(** color_calculation.cpp:489-499 *)
Definition subtract_cieluv (color1 color2 : ptr) (w : F) (ia : bool) : M ptr :=
  check1 w (new2 CIELUV (sub3_f cieluv w ia) color1 color2).
(** color_calculation.cpp:501-506: the inner call leaves include_alpha at its default, false *)
Definition subtract_lab (color1 color2 : ptr) (w : F) (ia : bool) : M ptr :=
  check1 w (q <- both to_xyz (fun a b => subtract_xyz a b w false) color1 color2 ;; to_lab q).
(** color_calculation.cpp:508-513: the inner call leaves include_alpha at its default, false *)
Definition subtract_lch_ab (color1 color2 : ptr) (w : F) (ia : bool) : M ptr :=
  check1 w (q <- both to_xyz (fun a b => subtract_xyz a b w false) color1 color2 ;; to_lch_ab q).
(** color_calculation.cpp:515-520: the inner call leaves include_alpha at its default, false *)
Definition subtract_lch_uv (color1 color2 : ptr) (w : F) (ia : bool) : M ptr :=
  check1 w (q <- both to_xyz (fun a b => subtract_xyz a b w false) color1 color2 ;; to_lch_uv q).
(** color_calculation.cpp:344-375 *)
Definition subtract (color1 color2 : ptr) (w : F) (ia : bool) : M ptr :=
  check_strict w (
  c <- load color1 ;;
  match ty c with
  | RGB_TRUE => both to_rgb_true (fun a b => subtract_rgb_true a b w ia) color1 color2
  | RGB_DEEP => both to_rgb_deep (fun a b => subtract_rgb_deep a b w ia) color1 color2
  | GREY_TRUE => both to_grey_true (fun a b => subtract_grey_true a b w ia) color1 color2
  | GREY_DEEP => both to_grey_deep (fun a b => subtract_grey_deep a b w ia) color1 color2
  | CMYK => both to_cmyk (fun a b => subtract_cmyk a b w ia) color1 color2
  | HSV => both to_hsv (fun a b => subtract_hsv a b w ia) color1 color2
  | HSL => both to_hsl (fun a b => subtract_hsl a b w ia) color1 color2
  | XYZ => both to_xyz (fun a b => subtract_xyz a b w ia) color1 color2
  | LAB => both to_lab (fun a b => subtract_lab a b w ia) color1 color2
  | LCH_AB => both to_lch_ab (fun a b => subtract_lch_ab a b w ia) color1 color2
  | LCH_UV => both to_lch_uv (fun a b => subtract_lch_uv a b w ia) color1 color2
  | _ => ret None
  end).

(** ** average_*

    [sums] are the components of the local array [sum], the last one belonging to alpha. *)

(** The for loop over [colors]; [step] is the loop body on the array. *)
Fixpoint sum_loop {S : Type} (T : ctype) (step : S -> color -> outcome S) (colors : list ptr) (sums : S) : M S :=
  match colors with
  | [] => ret sums
  | p :: rest => c <- load_as T p ;; s <- lift (step sums c) ;; sum_loop T step rest s
  end.

(** Loop body for one, three and four components; [a0] is colors[0]->alpha(). *)
Definition sum1 (ia : bool) (a0 : F) (s : F * F) (c : color) : outcome (F * F) :=
  with1 c (fun x => let '(s0, s1) := s in Ok (s0 + x, if ia then s1 + alpha c else a0)).
Definition sum3 (ia : bool) (a0 : F) (s : F * F * F * F) (c : color) : outcome (F * F * F * F) :=
  with3 c (fun x y z => let '(s0, s1, s2, s3) := s in
    Ok (s0 + x, s1 + y, s2 + z, if ia then s3 + alpha c else a0)).
(** color_calculation.cpp:589: the alpha sum of average_cmyk is computed from sum[3], the
    already updated sum of the black components. *)
Definition sum_cmyk (ia : bool) (a0 : F) (s : F * F * F * F * F) (c : color) : outcome (F * F * F * F * F) :=
  with4 c (fun x y z k => let '(s0, s1, s2, s3, s4) := s in
    let s3' := s3 + k in
    Ok (s0 + x, s1 + y, s2 + z, s3', if ia then s3' + alpha c else a0)).

(** The bodies of the average functions; [size] is colors.size() converted to float. *)
Definition average1 (T : ctype) (mk : F -> F -> option nat -> outcome color) (colors : list ptr) (ia : bool) : M ptr :=
  match colors with
  | [] => throw_invalid
  | p0 :: _ =>
      c0 <- load_as T p0 ;;
      s <- sum_loop T (sum1 ia (alpha c0)) colors ($0, $0) ;;
      let size := fofZ (Z.of_nat (length colors)) in
      let '(s0, s1) := s in
      r <- lift (mk (s0 / size) (if ia then s1 / size else s1) (rgb_space c0)) ;; alloc r
  end.
Definition average3 (T : ctype) (mk : F -> F -> F -> F -> option nat -> outcome color) (colors : list ptr) (ia : bool) : M ptr :=
  match colors with
  | [] => throw_invalid
  | p0 :: _ =>
      c0 <- load_as T p0 ;;
      s <- sum_loop T (sum3 ia (alpha c0)) colors ($0, $0, $0, $0) ;;
      let size := fofZ (Z.of_nat (length colors)) in
      let '(s0, s1, s2, s3) := s in
      r <- lift (mk (s0 / size) (s1 / size) (s2 / size) (if ia then s3 / size else s3) (rgb_space c0)) ;; alloc r
  end.

(** color_calculation.cpp:522-535 *)
Definition average_rgb_true : list ptr -> bool -> M ptr := average3 RGB_TRUE rgb_truecolor.
(** color_calculation.cpp:537-550 *)
Definition average_rgb_deep : list ptr -> bool -> M ptr := average3 RGB_DEEP rgb_deepcolor.
(** color_calculation.cpp:552-563 *)
Definition average_grey_true : list ptr -> bool -> M ptr := average1 GREY_TRUE grey_truecolor.
(** color_calculation.cpp:565-576 *)
Definition average_grey_deep : list ptr -> bool -> M ptr := average1 GREY_DEEP grey_deepcolor.
(** color_calculation.cpp:578-592 *)
Definition average_cmyk (colors : list ptr) (ia : bool) : M ptr :=
  match colors with
  | [] => throw_invalid
  | p0 :: _ =>
      c0 <- load_as CMYK p0 ;;
      s <- sum_loop CMYK (sum_cmyk ia (alpha c0)) colors ($0, $0, $0, $0, $0) ;;
      let size := fofZ (Z.of_nat (length colors)) in
      let '(s0, s1, s2, s3, s4) := s in
      r <- lift (cmyk (s0 / size) (s1 / size) (s2 / size) (s3 / size) (if ia then s4 / size else s4) (rgb_space c0)) ;; alloc r
  end.
(** color_calculation.cpp:594-607 *)
Definition average_hsi : list ptr -> bool -> M ptr := average3 HSI hsi.
(** color_calculation.cpp:609-622 *)
Definition average_hsv : list ptr -> bool -> M ptr := average3 HSV hsv.
(** color_calculation.cpp:624-637 *)
Definition average_hsl : list ptr -> bool -> M ptr := average3 HSL hsl.
(** color_calculation.cpp:639-652 *)
Definition average_hcy : list ptr -> bool -> M ptr := average3 HCY hcy.
(** color_calculation.cpp:654-667 *)
Definition average_xyz : list ptr -> bool -> M ptr := average3 XYZ xyz.
(** color_calculation.cpp:669-682 *)
Definition average_xyy : list ptr -> bool -> M ptr := average3 XYY xyy.
(** color_calculation.cpp:684-697 *)
Definition average_cieluv : list ptr -> bool -> M ptr := average3 CIELUV cieluv.
(** color_calculation.cpp:699-712 *)
Definition average_lab : list ptr -> bool -> M ptr := average3 LAB lab.
(** color_calculation.cpp:714-727 *)
Definition average_lch_ab : list ptr -> bool -> M ptr := average3 LCH_AB lch_ab.
(** color_calculation.cpp:729-742 *)
Definition average_lch_uv : list ptr -> bool -> M ptr := average3 LCH_UV lch_uv.

End Calculation.
