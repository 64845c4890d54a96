(** * manipulation/color_converter.cpp

    The leaf conversions (those with a formula of their own) come first, then the
    composed conversions and the dispatchers, which were transcribed from the source
    one definition per C++ function. *)
From Coq Require Import ZArith QArith List Bool.
From Verif Require Import Arith Outcome ColorModel GammaModel MatrixModel SpaceModel Heap.
Import ListNotations.
Local Open Scope fl_scope.
Local Open Scope monad_scope.

Section Converter.
Context {F : Type} {AF : Arith F}.
Local Notation color := (color F).
Local Notation M := (M F).
Local Notation "$ n" := (fz n%Z) (at level 1, n at level 0, format "$ n").

(** ** Helpers *)

(** color_converter.cpp:1356-1370 hue_from_rgb_helper *)
Definition hue_from_rgb_helper (red green blue mx mn delta : F) : F :=
  if mx ==? red then $60 * ffmod ((green - blue) / delta) $6
  else if mx ==? green then $60 * (((blue - red) / delta) + $2)
  else $60 * (((red - green) / delta) + $4).

(** color_converter.cpp:1372-1376 hsv_to_rgb_helper *)
Definition hsv_to_rgb_helper (hue saturation value n : F) : F :=
  let k := ffmod (n + hue / $60) $6 in
  value - value * saturation * fmax (fmin k (fmin ($4 - k) $1)) $0.

(** color_converter.cpp:1401-1407 hsl_to_rgb_helper (the overload in use) *)
Definition hsl_to_rgb_helper (hue saturation lightness n : F) : F :=
  let k := ffmod (n + hue / $30) $12 in
  let a := saturation * fmin lightness ($1 - lightness) in
  lightness - a * fmax (fmin (k - $3) (fmin ($9 - k) $1)) ($(-1)).

(** [216.f / 24389.f] and [24389.f / 27.f] *)
Definition lab_epsilon : F := $216 / $24389.
Definition lab_kappa : F := $24389 / $27.

(** color_converter.cpp:1409-1412 xyz_to_lab_helper; N_ROOT(x, 3.f) is powf(x, 1.f / 3.f) (line 4) *)
Definition n_root3 (x : F) : F := fpow x ($1 / $3).
Definition xyz_to_lab_helper (t : F) : F :=
  if lab_epsilon <? t then n_root3 t else (lab_kappa * t + $16) / $116.

(** color_converter.cpp:1414-1442 lab_to_xyz_helper *)
Definition lab_to_xyz_helper (t : F) (out_y_component : bool) : F :=
  if out_y_component then
    if lab_epsilon * lab_kappa <? t then fpow ((t + $16) / $116) $3 else t / lab_kappa
  else
    let component := fpow t $3 in
    if lab_epsilon <? component then component else ($116 * t - $16) / lab_kappa.

(** color_converter.cpp:1450-1453 clamp_float *)
Definition clamp_float (v mn mx : F) : F := fmin (fmax v mn) mx.

(** color_converter.cpp:1455-1460 transform_range *)
Definition transform_range (value old_min old_max new_min new_max : F) : F :=
  let old_range := old_max - old_min in
  let new_range := new_max - new_min in
  (((value - old_min) * new_range) / old_range) + new_min.

(** ** Leaf conversions: the constructed object as a function of the source object *)

(** color_converter.cpp:41-44 *)
Definition rgb_true_to_rgb_deep_f (c : color) : outcome color :=
  with3 c (fun r g b =>
    rgb_deepcolor (r / $255) (g / $255) (b / $255) (alpha c / $255) (rgb_space c)).

(** color_converter.cpp:46-50 *)
Definition rgb_true_to_grey_true_f (c : color) : outcome color :=
  with3 c (fun r g b => grey_truecolor (((r + g) + b) / $3) (alpha c) (rgb_space c)).

(** color_converter.cpp:113-116 *)
Definition rgb_deep_to_rgb_true_f (c : color) : outcome color :=
  with3 c (fun r g b =>
    rgb_truecolor (fround (r * $255)) (fround (g * $255)) (fround (b * $255))
                  (fround (alpha c * $255)) (rgb_space c)).

(** color_converter.cpp:123-127 *)
Definition rgb_deep_to_grey_deep_f (c : color) : outcome color :=
  with3 c (fun r g b => grey_deepcolor (((r + g) + b) / $3) (alpha c) (rgb_space c)).

(** color_converter.cpp:129-136 *)
Definition rgb_deep_to_cmyk_f (c : color) : outcome color :=
  with3 c (fun r g b =>
    let k := $1 - fmax (fmax r g) b in
    cmyk (($1 - r - k) / ($1 - k)) (($1 - g - k) / ($1 - k)) (($1 - b - k) / ($1 - k)) k
         (alpha c) (rgb_space c)).

(** color_converter.cpp:138-154 *)
Definition rgb_deep_to_hsi_f (c : color) : outcome color :=
  with3 c (fun r g b =>
    let mn := fmin (fmin r g) b in
    let mx := fmax (fmax r g) b in
    if mx ==? mn then hsi $0 $0 mn (alpha c) (rgb_space c)
    else
      let delta := mx - mn in
      let hue := hue_from_rgb_helper r g b mx mn delta in
      let intensity := ((r + g) + b) / $3 in
      let saturation := $1 - (mn / intensity) in
      hsi hue saturation intensity (alpha c) (rgb_space c)).

(** color_converter.cpp:156-172 *)
Definition rgb_deep_to_hsv_f (c : color) : outcome color :=
  with3 c (fun r g b =>
    let mn := fmin (fmin r g) b in
    let mx := fmax (fmax r g) b in
    if mx ==? mn then hsv $0 $0 mn (alpha c) (rgb_space c)
    else
      let delta := mx - mn in
      let hue := hue_from_rgb_helper r g b mx mn delta in
      let value := mx in
      let saturation := delta / value in
      hsv hue saturation value (alpha c) (rgb_space c)).

(** color_converter.cpp:174-190 *)
Definition rgb_deep_to_hsl_f (c : color) : outcome color :=
  with3 c (fun r g b =>
    let mn := fmin (fmin r g) b in
    let mx := fmax (fmax r g) b in
    if mx ==? mn then hsl $0 $0 mn (alpha c) (rgb_space c)
    else
      let delta := mx - mn in
      let lightness := lit (1 # 2) * (mx + mn) in
      let hue := hue_from_rgb_helper r g b mx mn delta in
      let saturation :=
        if (lightness ==? $0) || (lightness ==? $1) then $0
        else delta / ($1 - fabs ($2 * lightness - $1)) in
      hsl hue saturation lightness (alpha c) (rgb_space c)).

(** The Rec. 709 luma weights 0.2126f, 0.7152f, 0.0722f *)
Definition luma_r : F := lit (2126 # 10000).
Definition luma_g : F := lit (7152 # 10000).
Definition luma_b : F := lit (722 # 10000).

(** color_converter.cpp:192-212 *)
Definition rgb_deep_to_hcy_f (c : color) : outcome color :=
  with3 c (fun r g b =>
    let mn := fmin (fmin r g) b in
    let mx := fmax (fmax r g) b in
    if mx ==? mn then hcy $0 $0 mn (alpha c) (rgb_space c)
    else
      let chroma := mx - mn in
      let hue := hue_from_rgb_helper r g b mx mn chroma in
      let luma := luma_r * r + luma_g * g + luma_b * b in
      hcy hue chroma luma (alpha c) (rgb_space c)).

(** color_converter.cpp:247-250 *)
Definition grey_true_to_rgb_true_f (c : color) : outcome color :=
  with1 c (fun g => rgb_truecolor1 g (alpha c) (rgb_space c)).
(** color_converter.cpp:252-255 *)
Definition grey_true_to_rgb_deep_f (c : color) : outcome color :=
  with1 c (fun g => rgb_deepcolor1 (g / $255) (alpha c / $255) (rgb_space c)).
(** color_converter.cpp:257-260 *)
Definition grey_true_to_grey_deep_f (c : color) : outcome color :=
  with1 c (fun g => grey_deepcolor (g / $255) (alpha c / $255) (rgb_space c)).
(** color_converter.cpp:317-320 *)
Definition grey_deep_to_rgb_true_f (c : color) : outcome color :=
  with1 c (fun g => rgb_truecolor1 (fround (g * $255)) (fround (alpha c * $255)) (rgb_space c)).
(** color_converter.cpp:322-325 *)
Definition grey_deep_to_rgb_deep_f (c : color) : outcome color :=
  with1 c (fun g => rgb_deepcolor1 g (alpha c) (rgb_space c)).
(** color_converter.cpp:327-330 *)
Definition grey_deep_to_grey_true_f (c : color) : outcome color :=
  with1 c (fun g => grey_truecolor (fround (g * $255)) (fround (alpha c * $255)) (rgb_space c)).

(** color_converter.cpp:392-398 *)
Definition cmyk_to_rgb_deep_f (c : color) : outcome color :=
  with4 c (fun cy m y k =>
    rgb_deepcolor (($1 - cy) * ($1 - k)) (($1 - m) * ($1 - k)) (($1 - y) * ($1 - k))
                  (alpha c) (rgb_space c)).

(** color_converter.cpp:478-484: the sector table of hsi_to_rgb_deep *)
Definition hsi_sector (h_temp chroma x : F) : F * F * F :=
  if fge h_temp $0 && fle h_temp $1 then (chroma, x, $0)
  else if fgt h_temp $1 && fle h_temp $2 then (x, chroma, $0)
  else if fgt h_temp $2 && fle h_temp $3 then ($0, chroma, x)
  else if fgt h_temp $3 && fle h_temp $4 then ($0, x, chroma)
  else if fgt h_temp $4 && fle h_temp $5 then (x, $0, chroma)
  else if fgt h_temp $5 && fle h_temp $6 then (chroma, $0, x)
  else ($0, $0, $0).

(** color_converter.cpp:465-487 *)
Definition hsi_to_rgb_deep_f (c : color) : outcome color :=
  with3 c (fun h s i =>
    if s ==? $0 then rgb_deepcolor1 i (alpha c) (rgb_space c)
    else
      let h_temp := h / $60 in
      let Z := $1 - fabs (ffmod h_temp $2 - $1) in
      let chroma := (($3 * i) * s) / ($1 + Z) in
      let x := chroma * Z in
      let '(r, g, b) := hsi_sector h_temp chroma x in
      rgb_deepcolor r g b (alpha c) (rgb_space c)).

(** color_converter.cpp:554-578 *)
Definition hsv_to_rgb_deep_f (c : color) : outcome color :=
  with3 c (fun h s v =>
    rgb_deepcolor (hsv_to_rgb_helper h s v $5) (hsv_to_rgb_helper h s v $3)
                  (hsv_to_rgb_helper h s v $1) (alpha c) (rgb_space c)).

(** color_converter.cpp:601-608 *)
Definition hsv_to_hsl_f (c : color) : outcome color :=
  with3 c (fun h sat v =>
    let l := ($2 - sat) * v in
    let s := sat * v in
    let s := s / (if l <=? $1 then l else $2 - l) in
    let l := l / $2 in
    hsl h s l (alpha c) (rgb_space c)).

(** color_converter.cpp:650-680 *)
Definition hsl_to_rgb_deep_f (c : color) : outcome color :=
  with3 c (fun h s l =>
    if l ==? $0 then rgb_deepcolor1 $0 $0 (rgb_space c)
    else rgb_deepcolor (hsl_to_rgb_helper h s l $0) (hsl_to_rgb_helper h s l $8)
                       (hsl_to_rgb_helper h s l $4) (alpha c) (rgb_space c)).

(** color_converter.cpp:702-709.  Line 705 parses as
    [(saturation * (l_temp <= 1)) ? l_temp : (2 - l_temp)]. *)
Definition hsl_to_hsv_f (c : color) : outcome color :=
  with3 c (fun h sat l =>
    let l_temp := l * $2 in
    let m_sat := if negb (sat * (if l_temp <=? $1 then $1 else $0) ==? $0) then l_temp
                 else $2 - l_temp in
    let v := (l_temp + m_sat) / $2 in
    let s := ($2 * m_sat) / (l_temp + m_sat) in
    hsv h s v (alpha c) (rgb_space c)).

(** color_converter.cpp:751-771.  The variable tmp_chroma (lines 758-766) is never
    read; it is omitted. *)
Definition hcy_to_rgb_deep_f (c : color) : outcome color :=
  with3 c (fun h chroma luma =>
    let unit_hue := h / $360 in
    let r := clamp_float (fabs (unit_hue * $6 - $3) - $1) $0 $1 in
    let g := clamp_float ($2 - fabs (unit_hue * $6 - $2)) $0 $1 in
    let b := clamp_float ($2 - fabs (unit_hue * $6 - $4)) $0 $1 in
    let Y := (r * luma_r + g * luma_g) + b * luma_b in
    rgb_deepcolor ((r - Y) * chroma + luma) ((g - Y) * chroma + luma) ((b - Y) * chroma + luma)
                  (alpha c) (rgb_space c)).

(** color_converter.cpp:899-920 (note: y_temp is computed from x(), v_w_temp with
    factor 4, exactly as in the source) *)
Definition xyz_to_cieluv_f (c : color) (w : white_point F) : outcome color :=
  with3 c (fun x y z =>
    let y_temp := x / ty_ w in
    let u_temp := ($4 * x) / (x + $15 * y + $3 * z) in
    let v_temp := ($9 * y) / (x + $15 * y + $3 * z) in
    let u_w_temp := ($4 * tx w) / (tx w + $15 * ty_ w + $3 * tz w) in
    let v_w_temp := ($4 * ty_ w) / (tx w + $15 * ty_ w + $3 * tz w) in
    let L := if fgt y_temp (lit (8856 # 1000000)) then $116 * n_root3 y_temp - $16
             else lit (9033 # 10) * y_temp in
    let u := ($13 * L) * (u_temp - u_w_temp) in
    let v := ($13 * L) * (v_temp - v_w_temp) in
    cieluv L u v (alpha c) (rgb_space c)).

(** color_converter.cpp:922-935 *)
Definition xyz_to_lab_f (c : color) (w : white_point F) : outcome color :=
  with3 c (fun x y z =>
    let func_x := xyz_to_lab_helper (x / tx w) in
    let func_y := xyz_to_lab_helper (y / ty_ w) in
    let func_z := xyz_to_lab_helper (z / tz w) in
    let l := $116 * func_y - $16 in
    let a := $500 * (func_x - func_y) in
    let b := $200 * (func_y - func_z) in
    let! o := lab l a b $0 (rgb_space c) in
    Ok (alpha_set o (alpha c))).

(** color_converter.cpp:992-1003 *)
Definition xyy_to_xyz_f (c : color) : outcome color :=
  with3 c (fun x y Y =>
    if y ==? $0 then xyz $0 $0 $0 (alpha c) (rgb_space c)
    else
      let X := (x * Y) / y in
      let z := (($1 - x - y) * Y) / y in
      xyz X Y z (alpha c) (rgb_space c)).

(** color_converter.cpp:1070-1091 *)
Definition cieluv_to_xyz_f (c : color) (w : white_point F) : outcome color :=
  with3 c (fun L u v =>
    let u_temp := ($4 * tx w) / (tx w + $15 * ty_ w + $3 * tz w) in
    let v_temp := ($9 * ty_ w) / (tx w + $15 * ty_ w + $3 * tz w) in
    let Y := if fgt L (lit (9033 # 10) * lit (8856 # 1000000)) then fpow ((L + $16) / $116) $3
             else L / lit (9033 # 10) in
    let a := ($1 / $3) * (($52 * L) / (u + ($13 * L) * u_temp) - $1) in
    let b := ($(-5)) * Y in
    let cc := ($(-1)) / $3 in
    let d := Y * (($39 * L) / (v + ($13 * L) * v_temp) - $5) in
    let X := (d - b) / (a - cc) in
    let Z := X * a + b in
    xyz X Y Z (alpha c) (rgb_space c)).

(** color_converter.cpp:1108-1118 *)
Definition cieluv_to_lch_uv_f (c : color) : outcome color :=
  with3 c (fun L u v =>
    let chroma := fsqrt (fpow u $2 + fpow v $2) in
    let chroma := transform_range chroma (m_min c) (m_max c) $0 $100 in
    let hue := fatan2 v u in
    let hue := if hue <? $0 then hue + $360 else hue in
    let! o := lch_uv L chroma hue $0 (rgb_space c) in
    Ok (alpha_set o (alpha c))).

(** color_converter.cpp:1165-1175 *)
Definition lab_to_xyz_f (c : color) (w : white_point F) : outcome color :=
  with3 c (fun l a b =>
    let f_y := (l + $16) / $116 in
    let y_temp := lab_to_xyz_helper l true in
    let x_temp := lab_to_xyz_helper (a / $500 + f_y) false in
    let z_temp := lab_to_xyz_helper (f_y - b / $200) false in
    let! o := xyz (x_temp * tx w) (y_temp * ty_ w) (z_temp * tz w) $0 (rgb_space c) in
    Ok (alpha_set o (alpha c))).

(** color_converter.cpp:1187-1197 *)
Definition lab_to_lch_ab_f (c : color) : outcome color :=
  with3 c (fun l a b =>
    let chroma := fsqrt (fpow a $2 + fpow b $2) in
    let chroma := transform_range chroma (m_min c) (m_max c) $0 $100 in
    let hue := fatan2 b a in
    let hue := if hue <? $0 then hue + $360 else hue in
    let! o := lch_ab l chroma hue $0 (rgb_space c) in
    Ok (alpha_set o (alpha c))).

(** color_converter.cpp:1264-1273 *)
Definition lch_ab_to_lab_f (c : color) : outcome color :=
  with3 c (fun l chroma hue =>
    let h_rad := fradians hue in
    let! o := lab l (chroma * fcos h_rad) (chroma * fsin h_rad) $0 (rgb_space c) in
    Ok (alpha_set o (alpha c))).

(** color_converter.cpp:1335-1344 *)
Definition lch_uv_to_cieluv_f (c : color) : outcome color :=
  with3 c (fun l chroma hue =>
    let h_rad := fradians hue in
    let! o := cieluv l (chroma * fcos h_rad) (chroma * fsin h_rad) $0 (rgb_space c) in
    Ok (alpha_set o (alpha c))).

(** ** The conversion functions on pointers *)

(** A conversion [new Y(... fields of *color ...)] of an argument of class [T]. *)
Definition leaf (T : ctype) (f : color -> outcome color) (p : ptr) : M ptr :=
  c <- load_as T p ;; r <- lift (f c) ;; alloc r.
(** The same when the white point of the colour's RGB space is read as well. *)
Definition leaf_white (T : ctype) (f : color -> white_point F -> outcome color) (p : ptr) : M ptr :=
  c <- load_as T p ;; w <- load_white c ;; r <- lift (f c w) ;; alloc r.

(** color_converter.cpp:41-44 *)
Definition rgb_true_to_rgb_deep : ptr -> M ptr := leaf RGB_TRUE rgb_true_to_rgb_deep_f.

(** color_converter.cpp:46-50 *)
Definition rgb_true_to_grey_true : ptr -> M ptr := leaf RGB_TRUE rgb_true_to_grey_true_f.

(** color_converter.cpp:113-116 *)
Definition rgb_deep_to_rgb_true : ptr -> M ptr := leaf RGB_DEEP rgb_deep_to_rgb_true_f.

(** color_converter.cpp:123-127 *)
Definition rgb_deep_to_grey_deep : ptr -> M ptr := leaf RGB_DEEP rgb_deep_to_grey_deep_f.

(** color_converter.cpp:129-136 *)
Definition rgb_deep_to_cmyk : ptr -> M ptr := leaf RGB_DEEP rgb_deep_to_cmyk_f.

(** color_converter.cpp:138-154 *)
Definition rgb_deep_to_hsi : ptr -> M ptr := leaf RGB_DEEP rgb_deep_to_hsi_f.

(** color_converter.cpp:156-172 *)
Definition rgb_deep_to_hsv : ptr -> M ptr := leaf RGB_DEEP rgb_deep_to_hsv_f.

(** color_converter.cpp:174-190 *)
Definition rgb_deep_to_hsl : ptr -> M ptr := leaf RGB_DEEP rgb_deep_to_hsl_f.

(** color_converter.cpp:192-212 *)
Definition rgb_deep_to_hcy : ptr -> M ptr := leaf RGB_DEEP rgb_deep_to_hcy_f.

(** color_converter.cpp:247-250 *)
Definition grey_true_to_rgb_true : ptr -> M ptr := leaf GREY_TRUE grey_true_to_rgb_true_f.

(** color_converter.cpp:252-255 *)
Definition grey_true_to_rgb_deep : ptr -> M ptr := leaf GREY_TRUE grey_true_to_rgb_deep_f.

(** color_converter.cpp:257-260 *)
Definition grey_true_to_grey_deep : ptr -> M ptr := leaf GREY_TRUE grey_true_to_grey_deep_f.

(** color_converter.cpp:317-320 *)
Definition grey_deep_to_rgb_true : ptr -> M ptr := leaf GREY_DEEP grey_deep_to_rgb_true_f.

(** color_converter.cpp:322-325 *)
Definition grey_deep_to_rgb_deep : ptr -> M ptr := leaf GREY_DEEP grey_deep_to_rgb_deep_f.

(** color_converter.cpp:327-330 *)
Definition grey_deep_to_grey_true : ptr -> M ptr := leaf GREY_DEEP grey_deep_to_grey_true_f.

(** color_converter.cpp:392-398 *)
Definition cmyk_to_rgb_deep : ptr -> M ptr := leaf CMYK cmyk_to_rgb_deep_f.

(** color_converter.cpp:465-487 *)
Definition hsi_to_rgb_deep : ptr -> M ptr := leaf HSI hsi_to_rgb_deep_f.

(** color_converter.cpp:554-578 *)
Definition hsv_to_rgb_deep : ptr -> M ptr := leaf HSV hsv_to_rgb_deep_f.

(** color_converter.cpp:601-608 *)
Definition hsv_to_hsl : ptr -> M ptr := leaf HSV hsv_to_hsl_f.

(** color_converter.cpp:650-680 *)
Definition hsl_to_rgb_deep : ptr -> M ptr := leaf HSL hsl_to_rgb_deep_f.

(** color_converter.cpp:702-709 *)
Definition hsl_to_hsv : ptr -> M ptr := leaf HSL hsl_to_hsv_f.

(** color_converter.cpp:751-771 *)
Definition hcy_to_rgb_deep : ptr -> M ptr := leaf HCY hcy_to_rgb_deep_f.

(** color_converter.cpp:899-920 *)
Definition xyz_to_cieluv : ptr -> M ptr := leaf_white XYZ xyz_to_cieluv_f.

(** color_converter.cpp:922-935 *)
Definition xyz_to_lab : ptr -> M ptr := leaf_white XYZ xyz_to_lab_f.

(** color_converter.cpp:992-1003 *)
Definition xyy_to_xyz : ptr -> M ptr := leaf XYY xyy_to_xyz_f.

(** color_converter.cpp:1070-1091 *)
Definition cieluv_to_xyz : ptr -> M ptr := leaf_white CIELUV cieluv_to_xyz_f.

(** color_converter.cpp:1108-1118 *)
Definition cieluv_to_lch_uv : ptr -> M ptr := leaf CIELUV cieluv_to_lch_uv_f.

(** color_converter.cpp:1165-1175 *)
Definition lab_to_xyz : ptr -> M ptr := leaf_white LAB lab_to_xyz_f.

(** color_converter.cpp:1187-1197 *)
Definition lab_to_lch_ab : ptr -> M ptr := leaf LAB lab_to_lch_ab_f.

(** color_converter.cpp:1264-1273 *)
Definition lch_ab_to_lab : ptr -> M ptr := leaf LCH_AB lch_ab_to_lab_f.

(** color_converter.cpp:1335-1344 *)
Definition lch_uv_to_cieluv : ptr -> M ptr := leaf LCH_UV lch_uv_to_cieluv_f.

(** color_converter.cpp:52-56: the intermediate grey_truecolor is copied to the stack *)
Definition rgb_true_to_grey_deep (p : ptr) : M ptr :=
  q <- rgb_true_to_grey_true p ;;
  g0 <- load_as GREY_TRUE q ;;
  let grey_true := copy_ctor GREY_TRUE g0 in
  c <- load_as RGB_TRUE p ;;
  r <- lift (with1 grey_true (fun g => grey_deepcolor (g / $255) (alpha grey_true / $255) (rgb_space c))) ;;
  alloc r.

(** color_converter.cpp:214-220: the argument itself is linearised in place *)
Definition rgb_deep_to_xyz (p : ptr) : M ptr :=
  c <- load_as RGB_DEEP p ;;
  c' <- do_inverse_gamma_correction c ;;
  store p c' ;;;
  s <- load_space (rgb_space c') ;;
  v <- lift (mulvec (s_matrix s) (comps c')) ;;
  match v with
  | x :: y :: z :: _ => r <- lift (xyz x y z (alpha c') (rgb_space c')) ;; alloc r
  | _ => lift Undef
  end.

(** color_converter.cpp:838-848 *)
Definition xyz_to_rgb_deep (p : ptr) : M ptr :=
  c <- load_as XYZ p ;;
  s <- load_space (rgb_space c) ;;
  v <- lift (mulvec (s_inverse s) (comps c)) ;;
  match v with
  | x :: y :: z :: _ =>
      d <- lift (rgb_deepcolor x y z (alpha c) (rgb_space c)) ;;
      q <- alloc d ;;
      d <- lift (with3 d (fun r _ _ => named_set RGB_DEEP d (clamp_float r $0 $1) 0)) ;;
      d <- lift (with3 d (fun _ g _ => named_set RGB_DEEP d (clamp_float g $0 $1) 1)) ;;
      d <- lift (with3 d (fun _ _ b => named_set RGB_DEEP d (clamp_float b $0 $1) 2)) ;;
      d <- do_gamma_correction d ;;
      store q d ;;;
      ret q
  | _ => lift Undef
  end.

(** color_converter.cpp:885-897 *)
Definition xyz_to_xyy (p : ptr) : M ptr :=
  c <- load_as XYZ p ;;
  match comps c with
  | [x; y; z] =>
      if (x ==? $0) && (y ==? $0) && (z ==? $0) then
        w <- load_white c ;;
        r <- lift (xyy (cx w) (cy w) y (alpha c) (rgb_space c)) ;; alloc r
      else
        r <- lift (xyy (x / ((x + y) + z)) (y / ((x + y) + z)) y (alpha c) (rgb_space c)) ;; alloc r
  | _ => lift Undef
  end.

(** ** Composed conversions *)

(** color_converter.cpp:58-61 *)
Definition rgb_true_to_cmyk (color : ptr) : M ptr := q <- rgb_true_to_rgb_deep color ;; rgb_deep_to_cmyk q.

(** color_converter.cpp:63-66 *)
Definition rgb_true_to_hsi (color : ptr) : M ptr := q <- rgb_true_to_rgb_deep color ;; rgb_deep_to_hsi q.

(** color_converter.cpp:68-71 *)
Definition rgb_true_to_hsv (color : ptr) : M ptr := q <- rgb_true_to_rgb_deep color ;; rgb_deep_to_hsv q.

(** color_converter.cpp:73-76 *)
Definition rgb_true_to_hsl (color : ptr) : M ptr := q <- rgb_true_to_rgb_deep color ;; rgb_deep_to_hsl q.

(** color_converter.cpp:78-81 *)
Definition rgb_true_to_hcy (color : ptr) : M ptr := q <- rgb_true_to_rgb_deep color ;; rgb_deep_to_hcy q.

(** color_converter.cpp:83-86 *)
Definition rgb_true_to_xyz (color : ptr) : M ptr := q <- rgb_true_to_rgb_deep color ;; rgb_deep_to_xyz q.

(** color_converter.cpp:88-91 *)
Definition rgb_true_to_xyy (color : ptr) : M ptr := q <- rgb_true_to_xyz color ;; xyz_to_xyy q.

(** color_converter.cpp:93-96 *)
Definition rgb_true_to_cieluv (color : ptr) : M ptr := q <- rgb_true_to_xyz color ;; xyz_to_cieluv q.

(** color_converter.cpp:108-111 *)
Definition rgb_true_to_lch_uv (color : ptr) : M ptr := q <- rgb_true_to_cieluv color ;; cieluv_to_lch_uv q.

(** color_converter.cpp:118-121 *)
Definition rgb_deep_to_grey_true (color : ptr) : M ptr := q <- rgb_deep_to_rgb_true color ;; rgb_true_to_grey_true q.

(** color_converter.cpp:222-225 *)
Definition rgb_deep_to_xyy (color : ptr) : M ptr := q <- rgb_deep_to_xyz color ;; xyz_to_xyy q.

(** color_converter.cpp:227-230 *)
Definition rgb_deep_to_cieluv (color : ptr) : M ptr := q <- rgb_deep_to_xyz color ;; xyz_to_cieluv q.

(** color_converter.cpp:232-235 *)
Definition rgb_deep_to_lab (color : ptr) : M ptr := q <- rgb_deep_to_xyz color ;; xyz_to_lab q.

(** color_converter.cpp:237-240 *)
Definition rgb_deep_to_lch_ab (color : ptr) : M ptr := q <- rgb_deep_to_lab color ;; lab_to_lch_ab q.

(** color_converter.cpp:242-245 *)
Definition rgb_deep_to_lch_uv (color : ptr) : M ptr := q <- rgb_deep_to_cieluv color ;; cieluv_to_lch_uv q.

(** color_converter.cpp:262-265 *)
Definition grey_true_to_cmyk (color : ptr) : M ptr := q <- grey_true_to_rgb_deep color ;; rgb_deep_to_cmyk q.

(** color_converter.cpp:267-270 *)
Definition grey_true_to_hsi (color : ptr) : M ptr := q <- grey_true_to_rgb_deep color ;; rgb_deep_to_hsi q.

(** color_converter.cpp:272-275 *)
Definition grey_true_to_hsv (color : ptr) : M ptr := q <- grey_true_to_rgb_deep color ;; rgb_deep_to_hsv q.

(** color_converter.cpp:277-280 *)
Definition grey_true_to_hsl (color : ptr) : M ptr := q <- grey_true_to_rgb_deep color ;; rgb_deep_to_hsl q.

(** color_converter.cpp:282-285 *)
Definition grey_true_to_hcy (color : ptr) : M ptr := q <- grey_true_to_rgb_deep color ;; rgb_deep_to_hcy q.

(** color_converter.cpp:287-290 *)
Definition grey_true_to_xyz (color : ptr) : M ptr := q <- grey_true_to_rgb_deep color ;; rgb_deep_to_xyz q.

(** color_converter.cpp:292-295 *)
Definition grey_true_to_xyy (color : ptr) : M ptr := q <- grey_true_to_xyz color ;; xyz_to_xyy q.

(** color_converter.cpp:297-300 *)
Definition grey_true_to_cieluv (color : ptr) : M ptr := q <- grey_true_to_xyz color ;; xyz_to_cieluv q.

(** color_converter.cpp:302-305 *)
Definition grey_true_to_lab (color : ptr) : M ptr := q <- grey_true_to_rgb_deep color ;; rgb_deep_to_lab q.

(** color_converter.cpp:307-310 *)
Definition grey_true_to_lch_ab (color : ptr) : M ptr := q <- grey_true_to_lab color ;; lab_to_lch_ab q.

(** color_converter.cpp:312-315 *)
Definition grey_true_to_lch_uv (color : ptr) : M ptr := q <- grey_true_to_cieluv color ;; cieluv_to_lch_uv q.

(** color_converter.cpp:332-335 *)
Definition grey_deep_to_cmyk (color : ptr) : M ptr := q <- grey_deep_to_rgb_deep color ;; rgb_deep_to_cmyk q.

(** color_converter.cpp:337-340 *)
Definition grey_deep_to_hsi (color : ptr) : M ptr := q <- grey_deep_to_rgb_deep color ;; rgb_deep_to_hsi q.

(** color_converter.cpp:342-345 *)
Definition grey_deep_to_hsv (color : ptr) : M ptr := q <- grey_deep_to_rgb_deep color ;; rgb_deep_to_hsv q.

(** color_converter.cpp:347-350 *)
Definition grey_deep_to_hsl (color : ptr) : M ptr := q <- grey_deep_to_rgb_deep color ;; rgb_deep_to_hsl q.

(** color_converter.cpp:352-355 *)
Definition grey_deep_to_hcy (color : ptr) : M ptr := q <- grey_deep_to_rgb_deep color ;; rgb_deep_to_hcy q.

(** color_converter.cpp:357-360 *)
Definition grey_deep_to_xyz (color : ptr) : M ptr := q <- grey_deep_to_rgb_deep color ;; rgb_deep_to_xyz q.

(** color_converter.cpp:362-365 *)
Definition grey_deep_to_xyy (color : ptr) : M ptr := q <- grey_deep_to_xyz color ;; xyz_to_xyy q.

(** color_converter.cpp:367-370 *)
Definition grey_deep_to_cieluv (color : ptr) : M ptr := q <- grey_deep_to_xyz color ;; xyz_to_cieluv q.

(** color_converter.cpp:372-375 *)
Definition grey_deep_to_lab (color : ptr) : M ptr := q <- grey_deep_to_rgb_deep color ;; rgb_deep_to_lab q.

(** color_converter.cpp:377-380 *)
Definition grey_deep_to_lch_ab (color : ptr) : M ptr := q <- grey_deep_to_lab color ;; lab_to_lch_ab q.

(** color_converter.cpp:382-385 *)
Definition grey_deep_to_lch_uv (color : ptr) : M ptr := q <- grey_deep_to_cieluv color ;; cieluv_to_lch_uv q.

(** color_converter.cpp:387-390 *)
Definition cmyk_to_rgb_true (color : ptr) : M ptr := q <- cmyk_to_rgb_deep color ;; rgb_deep_to_rgb_true q.

(** color_converter.cpp:400-403 *)
Definition cmyk_to_grey_true (color : ptr) : M ptr := q <- cmyk_to_rgb_deep color ;; rgb_deep_to_grey_true q.

(** color_converter.cpp:405-408 *)
Definition cmyk_to_grey_deep (color : ptr) : M ptr := q <- cmyk_to_rgb_deep color ;; rgb_deep_to_grey_deep q.

(** color_converter.cpp:410-413 *)
Definition cmyk_to_hsi (color : ptr) : M ptr := q <- cmyk_to_rgb_deep color ;; rgb_deep_to_hsi q.

(** color_converter.cpp:415-418 *)
Definition cmyk_to_hsv (color : ptr) : M ptr := q <- cmyk_to_rgb_deep color ;; rgb_deep_to_hsv q.

(** color_converter.cpp:420-423 *)
Definition cmyk_to_hsl (color : ptr) : M ptr := q <- cmyk_to_rgb_deep color ;; rgb_deep_to_hsl q.

(** color_converter.cpp:425-428 *)
Definition cmyk_to_hcy (color : ptr) : M ptr := q <- cmyk_to_rgb_deep color ;; rgb_deep_to_hcy q.

(** color_converter.cpp:430-433 *)
Definition cmyk_to_xyz (color : ptr) : M ptr := q <- cmyk_to_rgb_deep color ;; rgb_deep_to_xyz q.

(** color_converter.cpp:435-438 *)
Definition cmyk_to_xyy (color : ptr) : M ptr := q <- cmyk_to_xyz color ;; xyz_to_xyy q.

(** color_converter.cpp:440-443 *)
Definition cmyk_to_cieluv (color : ptr) : M ptr := q <- cmyk_to_xyz color ;; xyz_to_cieluv q.

(** color_converter.cpp:445-448 *)
Definition cmyk_to_lab (color : ptr) : M ptr := q <- cmyk_to_rgb_deep color ;; rgb_deep_to_lab q.

(** color_converter.cpp:450-453 *)
Definition cmyk_to_lch_ab (color : ptr) : M ptr := q <- cmyk_to_lab color ;; lab_to_lch_ab q.

(** color_converter.cpp:455-458 *)
Definition cmyk_to_lch_uv (color : ptr) : M ptr := q <- cmyk_to_cieluv color ;; cieluv_to_lch_uv q.

(** color_converter.cpp:460-463 *)
Definition hsi_to_rgb_true (color : ptr) : M ptr := q <- hsi_to_rgb_deep color ;; rgb_deep_to_rgb_true q.

(** color_converter.cpp:489-492 *)
Definition hsi_to_grey_true (color : ptr) : M ptr := q <- hsi_to_rgb_deep color ;; rgb_deep_to_grey_true q.

(** color_converter.cpp:494-497 *)
Definition hsi_to_grey_deep (color : ptr) : M ptr := q <- hsi_to_rgb_deep color ;; rgb_deep_to_grey_deep q.

(** color_converter.cpp:499-502 *)
Definition hsi_to_cmyk (color : ptr) : M ptr := q <- hsi_to_rgb_deep color ;; rgb_deep_to_cmyk q.

(** color_converter.cpp:504-507 *)
Definition hsi_to_hsv (color : ptr) : M ptr := q <- hsi_to_rgb_deep color ;; rgb_deep_to_hsv q.

(** color_converter.cpp:509-512 *)
Definition hsi_to_hsl (color : ptr) : M ptr := q <- hsi_to_rgb_deep color ;; rgb_deep_to_hsl q.

(** color_converter.cpp:514-517 *)
Definition hsi_to_hcy (color : ptr) : M ptr := q <- hsi_to_rgb_deep color ;; rgb_deep_to_hcy q.

(** color_converter.cpp:519-522 *)
Definition hsi_to_xyz (color : ptr) : M ptr := q <- hsi_to_rgb_deep color ;; rgb_deep_to_xyz q.

(** color_converter.cpp:524-527 *)
Definition hsi_to_xyy (color : ptr) : M ptr := q <- hsi_to_rgb_deep color ;; rgb_deep_to_xyy q.

(** color_converter.cpp:529-532 *)
Definition hsi_to_cieluv (color : ptr) : M ptr := q <- hsi_to_rgb_deep color ;; rgb_deep_to_cieluv q.

(** color_converter.cpp:534-537 *)
Definition hsi_to_lab (color : ptr) : M ptr := q <- hsi_to_rgb_deep color ;; rgb_deep_to_lab q.

(** color_converter.cpp:539-542 *)
Definition hsi_to_lch_ab (color : ptr) : M ptr := q <- hsi_to_rgb_deep color ;; rgb_deep_to_lch_ab q.

(** color_converter.cpp:544-547 *)
Definition hsi_to_lch_uv (color : ptr) : M ptr := q <- hsi_to_rgb_deep color ;; rgb_deep_to_lch_uv q.

(** color_converter.cpp:549-552 *)
Definition hsv_to_rgb_true (color : ptr) : M ptr := q <- hsv_to_rgb_deep color ;; rgb_deep_to_rgb_true q.

(** color_converter.cpp:580-583 *)
Definition hsv_to_grey_true (color : ptr) : M ptr := q <- hsv_to_rgb_deep color ;; rgb_deep_to_grey_true q.

(** color_converter.cpp:585-588 *)
Definition hsv_to_grey_deep (color : ptr) : M ptr := q <- hsv_to_rgb_deep color ;; rgb_deep_to_grey_deep q.

(** color_converter.cpp:590-593 *)
Definition hsv_to_cmyk (color : ptr) : M ptr := q <- hsv_to_rgb_deep color ;; rgb_deep_to_cmyk q.

(** color_converter.cpp:595-599 *)
Definition hsv_to_hsi (color : ptr) : M ptr := q <- hsv_to_rgb_deep color ;; rgb_deep_to_hsi q.

(** color_converter.cpp:610-613 *)
Definition hsv_to_hcy (color : ptr) : M ptr := q <- hsv_to_rgb_deep color ;; rgb_deep_to_hcy q.

(** color_converter.cpp:615-618 *)
Definition hsv_to_xyz (color : ptr) : M ptr := q <- hsv_to_rgb_deep color ;; rgb_deep_to_xyz q.

(** color_converter.cpp:620-623 *)
Definition hsv_to_xyy (color : ptr) : M ptr := q <- hsv_to_xyz color ;; xyz_to_xyy q.

(** color_converter.cpp:625-628 *)
Definition hsv_to_cieluv (color : ptr) : M ptr := q <- hsv_to_xyz color ;; xyz_to_cieluv q.

(** color_converter.cpp:630-633 *)
Definition hsv_to_lab (color : ptr) : M ptr := q <- hsv_to_rgb_deep color ;; rgb_deep_to_lab q.

(** color_converter.cpp:635-638 *)
Definition hsv_to_lch_ab (color : ptr) : M ptr := q <- hsv_to_lab color ;; lab_to_lch_ab q.

(** color_converter.cpp:640-643 *)
Definition hsv_to_lch_uv (color : ptr) : M ptr := q <- hsv_to_cieluv color ;; cieluv_to_lch_uv q.

(** color_converter.cpp:645-648 *)
Definition hsl_to_rgb_true (color : ptr) : M ptr := q <- hsl_to_rgb_deep color ;; rgb_deep_to_rgb_true q.

(** color_converter.cpp:682-685 *)
Definition hsl_to_grey_true (color : ptr) : M ptr := q <- hsl_to_rgb_deep color ;; rgb_deep_to_grey_true q.

(** color_converter.cpp:687-690 *)
Definition hsl_to_grey_deep (color : ptr) : M ptr := q <- hsl_to_rgb_deep color ;; rgb_deep_to_grey_deep q.

(** color_converter.cpp:692-695 *)
Definition hsl_to_cmyk (color : ptr) : M ptr := q <- hsl_to_rgb_deep color ;; rgb_deep_to_cmyk q.

(** color_converter.cpp:697-700 *)
Definition hsl_to_hsi (color : ptr) : M ptr := q <- hsl_to_rgb_deep color ;; rgb_deep_to_hsi q.

(** color_converter.cpp:711-714 *)
Definition hsl_to_hcy (color : ptr) : M ptr := q <- hsl_to_rgb_deep color ;; rgb_deep_to_hcy q.

(** color_converter.cpp:716-719 *)
Definition hsl_to_xyz (color : ptr) : M ptr := q <- hsl_to_rgb_deep color ;; rgb_deep_to_xyz q.

(** color_converter.cpp:721-724 *)
Definition hsl_to_xyy (color : ptr) : M ptr := q <- hsl_to_xyz color ;; xyz_to_xyy q.

(** color_converter.cpp:726-729 *)
Definition hsl_to_cieluv (color : ptr) : M ptr := q <- hsl_to_xyz color ;; xyz_to_cieluv q.

(** color_converter.cpp:731-734 *)
Definition hsl_to_lab (color : ptr) : M ptr := q <- hsl_to_rgb_deep color ;; rgb_deep_to_lab q.

(** color_converter.cpp:736-739 *)
Definition hsl_to_lch_ab (color : ptr) : M ptr := q <- hsl_to_lab color ;; lab_to_lch_ab q.

(** color_converter.cpp:741-744 *)
Definition hsl_to_lch_uv (color : ptr) : M ptr := q <- hsl_to_cieluv color ;; cieluv_to_lch_uv q.

(** color_converter.cpp:746-749 *)
Definition hcy_to_rgb_true (color : ptr) : M ptr := q <- hcy_to_rgb_deep color ;; rgb_deep_to_rgb_true q.

(** color_converter.cpp:773-776 *)
Definition hcy_to_grey_true (color : ptr) : M ptr := q <- hcy_to_rgb_deep color ;; rgb_deep_to_grey_true q.

(** color_converter.cpp:778-781 *)
Definition hcy_to_grey_deep (color : ptr) : M ptr := q <- hcy_to_rgb_deep color ;; rgb_deep_to_grey_deep q.

(** color_converter.cpp:783-786 *)
Definition hcy_to_cmyk (color : ptr) : M ptr := q <- hcy_to_rgb_deep color ;; rgb_deep_to_cmyk q.

(** color_converter.cpp:788-791 *)
Definition hcy_to_hsi (color : ptr) : M ptr := q <- hcy_to_rgb_deep color ;; rgb_deep_to_hsi q.

(** color_converter.cpp:793-796 *)
Definition hcy_to_hsv (color : ptr) : M ptr := q <- hcy_to_rgb_deep color ;; rgb_deep_to_hsv q.

(** color_converter.cpp:798-801 *)
Definition hcy_to_hsl (color : ptr) : M ptr := q <- hcy_to_rgb_deep color ;; rgb_deep_to_hsl q.

(** color_converter.cpp:803-806 *)
Definition hcy_to_xyz (color : ptr) : M ptr := q <- hcy_to_rgb_deep color ;; rgb_deep_to_xyz q.

(** color_converter.cpp:808-811 *)
Definition hcy_to_xyy (color : ptr) : M ptr := q <- hcy_to_rgb_deep color ;; rgb_deep_to_xyy q.

(** color_converter.cpp:813-816 *)
Definition hcy_to_cieluv (color : ptr) : M ptr := q <- hcy_to_rgb_deep color ;; rgb_deep_to_cieluv q.

(** color_converter.cpp:818-821 *)
Definition hcy_to_lab (color : ptr) : M ptr := q <- hcy_to_rgb_deep color ;; rgb_deep_to_lab q.

(** color_converter.cpp:823-826 *)
Definition hcy_to_lch_ab (color : ptr) : M ptr := q <- hcy_to_rgb_deep color ;; rgb_deep_to_lch_ab q.

(** color_converter.cpp:828-831 *)
Definition hcy_to_lch_uv (color : ptr) : M ptr := q <- hcy_to_rgb_deep color ;; rgb_deep_to_lch_uv q.

(** color_converter.cpp:833-836 *)
Definition xyz_to_rgb_true (color : ptr) : M ptr := q <- xyz_to_rgb_deep color ;; rgb_deep_to_rgb_true q.

(** color_converter.cpp:850-853 *)
Definition xyz_to_grey_true (color : ptr) : M ptr := q <- xyz_to_rgb_deep color ;; rgb_deep_to_grey_true q.

(** color_converter.cpp:855-858 *)
Definition xyz_to_grey_deep (color : ptr) : M ptr := q <- xyz_to_rgb_deep color ;; rgb_deep_to_grey_deep q.

(** color_converter.cpp:860-863 *)
Definition xyz_to_cmyk (color : ptr) : M ptr := q <- xyz_to_rgb_deep color ;; rgb_deep_to_cmyk q.

(** color_converter.cpp:865-868 *)
Definition xyz_to_hsi (color : ptr) : M ptr := q <- xyz_to_rgb_deep color ;; rgb_deep_to_hsi q.

(** color_converter.cpp:870-873 *)
Definition xyz_to_hsv (color : ptr) : M ptr := q <- xyz_to_rgb_deep color ;; rgb_deep_to_hsv q.

(** color_converter.cpp:875-878 *)
Definition xyz_to_hsl (color : ptr) : M ptr := q <- xyz_to_rgb_deep color ;; rgb_deep_to_hsl q.

(** color_converter.cpp:880-883 *)
Definition xyz_to_hcy (color : ptr) : M ptr := q <- xyz_to_rgb_deep color ;; rgb_deep_to_hcy q.

(** color_converter.cpp:937-940 *)
Definition xyz_to_lch_ab (color : ptr) : M ptr := q <- xyz_to_lab color ;; lab_to_lch_ab q.

(** color_converter.cpp:942-945 *)
Definition xyz_to_lch_uv (color : ptr) : M ptr := q <- xyz_to_cieluv color ;; cieluv_to_lch_uv q.

(** color_converter.cpp:947-950 *)
Definition xyy_to_rgb_true (color : ptr) : M ptr := q <- xyy_to_xyz color ;; xyz_to_rgb_true q.

(** color_converter.cpp:952-955 *)
Definition xyy_to_rgb_deep (color : ptr) : M ptr := q <- xyy_to_xyz color ;; xyz_to_rgb_deep q.

(** color_converter.cpp:957-960 *)
Definition xyy_to_grey_true (color : ptr) : M ptr := q <- xyy_to_xyz color ;; xyz_to_grey_true q.

(** color_converter.cpp:962-965 *)
Definition xyy_to_grey_deep (color : ptr) : M ptr := q <- xyy_to_xyz color ;; xyz_to_grey_deep q.

(** color_converter.cpp:967-970 *)
Definition xyy_to_cmyk (color : ptr) : M ptr := q <- xyy_to_xyz color ;; xyz_to_cmyk q.

(** color_converter.cpp:972-975 *)
Definition xyy_to_hsi (color : ptr) : M ptr := q <- xyy_to_xyz color ;; xyz_to_hsi q.

(** color_converter.cpp:977-980 *)
Definition xyy_to_hsv (color : ptr) : M ptr := q <- xyy_to_xyz color ;; xyz_to_hsv q.

(** color_converter.cpp:982-985 *)
Definition xyy_to_hsl (color : ptr) : M ptr := q <- xyy_to_xyz color ;; xyz_to_hsl q.

(** color_converter.cpp:987-990 *)
Definition xyy_to_hcy (color : ptr) : M ptr := q <- xyy_to_xyz color ;; xyz_to_hcy q.

(** color_converter.cpp:1005-1008 *)
Definition xyy_to_cieluv (color : ptr) : M ptr := q <- xyy_to_xyz color ;; xyz_to_cieluv q.

(** color_converter.cpp:1010-1013 *)
Definition xyy_to_lab (color : ptr) : M ptr := q <- xyy_to_xyz color ;; xyz_to_lab q.

(** color_converter.cpp:1015-1018 *)
Definition xyy_to_lch_ab (color : ptr) : M ptr := q <- xyy_to_lab color ;; lab_to_lch_ab q.

(** color_converter.cpp:1020-1023 *)
Definition xyy_to_lch_uv (color : ptr) : M ptr := q <- xyy_to_cieluv color ;; cieluv_to_lch_uv q.

(** color_converter.cpp:1025-1028 *)
Definition cieluv_to_rgb_true (color : ptr) : M ptr := q <- cieluv_to_xyz color ;; xyz_to_rgb_true q.

(** color_converter.cpp:1030-1033 *)
Definition cieluv_to_rgb_deep (color : ptr) : M ptr := q <- cieluv_to_xyz color ;; xyz_to_rgb_deep q.

(** color_converter.cpp:1035-1038 *)
Definition cieluv_to_grey_true (color : ptr) : M ptr := q <- cieluv_to_xyz color ;; xyz_to_grey_true q.

(** color_converter.cpp:1040-1043 *)
Definition cieluv_to_grey_deep (color : ptr) : M ptr := q <- cieluv_to_xyz color ;; xyz_to_grey_deep q.

(** color_converter.cpp:1045-1048 *)
Definition cieluv_to_cmyk (color : ptr) : M ptr := q <- cieluv_to_xyz color ;; xyz_to_cmyk q.

(** color_converter.cpp:1050-1053 *)
Definition cieluv_to_hsi (color : ptr) : M ptr := q <- cieluv_to_xyz color ;; xyz_to_hsi q.

(** color_converter.cpp:1055-1058 *)
Definition cieluv_to_hsv (color : ptr) : M ptr := q <- cieluv_to_xyz color ;; xyz_to_hsv q.

(** color_converter.cpp:1060-1063 *)
Definition cieluv_to_hsl (color : ptr) : M ptr := q <- cieluv_to_xyz color ;; xyz_to_hsl q.

(** color_converter.cpp:1065-1068 *)
Definition cieluv_to_hcy (color : ptr) : M ptr := q <- cieluv_to_xyz color ;; xyz_to_hcy q.

(** color_converter.cpp:1093-1096 *)
Definition cieluv_to_xyy (color : ptr) : M ptr := q <- cieluv_to_xyz color ;; xyz_to_xyy q.

(** color_converter.cpp:1098-1101 *)
Definition cieluv_to_lab (color : ptr) : M ptr := q <- cieluv_to_xyz color ;; xyz_to_lab q.

(** color_converter.cpp:1103-1106 *)
Definition cieluv_to_lch_ab (color : ptr) : M ptr := q <- cieluv_to_lab color ;; lab_to_lch_ab q.

(** color_converter.cpp:1120-1123 *)
Definition lab_to_rgb_true (color : ptr) : M ptr := q <- lab_to_xyz color ;; xyz_to_rgb_true q.

(** color_converter.cpp:1125-1128 *)
Definition lab_to_rgb_deep (color : ptr) : M ptr := q <- lab_to_xyz color ;; xyz_to_rgb_deep q.

(** color_converter.cpp:1130-1133 *)
Definition lab_to_grey_true (color : ptr) : M ptr := q <- lab_to_xyz color ;; xyz_to_grey_true q.

(** color_converter.cpp:1135-1138 *)
Definition lab_to_grey_deep (color : ptr) : M ptr := q <- lab_to_xyz color ;; xyz_to_grey_deep q.

(** color_converter.cpp:1140-1143 *)
Definition lab_to_cmyk (color : ptr) : M ptr := q <- lab_to_xyz color ;; xyz_to_cmyk q.

(** color_converter.cpp:1145-1148 *)
Definition lab_to_hsi (color : ptr) : M ptr := q <- lab_to_xyz color ;; xyz_to_hsi q.

(** color_converter.cpp:1150-1153 *)
Definition lab_to_hsv (color : ptr) : M ptr := q <- lab_to_xyz color ;; xyz_to_hsv q.

(** color_converter.cpp:1155-1158 *)
Definition lab_to_hsl (color : ptr) : M ptr := q <- lab_to_xyz color ;; xyz_to_hsl q.

(** color_converter.cpp:1160-1163 *)
Definition lab_to_hcy (color : ptr) : M ptr := q <- lab_to_xyz color ;; xyz_to_hcy q.

(** color_converter.cpp:1177-1180 *)
Definition lab_to_cieluv (color : ptr) : M ptr := q <- lab_to_xyz color ;; xyz_to_cieluv q.

(** color_converter.cpp:1182-1185 *)
Definition lab_to_xyy (color : ptr) : M ptr := q <- lab_to_xyz color ;; xyz_to_xyy q.

(** color_converter.cpp:1199-1202 *)
Definition lab_to_lch_uv (color : ptr) : M ptr := q <- lab_to_cieluv color ;; cieluv_to_lch_uv q.

(** color_converter.cpp:1204-1207 *)
Definition lch_ab_to_rgb_true (color : ptr) : M ptr := q <- lch_ab_to_lab color ;; lab_to_rgb_true q.

(** color_converter.cpp:1209-1212 *)
Definition lch_ab_to_rgb_deep (color : ptr) : M ptr := q <- lch_ab_to_lab color ;; lab_to_rgb_deep q.

(** color_converter.cpp:1214-1217 *)
Definition lch_ab_to_grey_true (color : ptr) : M ptr := q <- lch_ab_to_lab color ;; lab_to_grey_true q.

(** color_converter.cpp:1219-1222 *)
Definition lch_ab_to_grey_deep (color : ptr) : M ptr := q <- lch_ab_to_lab color ;; lab_to_grey_deep q.

(** color_converter.cpp:1224-1227 *)
Definition lch_ab_to_cmyk (color : ptr) : M ptr := q <- lch_ab_to_lab color ;; lab_to_cmyk q.

(** color_converter.cpp:1229-1232 *)
Definition lch_ab_to_hsi (color : ptr) : M ptr := q <- lch_ab_to_lab color ;; lab_to_hsi q.

(** color_converter.cpp:1234-1237 *)
Definition lch_ab_to_hsv (color : ptr) : M ptr := q <- lch_ab_to_lab color ;; lab_to_hsv q.

(** color_converter.cpp:1239-1242 *)
Definition lch_ab_to_hsl (color : ptr) : M ptr := q <- lch_ab_to_lab color ;; lab_to_hsl q.

(** color_converter.cpp:1244-1247 *)
Definition lch_ab_to_hcy (color : ptr) : M ptr := q <- lch_ab_to_lab color ;; lab_to_hcy q.

(** color_converter.cpp:1249-1252 *)
Definition lch_ab_to_xyz (color : ptr) : M ptr := q <- lch_ab_to_lab color ;; lab_to_xyz q.

(** color_converter.cpp:1254-1257 *)
Definition lch_ab_to_xyy (color : ptr) : M ptr := q <- lch_ab_to_lab color ;; lab_to_xyy q.

(** color_converter.cpp:1259-1262 *)
Definition lch_ab_to_cieluv (color : ptr) : M ptr := q <- lch_ab_to_lab color ;; lab_to_cieluv q.

(** color_converter.cpp:1275-1278 *)
Definition lch_ab_to_lch_uv (color : ptr) : M ptr := q <- lch_ab_to_cieluv color ;; cieluv_to_lch_uv q.

(** color_converter.cpp:1280-1283 *)
Definition lch_uv_to_rgb_true (color : ptr) : M ptr := q <- lch_uv_to_cieluv color ;; cieluv_to_rgb_true q.

(** color_converter.cpp:1285-1288 *)
Definition lch_uv_to_rgb_deep (color : ptr) : M ptr := q <- lch_uv_to_cieluv color ;; cieluv_to_rgb_deep q.

(** color_converter.cpp:1290-1293 *)
Definition lch_uv_to_grey_true (color : ptr) : M ptr := q <- lch_uv_to_cieluv color ;; cieluv_to_grey_true q.

(** color_converter.cpp:1295-1298 *)
Definition lch_uv_to_grey_deep (color : ptr) : M ptr := q <- lch_uv_to_cieluv color ;; cieluv_to_grey_deep q.

(** color_converter.cpp:1300-1303 *)
Definition lch_uv_to_cmyk (color : ptr) : M ptr := q <- lch_uv_to_cieluv color ;; cieluv_to_cmyk q.

(** color_converter.cpp:1305-1308 *)
Definition lch_uv_to_hsi (color : ptr) : M ptr := q <- lch_uv_to_cieluv color ;; cieluv_to_hsi q.

(** color_converter.cpp:1310-1313 *)
Definition lch_uv_to_hsv (color : ptr) : M ptr := q <- lch_uv_to_cieluv color ;; cieluv_to_hsv q.

(** color_converter.cpp:1315-1318 *)
Definition lch_uv_to_hsl (color : ptr) : M ptr := q <- lch_uv_to_cieluv color ;; cieluv_to_hsl q.

(** color_converter.cpp:1320-1323 *)
Definition lch_uv_to_hcy (color : ptr) : M ptr := q <- lch_uv_to_cieluv color ;; cieluv_to_hcy q.

(** color_converter.cpp:1325-1328 *)
Definition lch_uv_to_xyz (color : ptr) : M ptr := q <- lch_uv_to_cieluv color ;; cieluv_to_xyz q.

(** color_converter.cpp:1330-1333 *)
Definition lch_uv_to_xyy (color : ptr) : M ptr := q <- lch_uv_to_cieluv color ;; cieluv_to_xyy q.

(** color_converter.cpp:1346-1349 *)
Definition lch_uv_to_lab (color : ptr) : M ptr := q <- lch_uv_to_cieluv color ;; cieluv_to_lab q.

(** color_converter.cpp:1351-1354 *)
Definition lch_uv_to_lch_ab (color : ptr) : M ptr := q <- lch_uv_to_cieluv color ;; cieluv_to_lch_ab q.

(** color_converter.cpp:98-101 *)
Definition rgb_true_to_lab (color : ptr) : M ptr := q <- rgb_true_to_rgb_deep color ;; rgb_deep_to_lab q.

(** color_converter.cpp:103-106 *)
Definition rgb_true_to_lch_ab (color : ptr) : M ptr := q <- rgb_true_to_lab color ;; lab_to_lch_ab q.

(** ** Dispatch on the dynamic type *)

(** color_converter.cpp:1462-1499 *)
Definition to_rgb_true (in_color : ptr) : M ptr :=
  c <- load in_color ;;
  match ty c with
  | RGB_TRUE => cast RGB_TRUE in_color
  | RGB_DEEP => rgb_deep_to_rgb_true in_color
  | GREY_TRUE => grey_true_to_rgb_true in_color
  | GREY_DEEP => grey_deep_to_rgb_true in_color
  | CMYK => cmyk_to_rgb_true in_color
  | HSI => hsi_to_rgb_true in_color
  | HSV => hsv_to_rgb_true in_color
  | HSL => hsl_to_rgb_true in_color
  | HCY => hcy_to_rgb_true in_color
  | XYZ => xyz_to_rgb_true in_color
  | XYY => xyy_to_rgb_true in_color
  | CIELUV => cieluv_to_rgb_true in_color
  | LAB => lab_to_rgb_true in_color
  | LCH_AB => lch_ab_to_rgb_true in_color
  | LCH_UV => lch_uv_to_rgb_true in_color
  | UNDEFINED => ret None
  end.

(** color_converter.cpp:1501-1538 *)
Definition to_rgb_deep (in_color : ptr) : M ptr :=
  c <- load in_color ;;
  match ty c with
  | RGB_TRUE => rgb_true_to_rgb_deep in_color
  | RGB_DEEP => cast RGB_DEEP in_color
  | GREY_TRUE => grey_true_to_rgb_deep in_color
  | GREY_DEEP => grey_deep_to_rgb_deep in_color
  | CMYK => cmyk_to_rgb_deep in_color
  | HSI => hsi_to_rgb_deep in_color
  | HSV => hsv_to_rgb_deep in_color
  | HSL => hsl_to_rgb_deep in_color
  | HCY => hcy_to_rgb_deep in_color
  | XYZ => xyz_to_rgb_deep in_color
  | XYY => xyy_to_rgb_deep in_color
  | CIELUV => cieluv_to_rgb_deep in_color
  | LAB => lab_to_rgb_deep in_color
  | LCH_AB => lch_ab_to_rgb_deep in_color
  | LCH_UV => lch_uv_to_rgb_deep in_color
  | UNDEFINED => ret None
  end.

(** color_converter.cpp:1540-1577 *)
Definition to_grey_true (in_color : ptr) : M ptr :=
  c <- load in_color ;;
  match ty c with
  | RGB_TRUE => rgb_true_to_grey_true in_color
  | RGB_DEEP => rgb_deep_to_grey_true in_color
  | GREY_TRUE => cast GREY_TRUE in_color
  | GREY_DEEP => grey_deep_to_grey_true in_color
  | CMYK => cmyk_to_grey_true in_color
  | HSI => hsi_to_grey_true in_color
  | HSV => hsv_to_grey_true in_color
  | HSL => hsl_to_grey_true in_color
  | HCY => hcy_to_grey_true in_color
  | XYZ => xyz_to_grey_true in_color
  | XYY => xyy_to_grey_true in_color
  | CIELUV => cieluv_to_grey_true in_color
  | LAB => lab_to_grey_true in_color
  | LCH_AB => lch_ab_to_grey_true in_color
  | LCH_UV => lch_uv_to_grey_true in_color
  | UNDEFINED => ret None
  end.

(** color_converter.cpp:1579-1616 *)
Definition to_grey_deep (in_color : ptr) : M ptr :=
  c <- load in_color ;;
  match ty c with
  | RGB_TRUE => rgb_true_to_grey_deep in_color
  | RGB_DEEP => rgb_deep_to_grey_deep in_color
  | GREY_TRUE => grey_true_to_grey_deep in_color
  | GREY_DEEP => cast GREY_DEEP in_color
  | CMYK => cmyk_to_grey_deep in_color
  | HSI => hsi_to_grey_deep in_color
  | HSV => hsv_to_grey_deep in_color
  | HSL => hsl_to_grey_deep in_color
  | HCY => hcy_to_grey_deep in_color
  | XYZ => xyz_to_grey_deep in_color
  | XYY => xyy_to_grey_deep in_color
  | CIELUV => cieluv_to_grey_deep in_color
  | LAB => lab_to_grey_deep in_color
  | LCH_AB => lch_ab_to_grey_deep in_color
  | LCH_UV => lch_uv_to_grey_deep in_color
  | UNDEFINED => ret None
  end.

(** color_converter.cpp:1618-1655 *)
Definition to_cmyk (in_color : ptr) : M ptr :=
  c <- load in_color ;;
  match ty c with
  | RGB_TRUE => rgb_true_to_cmyk in_color
  | RGB_DEEP => rgb_deep_to_cmyk in_color
  | GREY_TRUE => grey_true_to_cmyk in_color
  | GREY_DEEP => grey_deep_to_cmyk in_color
  | CMYK => cast CMYK in_color
  | HSI => hsi_to_cmyk in_color
  | HSV => hsv_to_cmyk in_color
  | HSL => hsl_to_cmyk in_color
  | HCY => hcy_to_cmyk in_color
  | XYZ => xyz_to_cmyk in_color
  | XYY => xyy_to_cmyk in_color
  | CIELUV => cieluv_to_cmyk in_color
  | LAB => lab_to_cmyk in_color
  | LCH_AB => lch_ab_to_cmyk in_color
  | LCH_UV => lch_uv_to_cmyk in_color
  | UNDEFINED => ret None
  end.

(** color_converter.cpp:1657-1694 *)
Definition to_hsi (in_color : ptr) : M ptr :=
  c <- load in_color ;;
  match ty c with
  | RGB_TRUE => rgb_true_to_hsi in_color
  | RGB_DEEP => rgb_deep_to_hsi in_color
  | GREY_TRUE => grey_true_to_hsi in_color
  | GREY_DEEP => grey_deep_to_hsi in_color
  | CMYK => cmyk_to_hsi in_color
  | HSI => cast HSI in_color
  | HSV => hsv_to_hsi in_color
  | HSL => hsl_to_hsi in_color
  | HCY => hcy_to_hsi in_color
  | XYZ => xyz_to_hsi in_color
  | XYY => xyy_to_hsi in_color
  | CIELUV => cieluv_to_hsi in_color
  | LAB => lab_to_hsi in_color
  | LCH_AB => lch_ab_to_hsi in_color
  | LCH_UV => lch_uv_to_hsi in_color
  | UNDEFINED => ret None
  end.

(** color_converter.cpp:1696-1733 *)
Definition to_hsv (in_color : ptr) : M ptr :=
  c <- load in_color ;;
  match ty c with
  | RGB_TRUE => rgb_true_to_hsv in_color
  | RGB_DEEP => rgb_deep_to_hsv in_color
  | GREY_TRUE => grey_true_to_hsv in_color
  | GREY_DEEP => grey_deep_to_hsv in_color
  | CMYK => cmyk_to_hsv in_color
  | HSI => hsi_to_hsv in_color
  | HSV => cast HSV in_color
  | HSL => hsl_to_hsv in_color
  | HCY => hcy_to_hsv in_color
  | XYZ => xyz_to_hsv in_color
  | XYY => xyy_to_hsv in_color
  | CIELUV => cieluv_to_hsv in_color
  | LAB => lab_to_hsv in_color
  | LCH_AB => lch_ab_to_hsv in_color
  | LCH_UV => lch_uv_to_hsv in_color
  | UNDEFINED => ret None
  end.

(** color_converter.cpp:1735-1772 *)
Definition to_hsl (in_color : ptr) : M ptr :=
  c <- load in_color ;;
  match ty c with
  | RGB_TRUE => rgb_true_to_hsl in_color
  | RGB_DEEP => rgb_deep_to_hsl in_color
  | GREY_TRUE => grey_true_to_hsl in_color
  | GREY_DEEP => grey_deep_to_hsl in_color
  | CMYK => cmyk_to_hsl in_color
  | HSI => hsi_to_hsl in_color
  | HSV => hsv_to_hsl in_color
  | HSL => cast HSL in_color
  | HCY => hcy_to_hsl in_color
  | XYZ => xyz_to_hsl in_color
  | XYY => xyy_to_hsl in_color
  | CIELUV => cieluv_to_hsl in_color
  | LAB => lab_to_hsl in_color
  | LCH_AB => lch_ab_to_hsl in_color
  | LCH_UV => lch_uv_to_hsl in_color
  | UNDEFINED => ret None
  end.

(** color_converter.cpp:1774-1811 *)
Definition to_hcy (in_color : ptr) : M ptr :=
  c <- load in_color ;;
  match ty c with
  | RGB_TRUE => rgb_true_to_hcy in_color
  | RGB_DEEP => rgb_deep_to_hcy in_color
  | GREY_TRUE => grey_true_to_hcy in_color
  | GREY_DEEP => grey_deep_to_hcy in_color
  | CMYK => cmyk_to_hcy in_color
  | HSI => hsi_to_hcy in_color
  | HSV => hsv_to_hcy in_color
  | HSL => hsl_to_hcy in_color
  | HCY => cast HCY in_color
  | XYZ => xyz_to_hcy in_color
  | XYY => xyy_to_hcy in_color
  | CIELUV => cieluv_to_hcy in_color
  | LAB => lab_to_hcy in_color
  | LCH_AB => lch_ab_to_hcy in_color
  | LCH_UV => lch_uv_to_hcy in_color
  | UNDEFINED => ret None
  end.

(** color_converter.cpp:1813-1850 *)
Definition to_xyz (in_color : ptr) : M ptr :=
  c <- load in_color ;;
  match ty c with
  | RGB_TRUE => rgb_true_to_xyz in_color
  | RGB_DEEP => rgb_deep_to_xyz in_color
  | GREY_TRUE => grey_true_to_xyz in_color
  | GREY_DEEP => grey_deep_to_xyz in_color
  | CMYK => cmyk_to_xyz in_color
  | HSI => hsi_to_xyz in_color
  | HSV => hsv_to_xyz in_color
  | HSL => hsl_to_xyz in_color
  | HCY => hcy_to_xyz in_color
  | XYZ => cast XYZ in_color
  | XYY => xyy_to_xyz in_color
  | CIELUV => cieluv_to_xyz in_color
  | LAB => lab_to_xyz in_color
  | LCH_AB => lch_ab_to_xyz in_color
  | LCH_UV => lch_uv_to_xyz in_color
  | UNDEFINED => ret None
  end.

(** color_converter.cpp:1852-1889 *)
Definition to_xyy (in_color : ptr) : M ptr :=
  c <- load in_color ;;
  match ty c with
  | RGB_TRUE => rgb_true_to_xyy in_color
  | RGB_DEEP => rgb_deep_to_xyy in_color
  | GREY_TRUE => grey_true_to_xyy in_color
  | GREY_DEEP => grey_deep_to_xyy in_color
  | CMYK => cmyk_to_xyy in_color
  | HSI => hsi_to_xyy in_color
  | HSV => hsv_to_xyy in_color
  | HSL => hsl_to_xyy in_color
  | HCY => hcy_to_xyy in_color
  | XYZ => xyz_to_xyy in_color
  | XYY => cast XYY in_color
  | CIELUV => cieluv_to_xyy in_color
  | LAB => lab_to_xyy in_color
  | LCH_AB => lch_ab_to_xyy in_color
  | LCH_UV => lch_uv_to_xyy in_color
  | UNDEFINED => ret None
  end.

(** color_converter.cpp:1891-1928 *)
Definition to_cieluv (in_color : ptr) : M ptr :=
  c <- load in_color ;;
  match ty c with
  | RGB_TRUE => rgb_true_to_cieluv in_color
  | RGB_DEEP => rgb_deep_to_cieluv in_color
  | GREY_TRUE => grey_true_to_cieluv in_color
  | GREY_DEEP => grey_deep_to_cieluv in_color
  | CMYK => cmyk_to_cieluv in_color
  | HSI => hsi_to_cieluv in_color
  | HSV => hsv_to_cieluv in_color
  | HSL => hsl_to_cieluv in_color
  | HCY => hcy_to_cieluv in_color
  | XYZ => xyz_to_cieluv in_color
  | XYY => xyy_to_cieluv in_color
  | CIELUV => cast CIELUV in_color
  | LAB => lab_to_cieluv in_color
  | LCH_AB => lch_ab_to_cieluv in_color
  | LCH_UV => lch_uv_to_cieluv in_color
  | UNDEFINED => ret None
  end.

(** color_converter.cpp:1930-1967 *)
Definition to_lab (in_color : ptr) : M ptr :=
  c <- load in_color ;;
  match ty c with
  | RGB_TRUE => rgb_true_to_lab in_color
  | RGB_DEEP => rgb_deep_to_lab in_color
  | GREY_TRUE => grey_true_to_lab in_color
  | GREY_DEEP => grey_deep_to_lab in_color
  | CMYK => cmyk_to_lab in_color
  | HSI => hsi_to_lab in_color
  | HSV => hsv_to_lab in_color
  | HSL => hsl_to_lab in_color
  | HCY => hcy_to_lab in_color
  | XYZ => xyz_to_lab in_color
  | XYY => xyy_to_lab in_color
  | CIELUV => cieluv_to_lab in_color
  | LAB => cast LAB in_color
  | LCH_AB => lch_ab_to_lab in_color
  | LCH_UV => lch_uv_to_lab in_color
  | UNDEFINED => ret None
  end.

(** color_converter.cpp:1969-2006 *)
Definition to_lch_ab (in_color : ptr) : M ptr :=
  c <- load in_color ;;
  match ty c with
  | RGB_TRUE => rgb_true_to_lch_ab in_color
  | RGB_DEEP => rgb_deep_to_lch_ab in_color
  | GREY_TRUE => grey_true_to_lch_ab in_color
  | GREY_DEEP => grey_deep_to_lch_ab in_color
  | CMYK => cmyk_to_lch_ab in_color
  | HSI => hsi_to_lch_ab in_color
  | HSV => hsv_to_lch_ab in_color
  | HSL => hsl_to_lch_ab in_color
  | HCY => hcy_to_lch_ab in_color
  | XYZ => xyz_to_lch_ab in_color
  | XYY => xyy_to_lch_ab in_color
  | CIELUV => cieluv_to_lch_ab in_color
  | LAB => lab_to_lch_ab in_color
  | LCH_AB => cast LCH_AB in_color
  | LCH_UV => lch_uv_to_lch_ab in_color
  | UNDEFINED => ret None
  end.

(** color_converter.cpp:2008-2045 *)
Definition to_lch_uv (in_color : ptr) : M ptr :=
  c <- load in_color ;;
  match ty c with
  | RGB_TRUE => rgb_true_to_lch_uv in_color
  | RGB_DEEP => rgb_deep_to_lch_uv in_color
  | GREY_TRUE => grey_true_to_lch_uv in_color
  | GREY_DEEP => grey_deep_to_lch_uv in_color
  | CMYK => cmyk_to_lch_uv in_color
  | HSI => hsi_to_lch_uv in_color
  | HSV => hsv_to_lch_uv in_color
  | HSL => hsl_to_lch_uv in_color
  | HCY => hcy_to_lch_uv in_color
  | XYZ => xyz_to_lch_uv in_color
  | XYY => xyy_to_lch_uv in_color
  | CIELUV => cieluv_to_lch_uv in_color
  | LAB => lab_to_lch_uv in_color
  | LCH_AB => lch_ab_to_lch_uv in_color
  | LCH_UV => cast LCH_UV in_color
  | UNDEFINED => ret None
  end.

(** color_converter.cpp:6-39 *)
Definition convertTo (in_color : ptr) (out_color : ctype) : M ptr :=
  match out_color with
  | RGB_TRUE => to_rgb_true in_color
  | RGB_DEEP => to_rgb_deep in_color
  | GREY_TRUE => to_grey_true in_color
  | GREY_DEEP => to_grey_deep in_color
  | CMYK => to_cmyk in_color
  | HSI => to_hsi in_color
  | HSV => to_hsv in_color
  | HSL => to_hsl in_color
  | HCY => to_hcy in_color
  | XYZ => to_xyz in_color
  | XYY => to_xyy in_color
  | CIELUV => to_cieluv in_color
  | LAB => to_lab in_color
  | _ => ret None
  end.

End Converter.
