(** * manipulation/color_distance.cpp

    [abs] of a float expression (lines 191, 195) is read as the overload for float,
    [abs] of an int expression (lines 132, 142, 146) as the overload for int. *)
From Coq Require Import ZArith QArith List Bool.
From Verif Require Import Arith Outcome ColorModel GammaModel MatrixModel SpaceModel Heap Converter Calculation.
Import ListNotations.
Local Open Scope fl_scope.
Local Open Scope monad_scope.

Section Distance.
Context {F : Type} {AF : Arith F}.
Local Notation color := (color F).
Local Notation M := (M F).
Local Notation "$ n" := (fz n%Z) (at level 1, n at level 0, format "$ n").

(** Comparison of two colour pointers. *)
Definition ptr_eqb (a b : ptr) : bool :=
  match a, b with
  | None, None => true
  | Some x, Some y => Nat.eqb x y
  | _, _ => false
  end.

(** color_distance.cpp:214-217 *)
Definition to_rad (degree : F) : F := degree * (fpi / $180).
(** color_distance.cpp:219-222 *)
Definition to_deg (radians : F) : F := radians * ($180 / fpi).

(** The loop [squared_distance += powf(v[i] - w[i], 2.f)], e.g. color_distance.cpp:17-20;
    reading past the end of the second vector is undefined. *)
Fixpoint sum_squares (acc : F) (v w : list F) : outcome F :=
  match v, w with
  | [], _ => Ok acc
  | a :: v', b :: w' => sum_squares (acc + fpow (a - b) $2) v' w'
  | _ :: _, [] => Undef
  end.

(** The frame of all distance functions: 0 for the same object, conversion of both
    colours to type [X], 0 for the same object again. *)
Definition measure (X : ctype) (conv : ptr -> M ptr) (f : color -> color -> outcome F) (color1 color2 : ptr) : M F :=
  if ptr_eqb color1 color2 then ret $0
  else
    a <- conv color1 ;;
    b <- conv color2 ;;
    if ptr_eqb a b then ret $0
    else c1 <- load_as X a ;; c2 <- load_as X b ;; lift (f c1 c2).

Definition squared_f (c1 c2 : color) : outcome F := sum_squares $0 (comps c1) (comps c2).

(** color_distance.cpp:5-36 *)
Definition euclidean_distance_squared (color1 color2 : ptr) (calculation_space : ctype) : M F :=
  match calculation_space with
  | CIELUV => measure CIELUV to_cieluv squared_f color1 color2
  | _ => measure RGB_DEEP to_rgb_deep squared_f color1 color2
  end.

(** color_distance.cpp:38-43; the call in line 42 uses the default calculation space
    RGB_DEEP (color_distance.h:33) *)
Definition euclidean_distance (color1 color2 : ptr) (calculation_space : ctype) : M F :=
  if ptr_eqb color1 color2 then ret $0
  else d <- euclidean_distance_squared color1 color2 RGB_DEEP ;; ret (fsqrt d).

(** color_distance.cpp:55-60 *)
Definition weighted_f (c1 c2 : color) : outcome F :=
  with3 c1 (fun r1 g1 b1 => with3 c2 (fun r2 g2 b2 =>
    let avg_r := ((r1 + r2) / $2) * $255 in
    let delta_r_t := (r1 - r2) * $255 in
    let delta_g_t := (g1 - g2) * $255 in
    let delta_b_t := (b1 - b2) * $255 in
    Ok (fsqrt (($2 + avg_r / $256) * fpow delta_r_t $2 + $4 * fpow delta_g_t $2
               + ($2 + ($255 - avg_r) / $256) * fpow delta_b_t $2) / $255))).
(** color_distance.cpp:45-61 *)
Definition euclidean_distance_weighted : ptr -> ptr -> M F := measure RGB_DEEP to_rgb_deep weighted_f.

(** color_distance.cpp:74-79 *)
Definition cie76_f (c1 c2 : color) : outcome F :=
  let! d := squared_f c1 c2 in Ok (fsqrt d).
(** color_distance.cpp:63-80 *)
Definition cielab_delta_e_cie76 : ptr -> ptr -> M F := measure LAB to_lab cie76_f.

(** color_distance.cpp:92-100 *)
Definition cie94_f (kL k1 k2 kC kH : F) (c1 c2 : color) : outcome F :=
  with3 c1 (fun L1 a1 b1 => with3 c2 (fun L2 a2 b2 =>
    let delta_l := L1 - L2 in
    let ch1 := fsqrt (fpow a1 $2 + fpow b1 $2) in
    let ch2 := fsqrt (fpow a2 $2 + fpow b2 $2) in
    let delta_c := ch1 - ch2 in
    let delta_h := fsqrt (fpow (a1 - a2) $2 + fpow (b1 - b2) $2 - fpow delta_c $2) in
    let sc := $1 + k1 * ch1 in
    let sh := $1 + k2 * ch1 in
    Ok (fsqrt (fpow (delta_l / (kL * $1)) $2 + fpow (delta_c / (kC * sc)) $2 + fpow (delta_h / (kH * sh)) $2)))).
(** color_distance.cpp:82-101; defaults color_distance.h:87: 1, 0.045, 0.015, 1, 1 *)
Definition cielab_delta_e_cie94 (color1 color2 : ptr) (kL k1 k2 kC kH : F) : M F :=
  measure LAB to_lab (cie94_f kL k1 k2 kC kH) color1 color2.

(** color_distance.cpp:124-127: the hue angle as an int in 0..359 *)
Definition hue_int (b a : F) : outcome Z :=
  match ftoZ (to_deg (fatan2 b a)) with
  | Some d => let h := Z.rem d 360 in Ok (if (h <? 0)%Z then (h + 360)%Z else h)
  | None => Undef
  end.

(** color_distance.cpp:113-163 *)
Definition cie00_f (kL k1 k2 kC kH : F) (c1 c2 : color) : outcome F :=
  with3 c1 (fun L1 a1 b1 => with3 c2 (fun L2 a2 b2 =>
    let avg_l := (L1 + L2) / $2 in
    let C1 := fsqrt (fpow a1 $2 + fpow b1 $2) in
    let C2 := fsqrt (fpow a2 $2 + fpow b2 $2) in
    let avg_c := (C1 + C2) / $2 in
    let sqrt_c_pow := fsqrt (fpow avg_c $7 / (fpow avg_c $7 + fpow $25 $7)) in
    let temp_a1 := a1 + a1 / $2 * ($1 - sqrt_c_pow) in
    let temp_a2 := a2 + a2 / $2 * ($1 - sqrt_c_pow) in
    let! h1 := hue_int b1 temp_a1 in
    let! h2 := hue_int b2 temp_a2 in
    let H := if (180 <? Z.abs (h1 - h2))%Z then (fofZ (h1 + h2) + $360) / $2 else fofZ (h1 + h2) / $2 in
    let delta_h := if (Z.abs (h2 - h1) <=? 180)%Z then (h2 - h1)%Z
                   else if (h2 <=? h1)%Z then (h2 - h1 + 360)%Z else (h2 - h1 - 360)%Z in
    let delta_L := L2 - L1 in
    let delta_C := C2 - C1 in
    let delta_H := $2 * fsqrt (C1 * C2) * fsin (to_rad (fofZ delta_h / $2)) in
    let sC := $1 + k1 * avg_c in
    let sH := $1 + k2 * avg_c * ($1 - lit (17 # 100) * fcos (to_rad (H - $30)) + lit (24 # 100) * fcos (to_rad ($2 * H))
                + lit (32 # 100) * fcos (to_rad ($3 * H + $6)) - lit (2 # 10) * fcos (to_rad ($4 * H - $63))) in
    let sL := $1 + ((k2 * fpow (avg_l - $50) $2) / fsqrt ($20 + fpow (avg_l - $50) $2)) in
    let rt := fz (-2) * sqrt_c_pow * fsin (to_rad ($60 * fexp (fpow (- (H - $275) / $25) $2))) in
    Ok (fsqrt (fpow (delta_L / (kL * sL)) $2 + fpow (delta_C / (kC * sC)) $2 + fpow (delta_H / (kH * sH)) $2
               + rt * (delta_C / (kC * sC)) * (delta_H / (kH * sH)))))).
(** color_distance.cpp:103-164; defaults color_distance.h:104: 1, 0.045, 0.015, 1, 1 *)
Definition cielab_delta_e_cie00 (color1 color2 : ptr) (kL k1 k2 kC kH : F) : M F :=
  measure LAB to_lab (cie00_f kL k1 k2 kC kH) color1 color2.

(** color_distance.cpp:176-211 *)
Definition cmc_f (lightness chroma : F) (c1 c2 : color) : outcome F :=
  with3 c1 (fun L1 a1 b1 => with3 c2 (fun L2 a2 b2 =>
    let C1 := fsqrt (fpow a1 $2 + fpow b1 $2) in
    let C2 := fsqrt (fpow a2 $2 + fpow b2 $2) in
    let delta_C := C1 - C2 in
    let delta_a := a1 - a2 in
    let delta_b := b1 - b2 in
    let delta_H := fsqrt (fpow delta_a $2 + fpow delta_b $2 - fpow delta_C $2) in
    let delta_L := L1 - L2 in
    let H0 := to_deg (fatan2 b1 a1) in
    let H := if H0 <? $0 then H0 + $360 else H0 in
    let F_ := fsqrt (fpow C1 $4 / (fpow C1 $4 + $1900)) in
    let T := if ($164 <? H) && (H <=? $345)
             then lit (56 # 100) + fabs (lit (2 # 10) * fcos (to_rad (H + $168)))
             else lit (36 # 100) + fabs (lit (4 # 10) * fcos (to_rad (H + $35))) in
    let sL := if L1 <? $16 then lit (511 # 1000) else (lit (40975 # 1000000) * L1) / ($1 + lit (1765 # 100000) * L1) in
    let sC := (lit (638 # 10000) * C1) / ($1 + lit (131 # 10000) * C1) + lit (638 # 1000) in
    let sH := sC * (F_ * T + $1 - F_) in
    Ok (fsqrt (fpow (delta_L / (lightness * sL)) $2 + fpow (delta_C / (chroma * sC)) $2 + fpow (delta_H / sH) $2)))).
(** color_distance.cpp:166-212; defaults color_distance.h:118: 2, 1 *)
Definition cmc_delta_e_lc84 (color1 color2 : ptr) (lightness chroma : F) : M F :=
  measure LAB to_lab (cmc_f lightness chroma) color1 color2.

End Distance.
