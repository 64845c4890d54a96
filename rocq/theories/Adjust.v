(** * manipulation/color_adjustments.cpp *)
From Coq Require Import ZArith QArith List Bool.
From Verif Require Import Arith Outcome ColorModel GammaModel MatrixModel SpaceModel Heap Converter Calculation.
Import ListNotations.
Local Open Scope fl_scope.
Local Open Scope monad_scope.

Section Adjust.
Context {F : Type} {AF : Arith F}.
Local Notation color := (color F).
Local Notation M := (M F).
Local Notation "$ n" := (fz n%Z) (at level 1, n at level 0, format "$ n").

(** color_adjustments.cpp:13-16: the object constructed from the converted colour *)
Definition saturate_rgb_f (percentage : F) (sp : option nat) (d : color) : outcome color :=
  with3 d (fun r g b =>
    let L := lit (299 # 1000) * r + lit (587 # 1000) * g + lit (114 # 1000) * b in
    let new_r := r - percentage * (L - r) in
    let new_g := g - percentage * (L - g) in
    let new_b := b - percentage * (L - b) in
    rgb_deepcolor new_r new_g new_b (alpha d) sp).

(** color_adjustments.cpp:47-50 *)
Definition luminate_rgb_f (percentage : F) (sp : option nat) (d : color) : outcome color :=
  with3 d (fun r g b =>
    let factor := $1 + percentage in
    rgb_deepcolor (r * factor) (g * factor) (b * factor) (alpha d) sp).

(** The frame of the two RGB functions: convert to deep RGB, construct, convert back. *)
Definition adjust_rgb (f : option nat -> color -> outcome color) (color : ptr) : M ptr :=
  a <- convertTo color RGB_DEEP ;;
  d <- load_as RGB_DEEP a ;;
  c <- load color ;;
  r <- lift (f (rgb_space c) d) ;;
  q <- alloc r ;;
  convertTo q (ty c).

(** color_adjustments.cpp:9-19 *)
Definition saturate_in_rgb_space (color : ptr) (percentage : F) : M ptr :=
  adjust_rgb (saturate_rgb_f percentage) color.
(** color_adjustments.cpp:43-53 *)
Definition luminate_in_rgb_space (color : ptr) (percentage : F) : M ptr :=
  adjust_rgb (luminate_rgb_f percentage) color.

(** The frame of the two HSL functions: component [i] of the HSL colour is multiplied
    in place.  If the colour already is an HSL colour, it is the colour itself. *)
Definition adjust_hsl (i : nat) (color : ptr) (percentage : F) : M ptr :=
  if percentage ==? $0 then ret color
  else
    a <- convertTo color HSL ;;
    d <- load_as HSL a ;;
    v <- lift (let! x := raw_comp d i in named_set HSL d (x * ($1 + percentage)) i) ;;
    store a v ;;;
    c <- load color ;;
    convertTo a (ty c).

(** color_adjustments.cpp:26-36 *)
Definition saturate_in_hsl_space : ptr -> F -> M ptr := adjust_hsl 1.
(** color_adjustments.cpp:60-70 *)
Definition luminate_in_hsl_space : ptr -> F -> M ptr := adjust_hsl 2.

(** The overloads on references, [color = *f(&color, percentage)]: the result is
    assigned with color_base::operator=. *)
Definition adjust_ref (f : ptr -> F -> M ptr) (color : nat) (percentage : F) : M unit :=
  q <- f (Some color) percentage ;;
  r <- load q ;;
  c <- load (Some color) ;;
  store (Some color) (base_assign c r).

(** color_adjustments.cpp:4-7 *)
Definition saturate_in_rgb_space_ref := adjust_ref saturate_in_rgb_space.
(** color_adjustments.cpp:21-24 *)
Definition saturate_in_hsl_space_ref := adjust_ref saturate_in_hsl_space.
(** color_adjustments.cpp:38-41 *)
Definition luminate_in_rgb_space_ref := adjust_ref luminate_in_rgb_space.
(** color_adjustments.cpp:55-58 *)
Definition luminate_in_hsl_space_ref := adjust_ref luminate_in_hsl_space.

End Adjust.
