(** * Specification vocabulary for the named colours *)
From Coq Require Import ZArith List Bool String.
From Verif Require Import Arith Outcome ColorModel HexModel GammaModel MatrixModel SpaceModel Heap Converter Predef.
Import ListNotations.

(** The types predefined_color offers *)
Definition offered : list ctype := [RGB_TRUE; RGB_DEEP; GREY_TRUE; GREY_DEEP; CMYK; HSV; HSL; XYZ; XYY; LAB].

(** Its getters, by type *)
Definition getter {F} {AF : Arith F} (T : ctype) : ptr -> M F ptr :=
  match T with
  | RGB_TRUE => get_rgb_true
  | RGB_DEEP => get_rgb_deep
  | GREY_TRUE => get_grey_true
  | GREY_DEEP => get_grey_deep
  | CMYK => get_cmyk
  | HSV => get_hsv
  | HSL => get_hsl
  | XYZ => get_xyz
  | XYY => get_xyy
  | LAB => get_lab
  | _ => fun _ => ret None
  end.
