(** * Specification vocabulary: routes of conversions *)
From Coq Require Import Bool.
From Verif Require Import ColorModel Spec_Conv.

(** The types whose mutual conversions do not go through deep RGB. *)
Definition plain_level (X : ctype) : bool := match X with RGB_TRUE | GREY_TRUE | GREY_DEEP => true | _ => false end.
Definition hs_level (X : ctype) : bool := match X with HSV | HSL => true | _ => false end.

(** [X], [M], [Y] are different types and [M] lies between [X] and [Y]:
    - deep RGB between all types but two of CIE, of 8-bit RGB and the greys, of HSV and HSL;
    - XYZ next to every CIE type but between a CIE type and its polar form;
    - Lab next to LCh(ab), CIELUV next to LCh(uv), 8-bit RGB before 8-bit grey. *)
Definition on_route (X M Y : ctype) : bool :=
  match M with
  | RGB_DEEP => negb (cie X && cie Y) && negb (plain_level X && plain_level Y) && negb (hs_level X && hs_level Y)
  | XYZ => match X, Y with
           | LAB, LCH_AB | LCH_AB, LAB | CIELUV, LCH_UV | LCH_UV, CIELUV => false
           | _, _ => cie X || cie Y
           end
  | LAB => match X, Y with LCH_AB, _ => true | _, LCH_AB => true | _, _ => false end
  | CIELUV => match X, Y with LCH_UV, _ => true | _, LCH_UV => true | _, _ => false end
  | RGB_TRUE => match X, Y with GREY_DEEP, _ => false | _, GREY_TRUE => true | _, _ => false end
  | _ => false
  end.
