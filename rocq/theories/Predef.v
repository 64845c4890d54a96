(** * utils/colors.h:178-251 class predefined_color: named colours in ten types *)
From Coq Require Import ZArith QArith List Bool.
From Verif Require Import Arith Outcome ColorModel HexModel GammaModel MatrixModel SpaceModel Heap Converter.
Import ListNotations.

Section Predef.
Context {F : Type} {AF : Arith F}.

(** utils/colors.h:188 constructor: [base = new rgb_truecolor(hex_code, ref_white)].  The
    object has no other member, so it is represented by the pointer [base]. *)
Definition new_predefined_color (hex_code : Z) (ref_white : option nat) : M F ptr :=
  bind (lift (predefined_color hex_code ref_white)) alloc.

(** utils/colors.h:195-249, the getters *)
Definition get_rgb_true (base : ptr) : M F ptr := ret base.
Definition get_rgb_deep (base : ptr) : M F ptr := to_rgb_deep base.
Definition get_grey_true (base : ptr) : M F ptr := to_grey_true base.
Definition get_grey_deep (base : ptr) : M F ptr := to_grey_deep base.
Definition get_cmyk (base : ptr) : M F ptr := to_cmyk base.
Definition get_hsv (base : ptr) : M F ptr := to_hsv base.
Definition get_hsl (base : ptr) : M F ptr := to_hsl base.
Definition get_xyz (base : ptr) : M F ptr := to_xyz base.
Definition get_xyy (base : ptr) : M F ptr := to_xyy base.
Definition get_lab (base : ptr) : M F ptr := to_lab base.

End Predef.
