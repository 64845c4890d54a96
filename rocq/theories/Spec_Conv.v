(** * Specification vocabulary for the colour conversions *)
From Coq Require Import ZArith List Bool.
From Verif Require Import Arith Outcome ColorModel MatrixModel SpaceModel Heap Converter Spec Spec_Matrix.
Import ListNotations.
Local Open Scope Z_scope.

(** The types computed from the CIE XYZ tristimulus values; the nine others describe a
    mixture of the primaries of a device. *)
Definition cie (k : ctype) : bool :=
  match k with XYZ | XYY | CIELUV | LAB | LCH_AB | LCH_UV => true | _ => false end.

(** A conversion between two device types does not look at the RGB space definition. *)
Definition needs_space (X Y : ctype) : bool := cie X || cie Y.

Section Conv.
Context {F : Type} {AF : Arith F}.

(** A usable RGB space definition: it has a white point and a gamma curve, and 3x3
    transformation matrices. *)
Definition usable_space (s : space_def F) : Prop :=
  s_white s <> None /\ s_gamma s <> None /\ rect 3 3 (s_matrix s) /\ rect 3 3 (s_inverse s).

(** The colour refers to a usable RGB space definition of the heap. *)
Definition has_space (h : heap F) (c : color F) : Prop :=
  exists i s, rgb_space c = Some i /\ nth_error (spaces h) i = Some s /\ usable_space s.

(** [i] is the address of the colour [c]. *)
Definition at_addr (h : heap F) (i : nat) (c : color F) : Prop := nth_error (colors h) i = Some c.

(** [i] is not the address of an object of the heap. *)
Definition fresh (h : heap F) (i : nat) : Prop := (length (colors h) <= i)%nat.

(** Every object of [h] except the one at [p] is unchanged in [h'], and so are all RGB
    space definitions. *)
Definition others_unchanged (h h' : heap F) (p : nat) : Prop :=
  spaces h' = spaces h /\
  forall i c, i <> p -> at_addr h i c -> at_addr h' i c.

(** Every colour of [h] and every space definition is unchanged in [h']. *)
Definition unchanged (h h' : heap F) : Prop :=
  spaces h' = spaces h /\ forall i c, at_addr h i c -> at_addr h' i c.

(** The 8-bit stored alpha is a multiple of 1/255 as computed from an alpha on the
    0..255 scale. *)
Definition scaled_alpha (a : F) : F := fmax (fmin (fdiv a (fz 255)) (fz 1)) (fz 0).

(** The stored alpha of the conversion of a colour of type [X] with stored alpha [a]
    to type [Y]: unchanged, except that it is rounded to a multiple of 1/255 when an
    8-bit type is reached from another one. *)
Definition converted_alpha (X Y : ctype) (a : F) : F :=
  if eight_bit Y && negb (eight_bit X) then scaled_alpha (fround (fmul a (fz 255))) else a.

(** An HSL colour of lightness 0. *)
Definition black_hsl (c : color F) : Prop :=
  ty c = HSL /\ exists h s l, comps c = [h; s; l] /\ feq l (fz 0) = true.

(** The fifteen to_... functions (color_converter.cpp:1462-2046), by target type *)
Definition to_type (Y : ctype) : ptr -> M F ptr :=
  match Y with
  | RGB_TRUE => to_rgb_true
  | RGB_DEEP => to_rgb_deep
  | GREY_TRUE => to_grey_true
  | GREY_DEEP => to_grey_deep
  | CMYK => to_cmyk
  | HSI => to_hsi
  | HSV => to_hsv
  | HSL => to_hsl
  | HCY => to_hcy
  | XYZ => to_xyz
  | XYY => to_xyy
  | CIELUV => to_cieluv
  | LAB => to_lab
  | LCH_AB => to_lch_ab
  | LCH_UV => to_lch_uv
  | UNDEFINED => fun _ => ret None
  end.

End Conv.
