(** * Specification vocabulary for color_adjustments *)
From Coq Require Import ZArith Reals List Bool.
From Flocq Require Import Core IEEE754.BinarySingleNaN.
From Verif Require Import Arith Outcome ColorModel Heap Converter Adjust F32 Spec Spec32 Spec_Conv Spec_Calc.
Import ListNotations.

(** The four adjustments. *)
Inductive adjustment := SaturateRGB | LuminateRGB | SaturateHSL | LuminateHSL.
Definition in_hsl (a : adjustment) : bool := match a with SaturateHSL | LuminateHSL => true | _ => false end.

(** The HSL component an adjustment in HSL changes. *)
Definition hsl_component (a : adjustment) : nat := match a with LuminateHSL => 2 | _ => 1 end.

Section Adjust.
Context {F : Type} {AF : Arith F}.
(** The functions on pointers and those on references. *)
Definition adjust (a : adjustment) : ptr -> F -> M F ptr :=
  match a with
  | SaturateRGB => saturate_in_rgb_space | LuminateRGB => luminate_in_rgb_space
  | SaturateHSL => saturate_in_hsl_space | LuminateHSL => luminate_in_hsl_space
  end.
Definition adjust_in_place (a : adjustment) : nat -> F -> M F unit :=
  match a with
  | SaturateRGB => saturate_in_rgb_space_ref | LuminateRGB => luminate_in_rgb_space_ref
  | SaturateHSL => saturate_in_hsl_space_ref | LuminateHSL => luminate_in_hsl_space_ref
  end.
End Adjust.

(** Confine a real number to [0, 1]. *)
Definition unit_clamp (x : R) : R := Rmax 0 (Rmin x 1).

(** The values of the channels (r, g, b) after an adjustment by [p]. *)
Definition luma (r g b : R) : R := (299 / 1000 * r + 587 / 1000 * g + 114 / 1000 * b)%R.
Definition adjusted (a : adjustment) (p r g b : R) : list R :=
  match a with
  | SaturateRGB => map (fun x => unit_clamp (x + p * (x - luma r g b))) [r; g; b]
  | _ => map (fun x => unit_clamp (x * (1 + p))) [r; g; b]
  end%R.

(** Lists of floats with the same values. *)
Definition same_values (l m : list f32) : Prop := Forall2 (fun x y => is_finite y = true /\ is_value x (B2R y)) l m.
