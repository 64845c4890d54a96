(** * Sums, differences and hue circles: what color_calculation computes, in exact arithmetic *)
From Coq Require Import ZArith Reals List Bool.
From Verif Require Import Arith ColorModel RArith Spec Spec_Formula.
Import ListNotations.
Local Open Scope R_scope.

(** A value cut to the interval of component [i] of type [X]. *)
Definition into (X : ctype) (i : nat) (v : R) : R := cut (IZR (fst (comp_range X i))) (IZR (snd (comp_range X i))) v.
(** The alpha of 8-bit colours is cut to [0, 255], the alpha of other types is not cut. *)
Definition into_alpha (X : ctype) (v : R) : R := if eight_bit X then cut 0 255 v else v.

(** The types whose components are added one by one. *)
Definition plain_types : list ctype := [RGB_TRUE; RGB_DEEP; GREY_TRUE; GREY_DEEP; CMYK; XYZ; XYY; CIELUV].
(** RGB components are added as squares. *)
Definition weighted_sum (X : ctype) (w1 w2 a b : R) : R :=
  match X with RGB_TRUE | RGB_DEEP => sqrt (w1 * (a * a) + w2 * (b * b)) | _ => w1 * a + w2 * b end.

(** [r] is the colour of type [X] in which component [i] is [f a b] for the components [a]
    of [c1] and [b] of [c2], and alpha [g] of their alphas if it is included. *)
Definition combined (X : ctype) (ia : bool) (f : R -> R -> R) (c1 c2 r : color R) : Prop :=
  ty r = X /\ length (comps r) = arity X /\
  (forall i a b, nth_error (comps c1) i = Some a -> nth_error (comps c2) i = Some b -> nth_error (comps r) i = Some (into X i (f a b))) /\
  alpha r = (if ia then into_alpha X (f (alpha c1) (alpha c2)) else alpha c1) /\ rgb_space r = rgb_space c1.

(** The point of the hue circle: angle [h] in degrees, distance [s] from the centre. *)
Definition circle (h s : R) : R * R := (s * cos (h * PI / 180), s * sin (h * PI / 180)).
(** [l] are hue, saturation and value of a colour whose point on the hue circle is (x, y) -
    the hue cut to 359 and the saturation to 1 - and whose value is [v] cut to [0, 1]. *)
Definition hsv_at (x y v : R) (l : list R) : Prop :=
  exists h s, polar x y s h /\ l = [Rmin h 359; cut 0 1 s; cut 0 1 v].

(** The component dissolve takes for the random number [r], source alpha [a] and
    destination alpha [b]: in 25 of 101 cases the one of the less opaque colour. *)
Definition dissolved (r : Z) (a b s d : R) : R :=
  if Rlt_dec b a then (if Z_lt_le_dec (r mod 101) 25 then d else s) else (if Z_lt_le_dec (r mod 101) 25 then s else d).

(** The space in which colours of the other types are added. *)
Definition adding_type (X : ctype) : ctype := match X with HSI | HSL | HCY => HSV | LAB | LCH_AB | LCH_UV => XYZ | _ => X end.
