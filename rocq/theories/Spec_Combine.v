(** * Specification vocabulary for color_combinations *)
From Coq Require Import ZArith Reals List Bool.
From Flocq Require Import Core IEEE754.BinarySingleNaN.
From Verif Require Import Arith Outcome ColorModel Heap Converter Combine F32 Spec Spec32 Spec_Conv Spec_Calc.
Import ListNotations.

(** The colour at [q] was obtained by converting a new HSL colour [v] to type [X], in
    the course of a computation from heap [h] to heap [h']. *)
Definition converted_from {F} {AF : Arith F} (X : ctype) (h h' : heap F) (q : nat) (v : color F) : Prop :=
  exists p h1 h2, unchanged h h1 /\ fresh h p /\ at_addr h1 p v /\ convertTo (Some p) X h1 = (Ok (Some q), h2) /\ unchanged h2 h'.

(** An angle [v] in degrees, normalised to [0, 360) and limited to 359. *)
Definition normalised (v x : R) : Prop :=
  exists (k : Z) m, v = (360 * IZR k + m)%R /\ (0 <= m < 360)%R /\ x = Rmin m 359.

(** [c] is an HSL colour with the given components. *)
Definition hsl_of {F} (c : color F) (h s l : F) : Prop := ty c = HSL /\ comps c = [h; s; l].

(** A call throws (a pointer to) std::invalid_argument. *)
Definition throws_invalid {F A} (m : M F A) (h : heap F) : Prop :=
  exists h', m h = (Throw (by_pointer invalid_argument), h').

(** A binary32 number above [x]. *)
Definition above (x : R) (w : f32) : Prop := w = inf32 \/ (is_finite w = true /\ (x < B2R w)%R).

(** New colours [qs] of type [X] made from [c] in the course of a computation from [h] to [h']. *)
Definition new_colours (X : ctype) (c : color f32) (h h' : heap f32) (qs : list nat) : Prop :=
  NoDup qs /\ unchanged h h' /\
  forall q, In q qs -> fresh h q /\ exists r, at_addr h' q r /\ colour_of_type X r /\ rgb_space r = rgb_space c.

(** Saturation and lightness of the [k]-th colour of a monochromatic scheme: multiplied [k] times by [f]. *)
Definition mono_values (mode : Z) (f s l : R) (k : nat) : R * R :=
  match mode with 0%Z => (s * f ^ k, l)%R | 1%Z => (s, l * f ^ k)%R | _ => (s * f ^ k, l * f ^ k)%R end.
