(** * Specification vocabulary for binary32 values and hex strings *)
From Coq Require Import ZArith Reals List Bool Ascii String.
From Flocq Require Import Core IEEE754.BinarySingleNaN.
From Verif Require Import Arith ColorModel Spec F32.
Import ListNotations.

(** A finite (so: not NaN, not infinite) float whose real value lies in [lo, hi]. *)
Definition in_interval (lo hi : Z) (x : f32) : Prop :=
  is_finite x = true /\ (IZR lo <= B2R x <= IZR hi)%R.

(** A finite float whose real value is exactly [r]. *)
Definition is_value (x : f32) (r : R) : Prop := is_finite x = true /\ B2R x = r.

(** Component [i] of a colour exists and satisfies [P]. *)
Definition comp_sat (c : color f32) (i : nat) (P : f32 -> Prop) : Prop :=
  exists x, nth_error (comps c) i = Some x /\ P x.

(** Some special floats for examples. *)
Definition nan32 : f32 := B754_nan.
Definition inf32 : f32 := B754_infinity false.
Definition ninf32 : f32 := B754_infinity true.

(** A concrete oracle, for examples: every unspecified function returns NaN. *)
Definition nan_oracle : oracle :=
  Oracle (fun _ _ => B754_nan) (fun _ => B754_nan) (fun _ => B754_nan)
         (fun _ _ => B754_nan) (fun _ => B754_nan) (fun _ => B754_nan).

(** Hexadecimal digits: the character at position [v] of one of these strings. *)
Definition lower_digits : list ascii := list_ascii_of_string "0123456789abcdef".
Definition upper_digits : list ascii := list_ascii_of_string "0123456789ABCDEF".
Definition digit_value (c : ascii) (v : nat) : Prop :=
  (v < 16)%nat /\ (nth_error lower_digits v = Some c \/ nth_error upper_digits v = Some c).

(** An object of class and type [k] with the right number of components, each a finite
    float in its documented interval. *)
Definition colour_of_type (k : ctype) (c : color f32) : Prop :=
  In k all_types /\ cls c = k /\ ty c = k /\ List.length (comps c) = arity k /\
  forall i x, nth_error (comps c) i = Some x ->
    in_interval (fst (comp_range k i)) (snd (comp_range k i)) x.
