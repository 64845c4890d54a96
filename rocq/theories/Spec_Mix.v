(** * Specification vocabulary for sums, mixtures and differences in binary32 *)
From Coq Require Import ZArith Reals List.
From Flocq Require Import Core IEEE754.BinarySingleNaN.
From Verif Require Import Arith Outcome ColorModel F32 Spec Spec32 Spec_Sum Spec_Error.
Import ListNotations.
Local Open Scope R_scope.

(** powf(x, 2) is not negative. *)
Definition positive_square (o : oracle) : Prop := forall x : f32, is_finite x = true -> Rabs (B2R x) <= 1024 ->
  0 <= B2R (o_pow o x (@fz f32 (F32 o) 2)).

(** The largest component of the types that are added component by component: 255, 100 or 1. *)
Definition reach (X : ctype) : R := IZR (snd (limits X)).

(** [r] is a colour of type [X] in which component [i] is within [e] of [f a b], cut to the
    range of the component, for the components [a] of [c1] and [b] of [c2]. *)
Definition combined_near (X : ctype) (f : R -> R -> R) (e : R) (c1 c2 r : color f32) : Prop :=
  ty r = X /\ length (comps r) = arity X /\ rgb_space r = rgb_space c1 /\
  forall i x y, nth_error (comps c1) i = Some x -> nth_error (comps c2) i = Some y -> comp_sat r i (approx (into X i (f (B2R x) (B2R y))) e).
