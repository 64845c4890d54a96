(** * Specification vocabulary for the laws of sums and mixtures *)
From Coq Require Import ZArith Reals List.
From Flocq Require Import Core IEEE754.BinarySingleNaN.
From Verif Require Import Arith Outcome ColorModel Heap F32 Spec Spec32 Spec_Conv Spec_Sum Spec_Error Spec_Rank Spec_Mix.
Import ListNotations.
Local Open Scope R_scope.

(** The types that are combined without conversion. *)
Definition own_types : list ctype := HSV :: plain_types.
(** The types whose components are combined linearly. *)
Definition linear_types : list ctype := [GREY_TRUE; GREY_DEEP; CMYK; XYZ; XYY; CIELUV].

(** Two computations return colours of the same type with the same components, and the
    same alpha if it is included. *)
Definition agree {F} (ia : bool) (m n : M F ptr) (h : heap F) : Prop :=
  exists q1 r1 h1 q2 r2 h2, m h = (Ok (Some q1), h1) /\ at_addr h1 q1 r1 /\ n h = (Ok (Some q2), h2) /\ at_addr h2 q2 r2 /\
    ty r1 = ty r2 /\ comps r1 = comps r2 /\ (ia = true -> m_alpha r1 = m_alpha r2).

(** powf(x, 2) does not fall. *)
Definition rising_square (o : oracle) : Prop := forall x y : f32, is_finite x = true -> is_finite y = true -> 0 <= B2R x <= B2R y -> B2R y <= 1024 ->
  B2R (o_pow o x (@fz f32 (F32 o) 2)) <= B2R (o_pow o y (@fz f32 (F32 o) 2)).

(** No component of [c] is larger than that of [d]. *)
Definition below (c d : color R) : Prop := length (comps c) = length (comps d) /\
  forall i v w, nth_error (comps c) i = Some v -> nth_error (comps d) i = Some w -> v <= w.
Definition below32 (c d : color f32) : Prop := length (comps c) = length (comps d) /\
  forall i v w, nth_error (comps c) i = Some v -> nth_error (comps d) i = Some w -> is_finite v = true /\ is_finite w = true /\ B2R v <= B2R w.

(** Two computations, in two states, return colours of which the first is not larger in any component. *)
Definition ordered {F} (R : color F -> color F -> Prop) (m : M F ptr) (h : heap F) (n : M F ptr) (h' : heap F) : Prop :=
  exists q1 r1 h1 q2 r2 h2, m h = (Ok (Some q1), h1) /\ at_addr h1 q1 r1 /\ n h' = (Ok (Some q2), h2) /\ at_addr h2 q2 r2 /\ R r1 r2.
(** The types whose components are combined as squares; for the others nothing is asked of powf. *)
Definition good_squares (o : oracle) (X : ctype) : Prop := ~ In X linear_types -> accurate_square o /\ positive_square o /\ rising_square o.
