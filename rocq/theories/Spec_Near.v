(** * Colours that are close to one another *)
From Coq Require Import ZArith Reals List.
From Flocq Require Import Core IEEE754.BinarySingleNaN.
From Verif Require Import Arith ColorModel F32.
Import ListNotations.
Local Open Scope R_scope.

(** The distance of two hues on the circle, in degrees. *)
Definition arc (h h' : R) : R := Rmin (Rabs (h - h')) (360 - Rabs (h - h')).

(** The components agree in number, and each pair differs by at most [e]. *)
Definition close_by (e : R) (l l' : list R) : Prop := Forall2 (fun a b => Rabs (a - b) <= e) l l'.
(** The same for three components stored as floats, which are all finite. *)
Definition close32 (e : R) (d d' : color f32) : Prop := forall i, (i < 3)%nat -> exists x x',
  nth_error (comps d) i = Some x /\ nth_error (comps d') i = Some x' /\ is_finite x = true /\ is_finite x' = true /\ Rabs (B2R x - B2R x') <= e.
