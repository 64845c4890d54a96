(** * Specification vocabulary for the accuracy of CIE coordinates in binary32 *)
From Coq Require Import Reals.
From Flocq Require Import Core IEEE754.BinarySingleNaN.
From Verif Require Import SpaceModel F32.
Local Open Scope R_scope.

(** The numbers that the floats of the white point stand for. *)
Definition white_value (w : white_point f32) : white_point R :=
  White (B2R (tx w)) (B2R (ty_ w)) (B2R (tz w)) (B2R (cx w)) (B2R (cy w)) (B2R (cz w)).
(** A coordinate that is not above the white's, which is positive. *)
Definition below_white (x w : f32) : Prop := is_finite w = true /\ 0 < B2R w /\ B2R x <= B2R w.
