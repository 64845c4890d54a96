(** * Specification vocabulary for distances of arbitrary colours in binary32 *)
From Coq Require Import ZArith Reals List.
From Flocq Require Import Core IEEE754.BinarySingleNaN.
From Verif Require Import Arith Outcome ColorModel F32 Spec Spec32 Spec_Distance.
Import ListNotations.
Local Open Scope R_scope.

(** The components as numbers. *)
Definition numbers (c : color f32) : list R := map (@B2R 24 128) (comps c).
(** Within 2^-20 of its value, plus 2^-28. *)
Definition measures (v : R) (x : f32) : Prop := is_finite x = true /\ Rabs (B2R x - v) <= v / 1048576 + / 268435456.
(** The same for squared distances: 2^-19 of the value, plus 2^-57. *)
Definition measures2 (v : R) (x : f32) : Prop := is_finite x = true /\ Rabs (B2R x - v) <= v / 524288 + / 144115188075855872.
(** The unweighted distances and their squares. *)
Definition plain_distance (d : distance_fun f32) : Prop := d = Cie76 \/ exists s, d = Euclid s.
