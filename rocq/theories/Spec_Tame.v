(** * Assumptions on the C library under which Delta E 2000 is defined *)
From Coq Require Import ZArith Reals List.
From Flocq Require Import Core IEEE754.BinarySingleNaN.
From Verif Require Import Arith F32.
Local Open Scope R_scope.

(** powf(x, 2) is a float in 0..2^15 for |x| up to 128, powf(x, 7) one in 0..2^60 for x in
    0..256, powf(25, 7) is at least 1, and atan2f of finite arguments is in -4..4. *)
Definition tame (o : oracle) : Prop :=
  (forall x : f32, is_finite x = true -> Rabs (B2R x) <= 128 -> let p := o_pow o x (@fz f32 (F32 o) 2) in is_finite p = true /\ 0 <= B2R p <= 32768) /\
  (forall x : f32, is_finite x = true -> 0 <= B2R x <= 256 -> let p := o_pow o x (@fz f32 (F32 o) 7) in is_finite p = true /\ 0 <= B2R p <= 2 ^ 60) /\
  1 <= B2R (o_pow o (@fz f32 (F32 o) 25) (@fz f32 (F32 o) 7)) /\
  (forall y x : f32, is_finite y = true -> is_finite x = true -> is_finite (o_atan2 o y x) = true /\ Rabs (B2R (o_atan2 o y x)) <= 4).
