(** * Compositing deep colours: how far the stored colour may be from the exact one *)
From Coq Require Import ZArith Reals List.
From Flocq Require Import IEEE754.BinarySingleNaN.
From Verif Require Import Arith ColorModel F32 Spec Spec32 Spec_Blend Spec_Byte Spec_Error.
Local Open Scope R_scope.

(** The modes with a continuous textbook function into [0, 1] that the library follows. *)
Definition film_function (m : mode f32) : option (R -> R -> R) :=
  match m with
  | Normal | Multiply | Screen | Overlay | HardLight | Darken | Lighten | PinLight | Difference | ColorDodge => exact_function m
  | _ => None
  end.

(** [x] is a number of [0, 1], and its contribution to an area of size [area] differs from
    [amount] by at most [e]. *)
Definition contributes (area amount e : R) (x : f32) : Prop := in_interval 0 1 x /\ Rabs (area * B2R x - amount) <= e.
