(** * Greys: vocabulary of the claims C196 and C197 *)
From Coq Require Import ZArith QArith Reals List Bool.
From Flocq Require Import Core IEEE754.BinarySingleNaN.
From Verif Require Import Arith ColorModel Heap F32 Spec Spec32 Spec_Conv.
Local Open Scope R_scope.

(** [m] has type [X], hue 0, saturation 0, third component of value [v], and the alpha value and RGB space of [c]. *)
Definition neutral (X : ctype) (c : color f32) (v : f32) (m : color f32) : Prop :=
  ty m = X /\ comp_sat m 0 (fun x => is_value x 0) /\ comp_sat m 1 (fun x => is_value x 0) /\ comp_sat m 2 (fun x => is_value x (B2R v)) /\
  m_alpha m = m_alpha c /\ rgb_space m = rgb_space c.
(** [d] is a deep RGB colour whose three channels have the value of [v], with the RGB space of [c] and, if [keep], its alpha value. *)
Definition grey_like (c : color f32) (v : f32) (keep : Prop) (d : color f32) : Prop :=
  ty d = RGB_DEEP /\ (forall i, (i < 3)%nat -> comp_sat d i (fun x => is_value x (B2R v))) /\ (keep -> m_alpha d = m_alpha c) /\ rgb_space d = rgb_space c.
