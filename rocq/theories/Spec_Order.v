(** * Specification vocabulary: darker and brighter *)
From Coq Require Import Reals List Bool.
From Flocq Require Import Core IEEE754.BinarySingleNaN.
From Verif Require Import Arith ColorModel F32 Spec_Blend.
Import ListNotations.

Section Modes.
Context {F : Type}.
(** The modes that give nothing darker for brighter layers *)
Definition rising (m : mode F) : bool :=
  match m with
  | Normal | Multiply | Screen | Overlay | Darken | Lighten | ColorDodge | LinearDodge | LinearBurn | HardLight
  | LinearLight | PinLight | HardMix | PlusLighter | PlusDarker => true
  | _ => false
  end.
(** Pairs of modes, the first of which gives the darker colour *)
Definition mode_order : list (mode F * mode F) :=
  [(LinearBurn, Multiply); (Multiply, Darken); (Darken, Normal); (Normal, Lighten); (Lighten, Screen); (Screen, LinearDodge);
   (Multiply, Overlay); (Overlay, Screen); (Multiply, HardLight); (HardLight, Screen); (Multiply, PinLight); (PinLight, Screen);
   (Subtract, Difference); (Difference, Exclusion); (Exclusion, Screen); (Difference, Lighten);
   (LinearBurn, LinearLight); (LinearLight, LinearDodge)].
(** Those for which this holds in binary32 without exception *)
Definition mode_order_32 : list (mode F * mode F) :=
  [(Multiply, Darken); (Multiply, Normal); (Multiply, Lighten); (Darken, Normal); (Darken, Lighten); (Normal, Lighten); (Subtract, Difference);
   (Multiply, PinLight); (Multiply, HardLight); (Multiply, Overlay); (Difference, Lighten)].
End Modes.

(** [c] and [c'] have the same alpha, and no component of [c] is greater. *)
Definition darker (c c' : color R) : Prop :=
  m_alpha c = m_alpha c' /\ length (comps c) = length (comps c') /\
  forall i v v', nth_error (comps c) i = Some v -> nth_error (comps c') i = Some v' -> (v <= v')%R.
Definition darker32 (c c' : color f32) : Prop :=
  m_alpha c = m_alpha c' /\ length (comps c) = length (comps c') /\
  forall i v v', nth_error (comps c) i = Some v -> nth_error (comps c') i = Some v' ->
    is_finite v = true /\ is_finite v' = true /\ (B2R v <= B2R v')%R.
