(** * Specification vocabulary for the algebra of compositing and blending *)
From Coq Require Import Reals List Bool.
From Flocq Require Import Core IEEE754.BinarySingleNaN.
From Verif Require Import Arith ColorModel SpaceModel F32 RArith Spec_Blend Spec_Adapt.

(** The operators for which it does not matter how three layers are grouped. *)
Definition associative (p : operator) : bool :=
  match p with Src | Dest | Over | DestOver | In_ | DestIn | Clear => true | _ => false end.

(** The mode that does the same with the two layers exchanged, if there is one. *)
Definition mirror {F} (m : mode F) : option (mode F) :=
  match m with
  | Multiply | Screen | Darken | Lighten | LinearDodge | LinearBurn | PlusLighter | PlusDarker | Difference | Exclusion | HardMix => Some m
  | Overlay => Some HardLight
  | HardLight => Some Overlay
  | _ => None
  end.
Definition chooses {F} (m : mode F) : bool := match m with Darken | Lighten => true | _ => false end.
Definition thresholds {F} (m : mode F) : bool := match m with HardMix => true | _ => false end.

(** No component is the negative zero of binary32. *)
Definition no_negative_zero (c : color f32) : Prop := forall v, In v (comps c) -> v <> B754_zero true.

(** ** Chromatic adaptation in exact arithmetic *)
Section Chain.
Local Open Scope R_scope.
(** The XYZ value [v] under white [w0], seen under white [w]: the von Kries transform of a method *)
Definition adapted (m : method R) (w0 w : white_point R) (v : R * R * R) : R * R * R :=
  mat3 (method_inverse m) (mul3 (div3 (responses m w) (responses m w0)) (mat3 (method_matrix m) v)).
(** No cone response grows by more than the factor [k]. *)
Definition gains (m : method R) (w0 w : white_point R) (k : R) : Prop :=
  let '(x, y, z) := div3 (responses m w) (responses m w0) in Rabs x <= k /\ Rabs y <= k /\ Rabs z <= k.
End Chain.
