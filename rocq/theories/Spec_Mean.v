(** * Specification vocabulary for averages in binary32 *)
From Coq Require Import ZArith Reals List.
From Flocq Require Import Core IEEE754.BinarySingleNaN.
From Verif Require Import Arith ColorModel F32 Spec Spec32 Spec_Calc Spec_Error.
Import ListNotations.
Local Open Scope R_scope.

(** The largest absolute value the component [i] of a colour of type [X] may have. *)
Definition magnitude (X : ctype) (i : nat) : Z := Z.max (Z.abs (fst (comp_range X i))) (Z.abs (snd (comp_range X i))).

(** The error allowed for the mean of [n] numbers of absolute value at most [m]. *)
Definition mean_error (n : nat) (m : Z) : R := (INR n + 3) * IZR m / 16777216.

(** [r] holds the componentwise mean of the colours [cs], up to that error; without
    [ia] it has the alpha of the first one, [c], and with it the mean alpha. *)
Definition mean_of (o : oracle) (X : ctype) (ia : bool) (c : color f32) (cs : list (color f32)) (r : color f32) : Prop :=
  ty r = X /\ rgb_space r = rgb_space c /\
  (forall i, (i < arity X)%nat -> comp_sat r i (approx (mean (map B2R (@components f32 (F32 o) i cs))) (mean_error (length cs) (magnitude X i)))) /\
  (ia = false -> m_alpha r = m_alpha c) /\
  (ia = true -> X <> CMYK -> Forall (@alpha_ok f32 (F32 o)) cs -> approx (mean (map B2R (map m_alpha cs))) (mean_error (length cs) 1) (m_alpha r)).
