(** * The components of a binary32 colour against a list of exact numbers *)
From Coq Require Import ZArith Reals List.
From Verif Require Import Arith ColorModel F32 Spec32 Spec_Error.
Local Open Scope R_scope.

(** Component [i] is finite and within [e] of the i-th number of [l]. *)
Definition channels (l : list R) (e : R) (d : color f32) : Prop := forall i v, nth_error l i = Some v -> comp_sat d i (approx v e).
