(** * Properties: averages of colours of the deep types in binary32 *)
From Coq Require Import ZArith Reals List Permutation.
From Flocq Require Import Core IEEE754.BinarySingleNaN.
From Verif Require Import Arith Outcome ColorModel Heap Calculation F32 Spec Spec32 Spec_Conv Spec_Error Spec_Calc Spec_Mean Mean3_Proofs Mean4_Proofs.
Import ListNotations.
Local Open Scope R_scope.

(** C213 *)
Theorem C213_mean : forall o X ia (h : heap f32) p ps c cs, In X all_types -> eight_bit X = false -> points_to h (p :: ps) (c :: cs) ->
  Forall (@wf_color f32 (F32 o) X) (c :: cs) -> (Z.of_nat (length (c :: cs)) <= 16384)%Z ->
  returns (@average f32 (F32 o) X (p :: ps) ia) h (mean_of o X ia c (c :: cs)).
Proof. exact deep_mean. Qed.
Print Assumptions C213_mean.
Example C213_example : forall o k, (k = HSV \/ k = HSL \/ k = HCY) -> exists (h : heap f32) c x s v, points_to h [Some 0%nat; Some 0%nat] [c; c] /\
  Forall (@wf_color f32 (F32 o) k) [c; c] /\ comps c = [x; s; v] /\ B2R x = 200 /\ B2R s = 1 /\ B2R v = 1.
Proof. exact two_hues. Qed.
(** Two components in [0, 1]: the error is below 5 units of 2^-24. *)
Example C213_pair : mean_error 2 1 = 5 / 16777216.
Proof. exact error_pair. Qed.

(** C214 *)
Theorem C214_order : forall o X ia (h : heap f32) ps ps' cs cs', In X all_types -> eight_bit X = false -> cs <> [] -> points_to h ps cs -> points_to h ps' cs' -> Permutation cs cs' ->
  Forall (@wf_color f32 (F32 o) X) cs -> (Z.of_nat (length cs) <= 16384)%Z ->
  returns (@average f32 (F32 o) X ps ia) h (fun r => returns (@average f32 (F32 o) X ps' ia) h (fun r' =>
    forall i, (i < arity X)%nat -> comp_sat r i (fun x => comp_sat r' i (fun x' => Rabs (B2R x - B2R x') <= 2 * mean_error (length cs) (magnitude X i))))).
Proof. exact deep_order. Qed.
Print Assumptions C214_order.
Theorem C214_equal : forall o X ia (h : heap f32) ps c, In X all_types -> eight_bit X = false -> ps <> [] -> (Z.of_nat (length ps) <= 16384)%Z ->
  points_to h ps (repeat c (length ps)) -> @wf_color f32 (F32 o) X c ->
  returns (@average f32 (F32 o) X ps ia) h (fun r => forall i, (i < arity X)%nat ->
    comp_sat r i (fun x => comp_sat c i (fun y => Rabs (B2R x - B2R y) <= mean_error (length ps) (magnitude X i)))).
Proof. exact deep_equal. Qed.
Print Assumptions C214_equal.
Theorem C214_order_inexact : forall o, exists (h : heap f32) ps ps' cs cs' v v', points_to h ps cs /\ points_to h ps' cs' /\ Permutation cs cs' /\ Forall (@wf_color f32 (F32 o) GREY_DEEP) cs /\
  returns (@average f32 (F32 o) GREY_DEEP ps false) h (fun r => comp_sat r 0 (fun x => is_value x v)) /\
  returns (@average f32 (F32 o) GREY_DEEP ps' false) h (fun r => comp_sat r 0 (fun x => is_value x v')) /\ v <> v'.
Proof. exact order_differs. Qed.
Print Assumptions C214_order_inexact.
Theorem C214_equal_inexact : forall o, exists (h : heap f32) ps c, points_to h ps (repeat c 3) /\ @wf_color f32 (F32 o) GREY_DEEP c /\ comp_sat c 0 (fun x => is_value x (12582914 / 16777216)) /\
  returns (@average f32 (F32 o) GREY_DEEP ps false) h (fun r => comp_sat r 0 (fun x => is_value x (12582915 / 16777216))).
Proof. exact equal_differs. Qed.
Print Assumptions C214_equal_inexact.
Example C214_example : forall o k, (k = HSV \/ k = HSL \/ k = HCY) -> exists (h : heap f32) c x s v, points_to h [Some 0%nat; Some 0%nat] [c; c] /\
  Forall (@wf_color f32 (F32 o) k) [c; c] /\ comps c = [x; s; v] /\ B2R x = 200 /\ B2R s = 1 /\ B2R v = 1.
Proof. exact two_hues. Qed.
