(** * Properties: averages of averages *)
From Coq Require Import ZArith Reals List Bool.
From Flocq Require Import Core.
From Verif Require Import Arith Outcome ColorModel Heap Calculation RArith Spec Spec_Conv Spec_Calc Regroup_Proofs.
Import ListNotations.
Local Open Scope R_scope.

(** C236: the average of the averages of two groups against the average of all colours *)
Theorem C236_regroup : forall X ia (h : heap R) ps qs cs ds, In X all_types -> eight_bit X = false -> ps <> [] -> qs <> [] -> points_to h ps cs -> points_to h qs ds ->
  Forall (wf_color X) cs -> Forall (wf_color X) ds ->
  exists q1 h1 q2 h2, average X ps ia h = (Ok (Some q1), h1) /\ average X qs ia h1 = (Ok (Some q2), h2) /\ unchanged h h2 /\
    returns (average X [Some q1; Some q2] ia) h2 (fun r => returns (average X (ps ++ qs) ia) h (fun s => forall i, (i < arity X)%nat ->
      exists w v, nth_error (comps r) i = Some w /\ nth_error (comps s) i = Some v /\
        (w = v <-> length ps = length qs \/ mean (components i cs) = mean (components i ds)))).
Proof. exact average_regroup. Qed.
Print Assumptions C236_regroup.
(** Groups of different sizes and different means exist, so the result differs there. *)
Example C236_example : exists (h : heap R) p q c d, points_to h [p; p] [c; c] /\ points_to h [q] [d] /\ wf_color CMYK c /\ wf_color CMYK d /\
  mean (components 3 [c; c]) = 0 /\ mean (components 3 [d]) = 1.
Proof. exact regroup_example. Qed.
