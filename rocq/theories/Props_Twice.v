(** * Properties: the complement of the complement *)
From Coq Require Import ZArith Reals List Bool.
From Flocq Require Import Core.
From Verif Require Import Arith Outcome ColorModel Heap Converter Adjust Combine Spec RArith Spec_Conv Spec_Calc Spec_Blend Spec_Adjust Spec_Combine Twice_Proofs.
Import ListNotations.
Local Open Scope R_scope.

(** C230: false for every HSL colour whose hue lies between 179 and 180, because the hue of
    its complement is limited to 359 *)
Theorem C230_twice_refuted : forall (h : heap R) p c x y z, at_addr h p c -> wf_color HSL c -> comps c = [x; y; z] -> 179 < x < 180 ->
  exists q h1 q' h2 r, create_complimentary (Some p) h = (Ok (Some q), h1) /\ create_complimentary (Some q) h1 = (Ok (Some q'), h2) /\
    at_addr h2 q' r /\ comps r = [179; y; z] /\ comps r <> comps c.
Proof. exact complement_twice_refuted. Qed.
Print Assumptions C230_twice_refuted.
(** It holds for all other HSL colours. *)
Theorem C230_twice_partial : forall (h : heap R) p c x y z, at_addr h p c -> wf_color HSL c -> comps c = [x; y; z] ->
  exists q h1 q' h2 r, create_complimentary (Some p) h = (Ok (Some q), h1) /\ create_complimentary (Some q) h1 = (Ok (Some q'), h2) /\ unchanged h h2 /\
    at_addr h2 q' r /\ ty r = HSL /\ ((x <= 179 \/ 180 <= x) -> comps r = [x; y; z]) /\ (179 < x < 180 -> comps r = [179; y; z]).
Proof. exact complement_twice. Qed.
Print Assumptions C230_twice_partial.
Example C230_example : exists (h : heap R) c d, at_addr h 0%nat c /\ wf_color HSL c /\ comps c = [179.5; 1; 1 / 2] /\
  at_addr h 1%nat d /\ wf_color HSL d /\ comps d = [200; 1; 1 / 2].
Proof. exact twice_example. Qed.
