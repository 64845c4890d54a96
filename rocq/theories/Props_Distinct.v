(** * Properties: the colours of a scheme are distinct *)
From Coq Require Import ZArith Reals List Bool.
From Flocq Require Import Core.
From Verif Require Import Arith Outcome ColorModel Heap Converter Adjust Combine Spec RArith Spec_Conv Spec_Calc Spec_Blend Spec_Adjust Spec_Combine Twice_Proofs Distinct_Proofs.
Import ListNotations.
Local Open Scope R_scope.

(** C231: although hues above 359 are cut to 359 *)
Theorem C231_distinct : forall n (h : heap R) p c x y z, (2 <= n <= 360)%Z -> at_addr h p c -> wf_color HSL c -> comps c = [x; y; z] ->
  exists qs h', create_combination (Some p) n h = (Ok (map Some (p :: qs)), h') /\ Z.of_nat (length (p :: qs)) = n /\
    forall i j s t cs ct, nth_error (p :: qs) i = Some s -> nth_error (p :: qs) j = Some t -> at_addr h' s cs -> at_addr h' t ct -> i <> j -> comps cs <> comps ct.
Proof. exact scheme_distinct. Qed.
Print Assumptions C231_distinct.
(** The base colour is the first one of the scheme, with k = 0. *)
Theorem C231_hues : forall n (h : heap R) p c x y z, (2 <= n <= 360)%Z -> at_addr h p c -> wf_color HSL c -> comps c = [x; y; z] ->
  exists qs h', create_combination (Some p) n h = (Ok (map Some (p :: qs)), h') /\ Z.of_nat (length (p :: qs)) = n /\ unchanged h h' /\
    forall k s, nth_error (p :: qs) k = Some s -> exists r w, at_addr h' s r /\ hsl_of r w y z /\ normalised (x + INR k * (360 / IZR n)) w.
Proof. exact scheme_hues. Qed.
Print Assumptions C231_hues.
Example C231_example : exists (h : heap R) c d, at_addr h 0%nat c /\ wf_color HSL c /\ comps c = [179.5; 1; 1 / 2] /\
  at_addr h 1%nat d /\ wf_color HSL d /\ comps d = [200; 1; 1 / 2].
Proof. exact twice_example. Qed.
