(** * Properties: the average hue *)
From Coq Require Import ZArith Reals List Bool.
From Flocq Require Import Core.
From Verif Require Import Arith Outcome ColorModel Heap Calculation Spec RArith Spec_Conv Spec_Calc HueMean_Proofs.
Import ListNotations.
Local Open Scope R_scope.

(** C233: [arc] is the angle between two hues; false for all pairs of hues on both sides of 0 *)
Theorem C233_hue_refuted : forall X ia (h : heap R) p1 p2 c1 c2 x y, In X [HSV; HSL; HSI; HCY; LCH_AB; LCH_UV] -> at_addr h p1 c1 -> at_addr h p2 c2 -> wf_color X c1 -> wf_color X c2 ->
  nth_error (comps c1) (hue_at X) = Some x -> nth_error (comps c2) (hue_at X) = Some y -> 180 < Rabs (x - y) ->
  returns (average X [Some p1; Some p2] ia) h (fun r => ty r = X /\ exists w, nth_error (comps r) (hue_at X) = Some w /\
    arc w x = 180 - arc x y / 2 /\ arc w y = 180 - arc x y / 2 /\ arc x y / 2 < 90 < arc w x).
Proof. exact hue_mean_far. Qed.
Print Assumptions C233_hue_refuted.
(** It holds for the other pairs. *)
Theorem C233_hue_partial : forall X ia (h : heap R) p1 p2 c1 c2 x y, In X [HSV; HSL; HSI; HCY; LCH_AB; LCH_UV] -> at_addr h p1 c1 -> at_addr h p2 c2 -> wf_color X c1 -> wf_color X c2 ->
  nth_error (comps c1) (hue_at X) = Some x -> nth_error (comps c2) (hue_at X) = Some y -> Rabs (x - y) <= 180 ->
  returns (average X [Some p1; Some p2] ia) h (fun r => ty r = X /\ exists w, nth_error (comps r) (hue_at X) = Some w /\ arc w x = arc x y / 2 /\ arc w y = arc x y / 2).
Proof. exact hue_mean_close. Qed.
Print Assumptions C233_hue_partial.
Example C233_example : exists (h : heap R) c1 c2 c3, at_addr h 0%nat c1 /\ at_addr h 1%nat c2 /\ at_addr h 2%nat c3 /\
  wf_color HSL c1 /\ wf_color HSL c2 /\ wf_color HSL c3 /\ comps c1 = [350; 1; 1 / 2] /\ comps c2 = [10; 1; 1 / 2] /\ comps c3 = [310; 1; 1 / 2] /\ arc 350 10 = 20.
Proof. exact hue_mean_example. Qed.
