(** * Two half transparent deep colours (C210) *)
From Coq Require Import ZArith Reals Lra List.
From Flocq Require Import IEEE754.BinarySingleNaN.
From Verif Require Import Arith ColorModel Heap F32 F32Facts Spec Spec32 Spec_Conv Order5_Proofs.
Local Open Scope R_scope.

Lemma film_exist o : exists (h : heap f32) (c c' : color f32), at_addr h 0%nat c /\ at_addr h 1%nat c' /\ @wf_color f32 (F32 o) RGB_DEEP c /\ @wf_color f32 (F32 o) RGB_DEEP c' /\
  in_interval 0 1 (m_alpha c) /\ in_interval 0 1 (m_alpha c') /\ B2R (m_alpha c) = 1 / 2 /\ B2R (m_alpha c') = 1 / 2 /\ rgb_space c = rgb_space c' /\
  comp_sat c 0 (fun v => is_value v (1 / 2)) /\ comp_sat c' 0 (fun v => is_value v 1).
Proof.
  destruct (dark_and_bright o) as [h [c [c' [H1 [H2 [W1 [W2 [[F1 V1] [[F2 V2] [S [_ [K1 K2]]]]]]]]]]]]. exists h, c, c'. repeat (split; [assumption|]).
  split; [split; [exact F1|rewrite V1; lra]|]. split; [split; [exact F2|rewrite V2; lra]|]. auto.
Qed.
