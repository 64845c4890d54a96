(** * The wrong white point presets have a misplaced decimal point (C25) *)
From Coq Require Import ZArith QArith Qreals Reals Lra List.
From Verif Require Import Arith Outcome ColorModel SpaceModel RArith Spec_Space Space_Proofs.
Import ListNotations.
Local Open Scope R_scope.

Definition repaired (k : R) (w : white_point R) : white_point R := White (10 * tx w) (ty_ w) (k * tz w) (cx w) (cy w) (cz w).
Lemma repaired5 k x y z c d e : consistent e (white_point5 (10 * x) y (k * z) c d) -> consistent e (repaired k (white_point5 x y z c d)).
Proof. exact (fun H => H). Qed.
Ltac fits := apply repaired5, consistentI; cbn [lit RArith]; unfold Q2R; cbn [Qnum Qden]; lra.
Lemma misplaced w : In w bad_whites -> exists k, (k = 1 \/ k = 10) /\ consistent (1 / 1000) (White (10 * tx w) (ty_ w) (k * tz w) (cx w) (cy w) (cz w)).
Proof.
  intros I. change (exists k, (k = 1 \/ k = 10) /\ consistent (1 / 1000) (repaired k w)). unfold bad_whites in I. cbn [In] in I.
  repeat match type of I with _ \/ _ => destruct I as [<-|I] end; try contradiction;
    unfold wp_A_2Degree, wp_E_2Degree, wp_F3_2Degree, wp_F4_2Degree, wp_F9_2Degree, wp_F11_2Degree, wp_F12_2Degree, wp_A_10Degree, wp_E_10Degree, wp_F2_10Degree, wp_F3_10Degree, wp_F4_10Degree, wp_F6_10Degree, wp_F9_10Degree, wp_F11_10Degree, wp_F12_10Degree;
    first [exists 1; split; [left; reflexivity|fits]|exists 10; split; [right; reflexivity|fits]].
Qed.
