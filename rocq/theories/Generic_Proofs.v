(** * The functions on color_base convert both operands to the type of the first and call its overload *)
From Coq Require Import ZArith Reals Lra Lia List Bool.
From Flocq Require Import Core IEEE754.BinarySingleNaN.
From Verif Require Import Arith Outcome ColorModel Heap Converter Calculation F32 Spec Spec32 Spec_Conv Spec_Calc Conv_Proofs Calc_Proofs Calc2_Proofs.
Import ListNotations.
Local Open Scope monad_scope.

Lemma add_generic o X w1 w2 ia (h : heap f32) p1 p2 (c1 : color f32) : In X add_types -> in_interval 0 1 w1 -> in_interval 0 1 w2 ->
  at_addr h p1 c1 -> @wf_color f32 (F32 o) X c1 ->
  @add f32 (F32 o) (Some p1) p2 w1 w2 ia h =
  (a <- @to_type f32 (F32 o) X (Some p1) ;; b <- @to_type f32 (F32 o) X p2 ;; @typed_add f32 (F32 o) X a b w1 w2 ia) h.
Proof.
  intros HX B1 B2 H1 W1. unfold add, check2. rewrite (proj1 (weight_ok o w1 B1)), (proj1 (weight_ok o w2 B2)).
  unfold bind at 1, load at 1. unfold at_addr in H1. rewrite H1, (wf_ty _ _ W1).
  destruct X; try reflexivity; simpl in HX; exfalso; intuition discriminate.
Qed.
Lemma mix_generic o X w ia (h : heap f32) p1 p2 (c1 : color f32) : In X mix_types -> positive_unit w ->
  at_addr h p1 c1 -> @wf_color f32 (F32 o) X c1 ->
  @mix f32 (F32 o) (Some p1) p2 w ia h =
  (a <- @to_type f32 (F32 o) X (Some p1) ;; b <- @to_type f32 (F32 o) X p2 ;; @typed_mix f32 (F32 o) X a b w ia) h.
Proof.
  intros HX B H1 W1. destruct (weight_strict o w B) as [B0 B1]. pose proof (proj1 (weight_ok o w B1)) as K.
  unfold bad_weight in K. apply orb_false_iff in K. unfold mix, check_strict. rewrite B0, (proj2 K). cbn [orb].
  unfold bind at 1, load at 1. unfold at_addr in H1. rewrite H1, (wf_ty _ _ W1).
  destruct X; try reflexivity; simpl in HX; exfalso; intuition discriminate.
Qed.
Lemma subtract_generic o X w ia (h : heap f32) p1 p2 (c1 : color f32) : In X mix_types -> positive_unit w ->
  at_addr h p1 c1 -> @wf_color f32 (F32 o) X c1 ->
  @subtract f32 (F32 o) (Some p1) p2 w ia h =
  (a <- @to_type f32 (F32 o) X (Some p1) ;; b <- @to_type f32 (F32 o) X p2 ;; @typed_subtract f32 (F32 o) X a b w ia) h.
Proof.
  intros HX B H1 W1. destruct (weight_strict o w B) as [B0 B1]. pose proof (proj1 (weight_ok o w B1)) as K.
  unfold bad_weight in K. apply orb_false_iff in K. unfold subtract, check_strict. rewrite B0, (proj2 K). cbn [orb].
  unfold bind at 1, load at 1. unfold at_addr in H1. rewrite H1, (wf_ty _ _ W1).
  destruct X; try reflexivity; simpl in HX; exfalso; intuition discriminate.
Qed.
Lemma convertTo_same {F} {AF : Arith F} Y p (h : heap F) : In Y all_types -> Y <> LCH_AB -> Y <> LCH_UV -> convertTo p Y h = to_type Y p h.
Proof. intros HY N1 N2. destruct Y; try reflexivity; try congruence; simpl in HY; exfalso; intuition discriminate. Qed.
