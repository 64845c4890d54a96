(** * Properties: the functions on color_base and the overloads *)
From Coq Require Import ZArith Reals List.
From Flocq Require Import Core IEEE754.BinarySingleNaN.
From Verif Require Import Arith Outcome ColorModel Heap Converter Calculation F32 RArith Spec Spec32 History Spec_Conv Spec_Calc CalcEx_Proofs Generic_Proofs.
Import ListNotations.
Local Open Scope monad_scope.

(** C221: the second operand may have any type *)
Theorem C221_add : forall o X w1 w2 ia (h : heap f32) p1 p2 (c1 : color f32), In X add_types -> in_interval 0 1 w1 -> in_interval 0 1 w2 ->
  at_addr h p1 c1 -> @wf_color f32 (F32 o) X c1 ->
  @add f32 (F32 o) (Some p1) p2 w1 w2 ia h =
  (a <- @to_type f32 (F32 o) X (Some p1) ;; b <- @to_type f32 (F32 o) X p2 ;; @typed_add f32 (F32 o) X a b w1 w2 ia) h.
Proof. exact add_generic. Qed.
Print Assumptions C221_add.
Theorem C221_mix : forall o X w ia (h : heap f32) p1 p2 (c1 : color f32), In X mix_types -> positive_unit w ->
  at_addr h p1 c1 -> @wf_color f32 (F32 o) X c1 ->
  @mix f32 (F32 o) (Some p1) p2 w ia h =
  (a <- @to_type f32 (F32 o) X (Some p1) ;; b <- @to_type f32 (F32 o) X p2 ;; @typed_mix f32 (F32 o) X a b w ia) h.
Proof. exact mix_generic. Qed.
Print Assumptions C221_mix.
Theorem C221_subtract : forall o X w ia (h : heap f32) p1 p2 (c1 : color f32), In X mix_types -> positive_unit w ->
  at_addr h p1 c1 -> @wf_color f32 (F32 o) X c1 ->
  @subtract f32 (F32 o) (Some p1) p2 w ia h =
  (a <- @to_type f32 (F32 o) X (Some p1) ;; b <- @to_type f32 (F32 o) X p2 ;; @typed_subtract f32 (F32 o) X a b w ia) h.
Proof. exact subtract_generic. Qed.
Print Assumptions C221_subtract.
(** An XYZ and a deep RGB colour *)
Example C221_example : forall o, exists (h : heap f32) p1 c1 p2 c2, at_addr h p1 c1 /\ at_addr h p2 c2 /\
  @wf_color f32 (F32 o) XYZ c1 /\ @wf_color f32 (F32 o) RGB_DEEP c2 /\ has_space h c1 /\ has_space h c2 /\
  @reachable f32 (F32 o) c1 /\ in_interval 0 1 (m_alpha c1) /\ ~ @black_hsl f32 (F32 o) c1 /\ p1 <> p2.
Proof. exact calc_example. Qed.

(** C222 *)
Theorem C222_converter : forall o Y p (h : heap f32), In Y all_types -> Y <> LCH_AB -> Y <> LCH_UV -> @convertTo f32 (F32 o) p Y h = @to_type f32 (F32 o) Y p h.
Proof. intros o. exact (convertTo_same (AF := F32 o)). Qed.
Print Assumptions C222_converter.
Theorem C222_converter_exact : forall Y p (h : heap R), In Y all_types -> Y <> LCH_AB -> Y <> LCH_UV -> convertTo p Y h = to_type Y p h.
Proof. exact convertTo_same. Qed.
Print Assumptions C222_converter_exact.
Example C222_example : In HSV all_types /\ HSV <> LCH_AB /\ HSV <> LCH_UV.
Proof. split; [simpl; tauto|split; discriminate]. Qed.
