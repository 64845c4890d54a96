(** * Properties: blending colours of any types *)
From Coq Require Import ZArith Reals List Bool.
From Flocq Require Import Core IEEE754.BinarySingleNaN.
From Verif Require Import Arith Outcome ColorModel Heap Converter Blend Adjust Spec F32 RArith Spec32 History Spec_Conv Spec_Calc Spec_Blend
  BlendHcy_Proofs Adjust2_Proofs Through_Proofs.
Import ListNotations.
Local Open Scope monad_scope.

(** C224 *)
Theorem C224_modes : forall o m us ud (h : heap f32) X1 X2 p1 c1 p2 c2, (forall rnd, m <> Dissolve rnd) -> at_addr h p1 c1 -> at_addr h p2 c2 ->
  @wf_color f32 (F32 o) X1 c1 -> @wf_color f32 (F32 o) X2 c2 -> rgb_space c1 = rgb_space c2 -> (cie X1 || cie X2 = true -> has_space h c1) ->
  @blend f32 (F32 o) m (Some p1) (Some p2) us ud h =
  (a <- @to_rgb_deep f32 (F32 o) (Some p1) ;; b <- @to_rgb_deep f32 (F32 o) (Some p2) ;;
   r <- @blend f32 (F32 o) m a b us ud ;; @convertTo f32 (F32 o) r X1) h.
Proof. intros o. exact (blend_through (AF := F32 o)). Qed.
Print Assumptions C224_modes.
Theorem C224_operators : forall o p (h : heap f32) X1 X2 p1 c1 p2 c2, at_addr h p1 c1 -> at_addr h p2 c2 ->
  @wf_color f32 (F32 o) X1 c1 -> @wf_color f32 (F32 o) X2 c2 -> rgb_space c1 = rgb_space c2 -> (cie X1 || cie X2 = true -> has_space h c1) ->
  @composite f32 (F32 o) p (Some p1) (Some p2) h =
  (a <- @to_rgb_deep f32 (F32 o) (Some p1) ;; b <- @to_rgb_deep f32 (F32 o) (Some p2) ;;
   r <- @composite f32 (F32 o) p a b ;; @convertTo f32 (F32 o) r X1) h.
Proof. intros o. exact (composite_through (AF := F32 o)). Qed.
Print Assumptions C224_operators.
(** A Lab LCh and an XYZ colour of one RGB space *)
Example C224_example : forall o, exists (h : heap f32) c1 c2, at_addr h 0%nat c1 /\ at_addr h 1%nat c2 /\
  @wf_color f32 (F32 o) LCH_AB c1 /\ @wf_color f32 (F32 o) XYZ c2 /\ rgb_space c1 = rgb_space c2 /\ has_space h c1 /\ convertible LCH_AB = false /\
  @reachable f32 (F32 o) c1 /\ @reachable f32 (F32 o) c2 /\ in_interval 0 1 (m_alpha c2) /\ ~ @black_hsl f32 (F32 o) c2.
Proof. exact lch_example. Qed.
