(** * Properties: HCY blending, adjustments and distances of colours of any types *)
From Coq Require Import ZArith Reals List Bool.
From Flocq Require Import Core IEEE754.BinarySingleNaN.
From Verif Require Import Arith Outcome ColorModel Heap Converter Blend Adjust Distance Spec F32 RArith Spec32 History Spec_Conv Spec_Calc Spec_Blend Spec_Adjust Spec_Distance
  BlendHcy_Proofs Adjust2_Proofs Distance5_Proofs Through2_Proofs.
Import ListNotations.
Local Open Scope monad_scope.

(** C226 *)
Theorem C226_hcy : forall o m us ud (h : heap f32) X1 X2 p1 c1 p2 c2, at_addr h p1 c1 -> at_addr h p2 c2 ->
  @wf_color f32 (F32 o) X1 c1 -> @wf_color f32 (F32 o) X2 c2 -> (cie X1 = true -> has_space h c1) -> (cie X2 = true -> has_space h c2) ->
  @blend_hcy f32 (F32 o) m (Some p1) (Some p2) us ud h =
  (a <- @to_hcy f32 (F32 o) (Some p1) ;; b <- @to_hcy f32 (F32 o) (Some p2) ;;
   r <- @blend_hcy f32 (F32 o) m a b us ud ;; @convertTo f32 (F32 o) r X1) h.
Proof. intros o. exact (blend_hcy_through (AF := F32 o)). Qed.
Print Assumptions C226_hcy.
Theorem C226_adjustments : forall o a (h : heap f32) X p c pc, at_addr h p c -> @wf_color f32 (F32 o) X c -> (cie X = true -> has_space h c) ->
  (in_hsl a = true -> ~ is_value pc 0) ->
  @adjust f32 (F32 o) a (Some p) pc h =
  (t <- @to_type f32 (F32 o) (if in_hsl a then HSL else RGB_DEEP) (Some p) ;; r <- @adjust f32 (F32 o) a t pc ;; @convertTo f32 (F32 o) r X) h.
Proof. exact adjust_through32. Qed.
Print Assumptions C226_adjustments.
Theorem C226_adjustments_exact : forall a (h : heap R) X p c pc, at_addr h p c -> wf_color X c -> (cie X = true -> has_space h c) ->
  (in_hsl a = true -> pc <> 0%R) ->
  adjust a (Some p) pc h = (t <- to_type (if in_hsl a then HSL else RGB_DEEP) (Some p) ;; r <- adjust a t pc ;; convertTo r X) h.
Proof. exact adjust_through_exact. Qed.
Print Assumptions C226_adjustments_exact.
(** C227 *)
Theorem C227_distances : forall o (d : distance_fun f32) (h : heap f32) X1 X2 p1 c1 p2 c2, p1 <> p2 -> at_addr h p1 c1 -> at_addr h p2 c2 ->
  @wf_color f32 (F32 o) X1 c1 -> @wf_color f32 (F32 o) X2 c2 ->
  (needs_space X1 (compared_in d) = true -> has_space h c1) -> (needs_space X2 (compared_in d) = true -> has_space h c2) ->
  @distance f32 (F32 o) d (Some p1) (Some p2) h =
  (a <- @to_type f32 (F32 o) (compared_in d) (Some p1) ;; b <- @to_type f32 (F32 o) (compared_in d) (Some p2) ;; @distance f32 (F32 o) d a b) h.
Proof. intros o. exact (distance_through (AF := F32 o)). Qed.
Print Assumptions C227_distances.
Theorem C227_distances_exact : forall (d : distance_fun R) (h : heap R) X1 X2 p1 c1 p2 c2, p1 <> p2 -> at_addr h p1 c1 -> at_addr h p2 c2 ->
  wf_color X1 c1 -> wf_color X2 c2 -> (needs_space X1 (compared_in d) = true -> has_space h c1) -> (needs_space X2 (compared_in d) = true -> has_space h c2) ->
  distance d (Some p1) (Some p2) h = (a <- to_type (compared_in d) (Some p1) ;; b <- to_type (compared_in d) (Some p2) ;; distance d a b) h.
Proof. exact distance_through. Qed.
Print Assumptions C227_distances_exact.
(** A Lab LCh and an XYZ colour of one RGB space *)
Example C226_example : forall o, exists (h : heap f32) c1 c2, at_addr h 0%nat c1 /\ at_addr h 1%nat c2 /\
  @wf_color f32 (F32 o) LCH_AB c1 /\ @wf_color f32 (F32 o) XYZ c2 /\ rgb_space c1 = rgb_space c2 /\ has_space h c1 /\ convertible LCH_AB = false /\
  @reachable f32 (F32 o) c1 /\ @reachable f32 (F32 o) c2 /\ in_interval 0 1 (m_alpha c2) /\ ~ @black_hsl f32 (F32 o) c2.
Proof. exact lch_example. Qed.
