(** * Properties: chromatic adaptation of colours of any type *)
From Coq Require Import ZArith Reals List Bool.
From Flocq Require Import Core IEEE754.BinarySingleNaN.
From Verif Require Import Arith Outcome ColorModel SpaceModel Heap Converter Adapt Spec F32 RArith Spec32 History Spec_Conv Spec_Calc Spec_Blend Spec_Adapt
  Adapt4_Proofs AdaptVia_Proofs.
Import ListNotations.
Local Open Scope monad_scope.

(** C225 *)
Theorem C225_through : forall o (m : method f32) X (h : heap f32) p c s a w0 b w, at_addr h p c -> @reachable f32 (F32 o) c -> cls c = X -> convertible X = true ->
  has_white h c s a w0 -> a <> b -> second_component m = false ->
  @adaptation f32 (F32 o) m (Some p) (Some (b, w)) h =
    (t <- @to_xyz f32 (F32 o) (Some p) ;; k <- @adaptation f32 (F32 o) m t (Some (b, w)) ;; @to_type f32 (F32 o) X k) h.
Proof. exact adaptation_via. Qed.
Print Assumptions C225_through.
Theorem C225_through_exact : forall (m : method R) X (h : heap R) p c s a w0 b w, at_addr h p c -> wf_color X c -> convertible X = true ->
  has_white h c s a w0 -> a <> b -> second_component m = false ->
  adaptation m (Some p) (Some (b, w)) h = (t <- to_xyz (Some p) ;; k <- adaptation m t (Some (b, w)) ;; to_type X k) h.
Proof. exact adaptation_via_exact. Qed.
Print Assumptions C225_through_exact.
(** An 8-bit RGB colour (200, 100, 50) in a space with white D65 *)
Example C225_example : forall o, exists (h : heap f32) c s, at_addr h 0%nat c /\ @reachable f32 (F32 o) c /\ cls c = RGB_TRUE /\ convertible RGB_TRUE = true /\
  has_white h c s 0%nat (@wp_D65_2Degree f32 (F32 o)) /\ @second_component f32 Cat02Simplified = false /\
  comps c = map (fun n => clamp (AF := F32 o) (@fz f32 (F32 o) n) (@fz f32 (F32 o) 255) (@fz f32 (F32 o) 0)) [200; 100; 50]%Z.
Proof. exact via_example. Qed.
