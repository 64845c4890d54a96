(** * Properties: adjustments on references *)
From Coq Require Import ZArith Reals List.
From Flocq Require Import Core IEEE754.BinarySingleNaN.
From Verif Require Import Arith Outcome ColorModel Heap Converter Adjust Spec F32 Spec32 History Spec_Conv Spec_Calc Spec_Blend Spec_Adjust
  BlendHcy_Proofs Place_Proofs.
Import ListNotations.

(** C223 *)
Theorem C223_stores : forall o a pc (h : heap f32) X p c, at_addr h p c -> @wf_color f32 (F32 o) X c -> convertible X = true -> (cie X = true -> has_space h c) ->
  exists q r h1 h', @adjust f32 (F32 o) a (Some p) pc h = (Ok (Some q), h1) /\ at_addr h1 q r /\
    @adjust_in_place f32 (F32 o) a p pc h = (Ok tt, h') /\ at_addr h' p r.
Proof. exact in_place_stores. Qed.
Print Assumptions C223_stores.
(** The second colour *)
Example C223_example : forall o, exists (h : heap f32) c1 c2, at_addr h 0%nat c1 /\ at_addr h 1%nat c2 /\
  @wf_color f32 (F32 o) LCH_AB c1 /\ @wf_color f32 (F32 o) XYZ c2 /\ rgb_space c1 = rgb_space c2 /\ has_space h c1 /\ convertible LCH_AB = false /\
  @reachable f32 (F32 o) c1 /\ @reachable f32 (F32 o) c2 /\ in_interval 0 1 (m_alpha c2) /\ ~ @black_hsl f32 (F32 o) c2.
Proof. exact lch_example. Qed.
