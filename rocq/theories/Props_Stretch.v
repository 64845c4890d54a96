(** * Properties: adjustments in HSL seen from RGB *)
From Coq Require Import ZArith Reals List.
From Flocq Require Import Core IEEE754.BinarySingleNaN.
From Verif Require Import Arith Outcome ColorModel Heap Converter Adjust F32 RArith Spec Spec32 Spec_Conv Spec_Round Spec_Error Spec_Channels Spec_Adjust Spec_Stretch Error8_Proofs RoundEx_Proofs Stretch_Proofs Stretch2_Proofs Spec_Calc.
Import ListNotations.
Local Open Scope R_scope.

(** C215 *)
Theorem C215_exact : forall a p (h : heap R) i c r g b, in_hsl a = true -> p <> 0 -> at_addr h i c -> wf_color RGB_DEEP c -> comps c = [r; g; b] ->
  returns (adjust a (Some i) p) h (fun t => ty t = RGB_DEEP /\ comps t = stretched a p r g b (blue_back r g b) /\
    (middle_after a p r g b <> 0 -> m_alpha t = m_alpha c) /\ rgb_space t = rgb_space c).
Proof. exact stretch_exact. Qed.
Print Assumptions C215_exact.
(** Red, desaturated and darkened by one half. *)
Example C215_saturation : stretched SaturateHSL (- (1 / 2)) 1 0 0 0 = [3 / 4; 1 / 4; 1 / 4].
Proof. exact half_red. Qed.
Example C215_lightness : stretched LuminateHSL (- (1 / 2)) 1 0 0 0 = [1 / 2; 0; 0].
Proof. exact dark_red. Qed.
Example C215_example : exists (h : heap R) c, at_addr h 0%nat c /\ wf_color RGB_DEEP c /\ comps c = [1 / 2; 1 / 4; 3 / 4] /\
  ~ near_360 (1 / 2) (1 / 4) (3 / 4).
Proof. exact rgb_example. Qed.

(** C216 *)
Theorem C216_accurate : forall o a p (h : heap f32) i (c : color f32) r g b, in_hsl a = true -> in_interval (-8) 8 p -> ~ is_value p 0 -> at_addr h i c -> @wf_color f32 (F32 o) RGB_DEEP c -> comps c = [r; g; b] ->
  forall R G B P, R = B2R r -> G = B2R g -> B = B2R b -> P = B2R p ->
  returns (@adjust f32 (F32 o) a (Some i) p) h (fun t => ty t = RGB_DEEP /\ rgb_space t = rgb_space c /\
    channels (stretched a P R G B (blue_back R G B)) match a with LuminateHSL => / 65536 + stretch a P R G B / 524288 | _ => / 32768 end t).
Proof. exact stretch_accurate. Qed.
Print Assumptions C216_accurate.
Example C216_example : forall o, exists (h : heap f32) c r g b, at_addr h 0%nat c /\ @wf_color f32 (F32 o) RGB_DEEP c /\ comps c = [r; g; b] /\ B2R r = 1 /\ B2R g = 0 /\ B2R b = 1.
Proof. exact deep_exist. Qed.
