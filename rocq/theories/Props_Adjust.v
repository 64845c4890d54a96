(** * Properties C80-C83, C95-C97: color_adjustments *)
From Coq Require Import ZArith QArith Reals List Bool.
From Flocq Require Import Core IEEE754.BinarySingleNaN.
From Verif Require Import Arith Outcome ColorModel Heap Converter Adjust Spec F32 RArith Spec32 History Spec_Conv Spec_Calc Spec_Blend Spec_Adjust
  BlendHcy_Proofs Adjust_Proofs Adjust2_Proofs.
Import ListNotations.
Local Open Scope R_scope.

(** C80 *)
Theorem C80_hsl : forall o a p pc (h : heap f32), in_hsl a = true -> is_value pc 0 -> @adjust f32 (F32 o) a p pc h = (Ok p, h).
Proof. exact adjust_hsl_same. Qed.
Print Assumptions C80_hsl.
Theorem C80_rgb : forall a (h : heap R) i c, in_hsl a = false -> at_addr h i c -> wf_color RGB_DEEP c ->
  returns (adjust a (Some i) 0) h (fun t => comps t = comps c /\ m_alpha t = m_alpha c).
Proof. exact rgb_zero. Qed.
Print Assumptions C80_rgb.
(** The same in binary32. *)
Theorem C80_rgb32 : forall o a pc (h : heap f32) i c, in_hsl a = false -> is_value pc 0 -> at_addr h i c -> @wf_color f32 (F32 o) RGB_DEEP c ->
  returns (@adjust f32 (F32 o) a (Some i) pc) h (fun t => same_values (comps t) (comps c) /\ m_alpha t = m_alpha c).
Proof. exact rgb_zero32. Qed.
Print Assumptions C80_rgb32.

(** C81 *)
Theorem C81_formula : forall a p (h : heap R) i c r g b, in_hsl a = false -> at_addr h i c -> wf_color RGB_DEEP c -> comps c = [r; g; b] ->
  returns (adjust a (Some i) p) h (fun t => comps t = adjusted a p r g b /\ m_alpha t = m_alpha c /\ rgb_space t = rgb_space c).
Proof. exact rgb_adjust. Qed.
Print Assumptions C81_formula.
Theorem C81_black : forall (h : heap R) i c, at_addr h i c -> wf_color RGB_DEEP c ->
  returns (adjust LuminateRGB (Some i) (-1)) h (fun t => comps t = [0; 0; 0] /\ m_alpha t = m_alpha c).
Proof. exact rgb_black. Qed.
Print Assumptions C81_black.
Theorem C81_grey : forall (h : heap R) i c r g b, at_addr h i c -> wf_color RGB_DEEP c -> comps c = [r; g; b] ->
  returns (adjust SaturateRGB (Some i) (-1)) h (fun t => comps t = [luma r g b; luma r g b; luma r g b] /\ m_alpha t = m_alpha c).
Proof. exact rgb_grey. Qed.
Print Assumptions C81_grey.
Example C81_example : exists (h : heap R) c, at_addr h 0%nat c /\ wf_color RGB_DEEP c /\ comps c = [1 / 2; 0; 1] /\ m_alpha c = 1 /\
  adjusted LuminateRGB (1 / 2) (1 / 2) 0 1 = [3 / 4; 0; 1] /\
  exists d, at_addr h 1%nat d /\ wf_color HSL d /\ comps d = [120; 1 / 2; 1 / 2].
Proof. exact adjust_exampleR. Qed.

(** C82 *)
Theorem C82_unchanged_refuted : forall o a, in_hsl a = true -> exists (h h' : heap f32) c c', at_addr h 0%nat c /\ @reachable f32 (F32 o) c /\
  @adjust f32 (F32 o) a (Some 0%nat) (lit32 (-1 # 1)) h = (Ok (Some 0%nat), h') /\ at_addr h' 0%nat c' /\
  comp_sat c (hsl_component a) (fun x => is_value x 1) /\ comp_sat c' (hsl_component a) (fun x => is_value x 0).
Proof. exact hsl_changed. Qed.
Print Assumptions C82_unchanged_refuted.
(** For every HSL colour and every percentage but 0 the result is the argument itself. *)
Theorem C82_aliased : forall o a pc (h : heap f32) p c, in_hsl a = true -> ~ is_value pc 0 -> at_addr h p c -> @wf_color f32 (F32 o) HSL c ->
  exists h', @adjust f32 (F32 o) a (Some p) pc h = (Ok (Some p), h').
Proof. exact hsl_in_place. Qed.
Print Assumptions C82_aliased.
(** Colours of the other types, and RGB adjustments of colours of any type, are unchanged. *)
Theorem C82_unchanged_partial : forall o a pc (h : heap f32) X p c, at_addr h p c -> @wf_color f32 (F32 o) X c -> convertible X = true ->
  (cie X = true -> has_space h c) -> (in_hsl a = true -> X <> HSL /\ ~ is_value pc 0) ->
  exists q r h', @adjust f32 (F32 o) a (Some p) pc h = (Ok (Some q), h') /\ fresh h q /\ at_addr h' q r /\ colour_of_type X r /\
    rgb_space r = rgb_space c /\ unchanged h h' /\ @wf_color f32 (F32 o) X r.
Proof. exact adjust_total. Qed.
Print Assumptions C82_unchanged_partial.

(** C83: all LCh colours *)
Theorem C83_reference_refuted : forall o a pc (h : heap f32) X p c, at_addr h p c -> @wf_color f32 (F32 o) X c -> (X = LCH_AB \/ X = LCH_UV) -> has_space h c ->
  (in_hsl a = true -> ~ is_value pc 0) -> exists h', @adjust_in_place f32 (F32 o) a p pc h = (Undef, h').
Proof. exact in_place_null. Qed.
Print Assumptions C83_reference_refuted.
Theorem C83_reference_partial : forall o a pc (h : heap f32) X p c, at_addr h p c -> @wf_color f32 (F32 o) X c -> convertible X = true ->
  (cie X = true -> has_space h c) ->
  exists h' r, @adjust_in_place f32 (F32 o) a p pc h = (Ok tt, h') /\ at_addr h' p r /\ colour_of_type X r /\ rgb_space r = rgb_space c /\
    others_unchanged h h' p.
Proof. exact in_place_ok. Qed.
Print Assumptions C83_reference_partial.
Example C83_example : forall o, exists (h : heap f32) c1 c2, at_addr h 0%nat c1 /\ at_addr h 1%nat c2 /\
  @wf_color f32 (F32 o) LCH_AB c1 /\ @wf_color f32 (F32 o) XYZ c2 /\ rgb_space c1 = rgb_space c2 /\ has_space h c1 /\ convertible LCH_AB = false /\
  @reachable f32 (F32 o) c1 /\ @reachable f32 (F32 o) c2 /\ in_interval 0 1 (m_alpha c2) /\ ~ @black_hsl f32 (F32 o) c2.
Proof. exact lch_example. Qed.

(** C95 *)
Theorem C95_typed : forall o a pc (h : heap f32) X p c, at_addr h p c -> @wf_color f32 (F32 o) X c -> convertible X = true ->
  (cie X = true -> has_space h c) ->
  exists q r h', @adjust f32 (F32 o) a (Some p) pc h = (Ok (Some q), h') /\ at_addr h' q r /\ colour_of_type X r /\
    rgb_space r = rgb_space c /\ others_unchanged h h' p.
Proof. exact adjust_typed. Qed.
Print Assumptions C95_typed.
(** The RGB adjustments keep the alpha; for the 8-bit types it is rounded to a multiple of 1/255. *)
Theorem C95_alpha : forall o a pc (h : heap f32) X p c, in_hsl a = false -> at_addr h p c -> @reachable f32 (F32 o) c -> cls c = X -> convertible X = true ->
  (cie X = true -> has_space h c) -> in_interval 0 1 (m_alpha c) -> ~ @black_hsl f32 (F32 o) c ->
  returns (@adjust f32 (F32 o) a (Some p) pc) h (fun r => m_alpha r = @converted_alpha f32 (F32 o) RGB_DEEP X (m_alpha c)).
Proof. exact adjust_alpha. Qed.
Print Assumptions C95_alpha.
(** Example: the CIEXYZ colour of [C83_example]. *)

(** C96 *)
Theorem C96_hsl_alpha_refuted : forall o pc, ~ is_value pc 0 -> exists (h : heap f32) c, at_addr h 0%nat c /\ @reachable f32 (F32 o) c /\ cls c = RGB_DEEP /\
  is_value (m_alpha c) 1 /\ returns (@adjust f32 (F32 o) SaturateHSL (Some 0%nat) pc) h (fun r => is_value (m_alpha r) 0).
Proof. exact black_loses_alpha. Qed.
Print Assumptions C96_hsl_alpha_refuted.

(** C97 *)
Theorem C97_hsl_formula : forall a p (h : heap R) i c x y z, in_hsl a = true -> p <> 0 -> at_addr h i c -> wf_color HSL c -> comps c = [x; y; z] ->
  returns (adjust a (Some i) p) h (fun t => m_alpha t = m_alpha c /\ rgb_space t = rgb_space c /\
    comps t = match a with LuminateHSL => [x; y; unit_clamp (z * (1 + p))] | _ => [x; unit_clamp (y * (1 + p)); z] end).
Proof. exact hsl_formula. Qed.
Print Assumptions C97_hsl_formula.
(** Example: the HSL colour of [C81_example]. *)
