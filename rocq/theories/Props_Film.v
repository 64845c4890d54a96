(** * Properties: compositing deep colours in binary32 (C210, C211) *)
From Coq Require Import ZArith Reals List.
From Flocq Require Import Core IEEE754.BinarySingleNaN.
From Verif Require Import Arith Outcome ColorModel Heap Converter Blend F32 Spec Spec32 Spec_Conv Spec_Calc Spec_Blend Spec_Error Spec_Byte Spec_Film Film_Proofs Film2_Proofs.
Import ListNotations.
Local Open Scope R_scope.

(** C210 *)
Theorem C210_operators : forall o p (h : heap f32) p1 c1 p2 c2, at_addr h p1 c1 -> at_addr h p2 c2 ->
  @wf_color f32 (F32 o) RGB_DEEP c1 -> @wf_color f32 (F32 o) RGB_DEEP c2 -> in_interval 0 1 (m_alpha c1) -> in_interval 0 1 (m_alpha c2) -> rgb_space c1 = rgb_space c2 ->
  forall a b fa fb, a = B2R (m_alpha c1) -> b = B2R (m_alpha c2) -> fractions p a b = (fa, fb) ->
  returns (@composite f32 (F32 o) p (Some p1) (Some p2)) h (fun r => colour_of_type RGB_DEEP r /\ rgb_space r = rgb_space c1 /\
    approx (fa * a + fb * b) (/ 1048576) (m_alpha r) /\
    forall i s d, nth_error (comps c1) i = Some s -> nth_error (comps c2) i = Some d ->
      comp_sat r i (contributes (fa * a + fb * b) (fa * a * B2R s + fb * b * B2R d) (/ 524288))).
Proof. exact film_operator. Qed.
Print Assumptions C210_operators.
(** What this means for the component itself. *)
Theorem C210_component : forall area amount e x, 0 < area -> contributes area amount e x -> Rabs (B2R x - amount / area) <= e / area.
Proof. exact contributes_quotient. Qed.
Print Assumptions C210_component.
Example C210_example : forall o, exists (h : heap f32) (c c' : color f32), at_addr h 0%nat c /\ at_addr h 1%nat c' /\ @wf_color f32 (F32 o) RGB_DEEP c /\ @wf_color f32 (F32 o) RGB_DEEP c' /\
  in_interval 0 1 (m_alpha c) /\ in_interval 0 1 (m_alpha c') /\ B2R (m_alpha c) = 1 / 2 /\ B2R (m_alpha c') = 1 / 2 /\ rgb_space c = rgb_space c' /\
  comp_sat c 0 (fun v => is_value v (1 / 2)) /\ comp_sat c' 0 (fun v => is_value v 1).
Proof. exact film_exist. Qed.

(** C211 *)
Theorem C211_modes : forall o m t us ud (h : heap f32) p1 c1 p2 c2, film_function m = Some t -> at_addr h p1 c1 -> at_addr h p2 c2 ->
  @wf_color f32 (F32 o) RGB_DEEP c1 -> @wf_color f32 (F32 o) RGB_DEEP c2 -> in_interval 0 1 (m_alpha c1) -> in_interval 0 1 (m_alpha c2) -> rgb_space c1 = rgb_space c2 ->
  forall a b, a = B2R (m_alpha c1) -> b = B2R (m_alpha c2) ->
  returns (@blend f32 (F32 o) m (Some p1) (Some p2) us ud) h (fun r => colour_of_type RGB_DEEP r /\ rgb_space r = rgb_space c1 /\
    approx (coverage us ud true a b) (/ 1048576) (m_alpha r) /\
    forall i s d, nth_error (comps c1) i = Some s -> nth_error (comps c2) i = Some d ->
      comp_sat r i (contributes (coverage us ud true a b) (mixture us ud true a b (B2R s) (B2R d) (t (B2R s) (B2R d))) (/ 524288))).
Proof. exact film_blend. Qed.
Print Assumptions C211_modes.
Example C211_example : film_function (@Overlay f32) = Some (fun s d => hard_light d s) /\ film_function (@ColorDodge f32) = Some dodge /\
  film_function (@Difference f32) = Some (fun s d => Rabs (s - d)).
Proof. repeat split; reflexivity. Qed.
