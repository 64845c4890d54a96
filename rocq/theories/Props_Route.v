(** * Property C182: routes of conversions *)
From Coq Require Import ZArith Reals List Bool.
From Verif Require Import Arith Outcome ColorModel SpaceModel Heap Converter RArith F32 Laws Alpha8
  Spec Spec32 History Spec_Conv Spec_Route Run_Proofs Route_Proofs.
Import ListNotations.

(** C182: the same result, memory and failures *)
Theorem C182_binary32 : forall o X Mid Y, on_route X Mid Y = true -> X <> UNDEFINED -> Y <> UNDEFINED -> X <> Mid -> Mid <> Y -> X <> Y ->
  forall (h : heap f32) p c, at_addr h p c -> @wf_color f32 (F32 o) X c -> (needs_space X Mid || cie Y = true -> has_space h c) ->
  @to_type f32 (F32 o) Y (Some p) h = bind (@to_type f32 (F32 o) Mid (Some p)) (@to_type f32 (F32 o) Y) h.
Proof. exact route_same_binary32. Qed.
Print Assumptions C182_binary32.
Theorem C182_exact : forall X Mid Y, on_route X Mid Y = true -> X <> UNDEFINED -> Y <> UNDEFINED -> X <> Mid -> Mid <> Y -> X <> Y ->
  forall (h : heap R) p c, at_addr h p c -> wf_color X c -> (needs_space X Mid || cie Y = true -> has_space h c) ->
  to_type Y (Some p) h = bind (to_type Mid (Some p)) (to_type Y) h.
Proof. exact route_same_exact. Qed.
Print Assumptions C182_exact.
Example C182_routes : on_route CMYK RGB_DEEP LAB = true /\ on_route LCH_AB LAB HSV = true /\ on_route RGB_TRUE XYZ LCH_UV = true /\
  on_route HSL RGB_TRUE GREY_TRUE = true /\ on_route HSV RGB_DEEP HSL = false /\ on_route RGB_TRUE RGB_DEEP GREY_DEEP = false.
Proof. repeat split. Qed.
(** A colour of every type in a usable space exists. *)
Example C182_example : forall o k, In k all_types -> exists (h : heap f32) p c,
  at_addr h p c /\ @reachable f32 (F32 o) c /\ cls c = k /\ has_space h c /\ in_interval 0 1 (m_alpha c) /\ ~ @black_hsl f32 (F32 o) c.
Proof. exact alpha_example. Qed.
