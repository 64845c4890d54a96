(** * Properties C192 - C194: darker and brighter blends *)
From Coq Require Import ZArith QArith Reals Lra Lia List Bool.
From Flocq Require Import Core IEEE754.BinarySingleNaN.
From Verif Require Import Arith Outcome ColorModel SpaceModel Heap Converter Blend F32 RArith Spec Spec32 Spec_Conv Spec_Calc Spec_Blend Spec_Order.
From Verif Require Import Assoc_Proofs Order3_Proofs Order4_Proofs Order5_Proofs.
Import ListNotations.
Local Open Scope R_scope.

(** [darker c c']: the same alpha, and no component of [c] is greater than that of [c'];
    [mode_order]: pairs of modes, the first of which should give the darker colour;
    [rising m]: multiply, screen, overlay, hard light, darken, lighten, linear and colour
    dodge, linear burn, linear light, pin light, hard mix, plus lighter, plus darker, normal. *)

(** C192 *)
Theorem C192_exact : forall m m' us ud (h : heap R) p1 c1 p2 c2, In (m, m') mode_order -> at_addr h p1 c1 -> at_addr h p2 c2 ->
  wf_color RGB_DEEP c1 -> wf_color RGB_DEEP c2 -> 0 <= alpha c1 <= 1 -> 0 <= alpha c2 <= 1 -> rgb_space c1 = rgb_space c2 ->
  returns (blend m (Some p1) (Some p2) us ud) h (fun r => returns (blend m' (Some p1) (Some p2) us ud) h (fun r' => darker r r')).
Proof. exact modes_ordered. Qed.
Print Assumptions C192_exact.
Theorem C192_binary32 : forall o (m m' : mode f32) us ud (h : heap f32) p1 (c1 : color f32) p2 c2, In (m, m') mode_order_32 -> at_addr h p1 c1 -> at_addr h p2 c2 ->
  @wf_color f32 (F32 o) RGB_DEEP c1 -> @wf_color f32 (F32 o) RGB_DEEP c2 -> in_interval 0 1 (m_alpha c1) -> in_interval 0 1 (m_alpha c2) -> rgb_space c1 = rgb_space c2 ->
  returns (@blend f32 (F32 o) m (Some p1) (Some p2) us ud) h (fun r => returns (@blend f32 (F32 o) m' (Some p1) (Some p2) us ud) h (fun r' => darker32 r r')).
Proof. exact modes_ordered32. Qed.
Print Assumptions C192_binary32.
Example C192_example : In (Multiply, Darken) (@mode_order R) /\ In (Lighten, Screen) (@mode_order R) /\
  (exists (h : heap R) c1 c2 c3, at_addr h 0%nat c1 /\ at_addr h 1%nat c2 /\ at_addr h 2%nat c3 /\
  wf_color RGB_DEEP c1 /\ wf_color RGB_DEEP c2 /\ wf_color RGB_DEEP c3 /\ alpha c1 = 1 / 2 /\ alpha c2 = 1 / 2 /\ alpha c3 = 1 / 2 /\
  rgb_space c1 = rgb_space c2 /\ rgb_space c2 = rgb_space c3 /\ comps c1 = [1 / 4; 1 / 4; 1 / 4] /\ comps c2 = [1 / 2; 1 / 2; 1 / 2] /\ comps c3 = [0; 0; 0]).
Proof. split; [simpl; tauto|]. split; [simpl; tauto|]. exact (pd_layers (1 / 4) (1 / 2) 0 ltac:(lra) ltac:(lra) ltac:(lra)). Qed.

(** C193: in binary32 the order of [mode_order] has exceptions *)
Theorem C193_refuted : forall o (m m' : mode f32), In (m, m') [(Lighten, Screen); (Screen, LinearDodge); (LinearBurn, Multiply)] ->
  exists (h : heap f32) c1 c2, at_addr h 0%nat c1 /\ at_addr h 1%nat c2 /\
  @wf_color f32 (F32 o) RGB_DEEP c1 /\ @wf_color f32 (F32 o) RGB_DEEP c2 /\ is_value (m_alpha c1) 1 /\ is_value (m_alpha c2) 1 /\
  rgb_space c1 = rgb_space c2 /\ forall us ud,
  returns (@blend f32 (F32 o) m (Some 0%nat) (Some 1%nat) us ud) h (fun r =>
    returns (@blend f32 (F32 o) m' (Some 0%nat) (Some 1%nat) us ud) h (fun r' =>
      forall i, (i < 3)%nat -> comp_sat r i (fun v => comp_sat r' i (fun v' => B2R v' < B2R v)))).
Proof. exact mode_order_fails. Qed.
Print Assumptions C193_refuted.

(** C194 *)
Theorem C194_exact : forall m us ud (h h' : heap R) p1 c1 p2 c2 q1 c1' q2 c2', rising m = true ->
  at_addr h p1 c1 -> at_addr h p2 c2 -> at_addr h' q1 c1' -> at_addr h' q2 c2' ->
  wf_color RGB_DEEP c1 -> wf_color RGB_DEEP c2 -> wf_color RGB_DEEP c1' -> wf_color RGB_DEEP c2' -> 0 <= alpha c1 <= 1 -> 0 <= alpha c2 <= 1 ->
  rgb_space c1 = rgb_space c2 -> rgb_space c1' = rgb_space c2' -> darker c1 c1' -> darker c2 c2' ->
  returns (blend m (Some p1) (Some p2) us ud) h (fun r => returns (blend m (Some q1) (Some q2) us ud) h' (fun r' => darker r r')).
Proof. exact blend_rises. Qed.
Print Assumptions C194_exact.
Theorem C194_binary32 : forall o (m : mode f32) us ud (h h' : heap f32) p1 (c1 : color f32) p2 c2 q1 (c1' : color f32) q2 c2', rising m = true ->
  at_addr h p1 c1 -> at_addr h p2 c2 -> at_addr h' q1 c1' -> at_addr h' q2 c2' ->
  @wf_color f32 (F32 o) RGB_DEEP c1 -> @wf_color f32 (F32 o) RGB_DEEP c2 -> @wf_color f32 (F32 o) RGB_DEEP c1' -> @wf_color f32 (F32 o) RGB_DEEP c2' ->
  in_interval 0 1 (m_alpha c1) -> in_interval 0 1 (m_alpha c2) -> rgb_space c1 = rgb_space c2 -> rgb_space c1' = rgb_space c2' -> darker32 c1 c1' -> darker32 c2 c2' ->
  returns (@blend f32 (F32 o) m (Some p1) (Some p2) us ud) h (fun r => returns (@blend f32 (F32 o) m (Some q1) (Some q2) us ud) h' (fun r' => darker32 r r')).
Proof. exact blend_rises32. Qed.
Print Assumptions C194_binary32.
Theorem C194_composite : forall o p (h h' : heap f32) p1 (c1 : color f32) p2 c2 q1 (c1' : color f32) q2 c2',
  at_addr h p1 c1 -> at_addr h p2 c2 -> at_addr h' q1 c1' -> at_addr h' q2 c2' ->
  @wf_color f32 (F32 o) RGB_DEEP c1 -> @wf_color f32 (F32 o) RGB_DEEP c2 -> @wf_color f32 (F32 o) RGB_DEEP c1' -> @wf_color f32 (F32 o) RGB_DEEP c2' ->
  in_interval 0 1 (m_alpha c1) -> in_interval 0 1 (m_alpha c2) -> rgb_space c1 = rgb_space c2 -> rgb_space c1' = rgb_space c2' -> darker32 c1 c1' -> darker32 c2 c2' ->
  returns (@composite f32 (F32 o) p (Some p1) (Some p2)) h (fun r => returns (@composite f32 (F32 o) p (Some q1) (Some q2)) h' (fun r' => darker32 r r')).
Proof. exact composite_rises32. Qed.
Print Assumptions C194_composite.
(** The function of every other mode (but dissolve and custom) decreases somewhere. *)
Theorem C194_others : forall (m : mode R) c1 c2, rising m = false -> (forall rnd, m <> Dissolve rnd) -> (forall f, m <> Custom f) ->
  exists s d s' d', 0 <= s <= s' /\ s' <= 1 /\ 0 <= d <= d' /\ d' <= 1 /\ forall i, blend_function m c1 c2 i s' d' < blend_function m c1 c2 i s d.
Proof. exact not_rising. Qed.
Print Assumptions C194_others.
Example C194_example : forall o, rising (@Screen f32) = true /\ exists (h : heap f32) (c c' : color f32), at_addr h 0%nat c /\ at_addr h 1%nat c' /\
  @wf_color f32 (F32 o) RGB_DEEP c /\ @wf_color f32 (F32 o) RGB_DEEP c' /\ is_value (m_alpha c) (1 / 2) /\ is_value (m_alpha c') (1 / 2) /\ rgb_space c = rgb_space c' /\
  darker32 c c' /\ comp_sat c 0 (fun v => is_value v (1 / 2)) /\ comp_sat c' 0 (fun v => is_value v 1).
Proof. intros o. split; [reflexivity|]. exact (dark_and_bright o). Qed.
