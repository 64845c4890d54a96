(** * C192 and C194 for the programs *)
From Coq Require Import ZArith QArith Reals Lra Lia List Bool.
From Flocq Require Import Core IEEE754.BinarySingleNaN.
From Verif Require Import Arith Outcome ColorModel Heap Converter Calculation Blend F32 F32Facts RArith
  Spec Spec32 Laws NormalForms Core_Proofs Core2_Proofs Alpha8 Spec_Conv Spec_Calc Spec_Blend Spec_Order
  Conv_Proofs Conv2_Proofs Conv3_Proofs HueR_Proofs Calc_Proofs Blend_Proofs Blend2_Proofs Blend3_Proofs Order_Proofs Order2_Proofs Order3_Proofs.
Import ListNotations.
Local Open Scope R_scope.

Lemma darker_refl (c : color R) : darker c c.
Proof. split; [reflexivity|]. split; [reflexivity|]. intros i v v' A B. rewrite A in B. injection B as ->. lra. Qed.
Lemma darker32_refl o (c : color f32) : @wf_color f32 (F32 o) RGB_DEEP c -> darker32 c c.
Proof.
  intros W. split; [reflexivity|]. split; [reflexivity|]. intros i v v' A B. rewrite A in B. injection B as <-.
  destruct (unit_comp o c i v W A) as [F _]. split; [exact F|]. split; [exact F|lra].
Qed.

Lemma modes_ordered m m' us ud (h : heap R) p1 c1 p2 c2 : In (m, m') mode_order -> at_addr h p1 c1 -> at_addr h p2 c2 ->
  wf_color RGB_DEEP c1 -> wf_color RGB_DEEP c2 -> 0 <= alpha c1 <= 1 -> 0 <= alpha c2 <= 1 -> rgb_space c1 = rgb_space c2 ->
  returns (blend m (Some p1) (Some p2) us ud) h (fun r => returns (blend m' (Some p1) (Some p2) us ud) h (fun r' => darker r r')).
Proof.
  intros I H1 H2 W1 W2 A1 A2 SP. apply (blend_monoR us ud m m' h h p1 c1 p2 c2 p1 c1 p2 c2); try (split; assumption); auto using darker_refl.
  intros i s d s' d' S S1 D D1 N1 N2 N1' N2'. rewrite N1 in N1'. rewrite N2 in N2'. injection N1' as <-. injection N2' as <-. apply ordered_exact; auto; lra.
Qed.
Lemma modes_ordered32 o (m m' : mode f32) us ud (h : heap f32) p1 (c1 : color f32) p2 c2 : In (m, m') mode_order_32 -> at_addr h p1 c1 -> at_addr h p2 c2 ->
  @wf_color f32 (F32 o) RGB_DEEP c1 -> @wf_color f32 (F32 o) RGB_DEEP c2 -> in_interval 0 1 (m_alpha c1) -> in_interval 0 1 (m_alpha c2) -> rgb_space c1 = rgb_space c2 ->
  returns (@blend f32 (F32 o) m (Some p1) (Some p2) us ud) h (fun r => returns (@blend f32 (F32 o) m' (Some p1) (Some p2) us ud) h (fun r' => darker32 r r')).
Proof.
  intros I H1 H2 W1 W2 A1 A2 SP. apply (blend_mono o us ud m m' h h p1 c1 p2 c2 p1 c1 p2 c2); try (split; assumption); auto; try (apply (darker32_refl o); assumption).
  intros i s d s' d' S D S' D' LS LD N1 N2 N1' N2'. rewrite N1 in N1'. rewrite N2 in N2'. injection N1' as <-. injection N2' as <-. apply ordered32; auto.
Qed.

Lemma blend_rises m us ud (h h' : heap R) p1 c1 p2 c2 q1 c1' q2 c2' : rising m = true -> at_addr h p1 c1 -> at_addr h p2 c2 -> at_addr h' q1 c1' -> at_addr h' q2 c2' ->
  wf_color RGB_DEEP c1 -> wf_color RGB_DEEP c2 -> wf_color RGB_DEEP c1' -> wf_color RGB_DEEP c2' -> 0 <= alpha c1 <= 1 -> 0 <= alpha c2 <= 1 ->
  rgb_space c1 = rgb_space c2 -> rgb_space c1' = rgb_space c2' -> darker c1 c1' -> darker c2 c2' ->
  returns (blend m (Some p1) (Some p2) us ud) h (fun r => returns (blend m (Some q1) (Some q2) us ud) h' (fun r' => darker r r')).
Proof.
  intros I H1 H2 H1' H2' W1 W2 W1' W2' A1 A2 SP SP' L1 L2.
  assert (Q1 : alpha c1' = alpha c1) by (unfold alpha; rewrite (wf_cls _ _ W1), (wf_cls _ _ W1'); symmetry; apply L1).
  assert (Q2 : alpha c2' = alpha c2) by (unfold alpha; rewrite (wf_cls _ _ W2), (wf_cls _ _ W2'); symmetry; apply L2).
  apply (blend_monoR us ud m m h h' p1 c1 p2 c2 q1 c1' q2 c2'); try (split; assumption); auto; try (split; [assumption|]; rewrite ?Q1, ?Q2; assumption).
  intros. apply rising_exact; auto.
Qed.
Lemma blend_rises32 o (m : mode f32) us ud (h h' : heap f32) p1 (c1 : color f32) p2 c2 q1 (c1' : color f32) q2 c2' : rising m = true ->
  at_addr h p1 c1 -> at_addr h p2 c2 -> at_addr h' q1 c1' -> at_addr h' q2 c2' ->
  @wf_color f32 (F32 o) RGB_DEEP c1 -> @wf_color f32 (F32 o) RGB_DEEP c2 -> @wf_color f32 (F32 o) RGB_DEEP c1' -> @wf_color f32 (F32 o) RGB_DEEP c2' ->
  in_interval 0 1 (m_alpha c1) -> in_interval 0 1 (m_alpha c2) -> rgb_space c1 = rgb_space c2 -> rgb_space c1' = rgb_space c2' -> darker32 c1 c1' -> darker32 c2 c2' ->
  returns (@blend f32 (F32 o) m (Some p1) (Some p2) us ud) h (fun r => returns (@blend f32 (F32 o) m (Some q1) (Some q2) us ud) h' (fun r' => darker32 r r')).
Proof.
  intros I H1 H2 H1' H2' W1 W2 W1' W2' A1 A2 SP SP' L1 L2.
  apply (blend_mono o us ud m m h h' p1 c1 p2 c2 q1 c1' q2 c2'); try (split; assumption); auto;
    try (split; [assumption|]; first [rewrite <- (proj1 L1)|rewrite <- (proj1 L2)]; assumption).
  intros. apply rising32; auto.
Qed.
Lemma composite_rises32 o p (h h' : heap f32) p1 (c1 : color f32) p2 c2 q1 (c1' : color f32) q2 c2' :
  at_addr h p1 c1 -> at_addr h p2 c2 -> at_addr h' q1 c1' -> at_addr h' q2 c2' ->
  @wf_color f32 (F32 o) RGB_DEEP c1 -> @wf_color f32 (F32 o) RGB_DEEP c2 -> @wf_color f32 (F32 o) RGB_DEEP c1' -> @wf_color f32 (F32 o) RGB_DEEP c2' ->
  in_interval 0 1 (m_alpha c1) -> in_interval 0 1 (m_alpha c2) -> rgb_space c1 = rgb_space c2 -> rgb_space c1' = rgb_space c2' -> darker32 c1 c1' -> darker32 c2 c2' ->
  returns (@composite f32 (F32 o) p (Some p1) (Some p2)) h (fun r => returns (@composite f32 (F32 o) p (Some q1) (Some q2)) h' (fun r' => darker32 r r')).
Proof.
  intros H1 H2 H1' H2' W1 W2 W1' W2' A1 A2 SP SP' L1 L2.
  apply (composite_mono o p h h' p1 c1 p2 c2 q1 c1' q2 c2'); try (split; assumption); auto;
    (split; [assumption|]; first [rewrite <- (proj1 L1)|rewrite <- (proj1 L2)]; assumption).
Qed.

(** Two half transparent greys *)
Lemma dark_and_bright o : exists (h : heap f32) (c c' : color f32), at_addr h 0%nat c /\ at_addr h 1%nat c' /\
  @wf_color f32 (F32 o) RGB_DEEP c /\ @wf_color f32 (F32 o) RGB_DEEP c' /\ is_value (m_alpha c) (1 / 2) /\ is_value (m_alpha c') (1 / 2) /\ rgb_space c = rgb_space c' /\
  darker32 c c' /\ comp_sat c 0 (fun v => is_value v (1 / 2)) /\ comp_sat c' 0 (fun v => is_value v 1).
Proof.
  pose (u := @fz f32 (F32 o) 1). pose (a := @half f32 (F32 o)). destruct (one32 o) as [F1 V1]. destruct (half32 o) as [Uh Vh]. fold u in F1, V1. fold a in Uh, Vh.
  assert (Uu : unit32 u) by (split; [exact F1|lra]). clearbody a u.
  destruct (rgb_deepcolor_made (AF := F32 o) (AL := F32Laws o) a a a a None) as [c1 [E1 [W1 [A1 S1]]]].
  destruct (rgb_deepcolor_made (AF := F32 o) (AL := F32Laws o) u u u a None) as [c2 [E2 [W2 [A2 S2]]]].
  rewrite rgb_deepcolor_nf in E1, E2. apply Ok_inj in E1. apply Ok_inj in E2.
  rewrite (c01_id o a Uh) in E1. rewrite (c01_id o u Uu) in E2.
  assert (C1 : comps c1 = [a; a; a]) by (rewrite <- E1; reflexivity). assert (C2 : comps c2 = [u; u; u]) by (rewrite <- E2; reflexivity).
  exists (Heap [c1; c2] []), c1, c2. split; [reflexivity|]. split; [reflexivity|]. split; [exact W1|]. split; [exact W2|].
  split; [rewrite A1; split; [apply Uh|exact Vh]|]. split; [rewrite A2; split; [apply Uh|exact Vh]|]. split; [congruence|]. split.
  - split; [congruence|]. rewrite C1, C2. split; [reflexivity|]. intros i v v' A B.
    assert (v = a) by (destruct i as [|[|[|i]]]; cbn in A; [congruence..|destruct i; discriminate]).
    assert (v' = u) by (destruct i as [|[|[|i]]]; cbn in B; [congruence..|destruct i; discriminate]). subst v v'.
    split; [apply Uh|]. split; [exact F1|]. change (fval a <= fval u). lra.
  - unfold comp_sat. rewrite C1, C2. split; [exists a|exists u]; (split; [reflexivity|]); (split; [apply Uh || exact F1|assumption]).
Qed.
