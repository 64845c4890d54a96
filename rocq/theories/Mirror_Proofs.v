(** * Exchanging the layers, in any arithmetic with commutative sum and product (C188) *)
From Coq Require Import ZArith QArith Reals Lra Lia List Bool.
From Flocq Require Import Core IEEE754.BinarySingleNaN.
From Verif Require Import Arith Outcome ColorModel Heap Converter Calculation Blend F32 F32Facts RArith
  Spec Spec32 Laws NormalForms Core_Proofs Core2_Proofs Alpha8 Spec_Conv Spec_Calc Spec_Blend Spec_Algebra
  Conv_Proofs Conv2_Proofs Conv3_Proofs Calc_Proofs Blend_Proofs.
Import ListNotations.

Section Generic.
Context {F : Type} {AF : Arith F} {AL : ArithLaws F} {A8 : Alpha8Laws F} {A9 : Alpha8Wide F}.
Hypothesis addC : forall x y : F, fadd x y = fadd y x.
Hypothesis mulC : forall x y : F, fmul x y = fmul y x.

Lemma sum_swap us ud (x y s d b : F) : blend_sum us ud x y s d b = blend_sum ud us y x d s b.
Proof.
  unfold blend_sum. rewrite (mulC x y). f_equal. apply addC.
Qed.

Lemma blend_swap us ud ub f g (c1 c2 r r' : color F) : wf_color RGB_DEEP c1 -> wf_color RGB_DEEP c2 ->
  (forall i s d, nth_error (comps c1) i = Some s -> nth_error (comps c2) i = Some d -> f i s d = g i d s) ->
  blend_f us ud ub f c1 c2 = Ok r -> blend_f ud us ub g c2 c1 = Ok r' -> comps r = comps r' /\ m_alpha r = m_alpha r'.
Proof.
  intros W1 W2 H E1 E2.
  destruct (shape_comps c1 (wf_shape c1 W1)) as [s0 [s1 [s2 S]]]. destruct (shape_comps c2 (wf_shape c2 W2)) as [d0 [d1 [d2 D]]].
  rewrite (blend_f_nf us ud ub f c1 c2 _ _ _ _ _ _ S D) in E1. rewrite (blend_f_nf ud us ub g c2 c1 _ _ _ _ _ _ D S) in E2.
  rewrite S, D in H. rewrite (H 0%nat s0 d0 eq_refl eq_refl), (H 1%nat s1 d1 eq_refl eq_refl), (H 2%nat s2 d2 eq_refl eq_refl) in E1.
  unfold blend_alpha in *. rewrite !(sum_swap us ud) in E1. injection E1 as <-. injection E2 as <-.
  unfold alpha_divide. cbn [m_alpha comps]. destruct (feq _ _); split; reflexivity.
Qed.

Lemma checked_swap us ud ub f g (h : heap F) p1 c1 p2 c2 : at_addr h p1 c1 -> at_addr h p2 c2 -> wf_color RGB_DEEP c1 -> wf_color RGB_DEEP c2 ->
  rgb_space c1 = rgb_space c2 ->
  (forall i s d, nth_error (comps c1) i = Some s -> nth_error (comps c2) i = Some d -> f c1 c2 i s d = g c2 c1 i d s) ->
  returns (checked_blend us ud ub f (Some p1) (Some p2)) h (fun r =>
    returns (checked_blend ud us ub g (Some p2) (Some p1)) h (fun r' => comps r = comps r' /\ m_alpha r = m_alpha r')).
Proof.
  intros H1 H2 W1 W2 SP H.
  destruct (checked_deep_run us ud ub f h p1 c1 p2 c2 H1 H2 W1 W2 SP) as [q [r [h' [E [Q B]]]]].
  destruct (checked_deep_run ud us ub g h p2 c2 p1 c1 H2 H1 W2 W1 (eq_sym SP)) as [q' [r' [h2 [E' [Q' B']]]]].
  exists q, r, h'. split; [exact E|]. split; [exact Q|]. exists q', r', h2. split; [exact E'|]. split; [exact Q'|].
  exact (blend_swap us ud ub _ _ c1 c2 r r' W1 W2 H B B').
Qed.

Lemma pd_swap p (h : heap F) p1 c1 p2 c2 : at_addr h p1 c1 -> at_addr h p2 c2 -> wf_color RGB_DEEP c1 -> wf_color RGB_DEEP c2 ->
  rgb_space c1 = rgb_space c2 ->
  returns (composite (dual p) (Some p1) (Some p2)) h (fun r =>
    returns (composite p (Some p2) (Some p1)) h (fun r' => comps r = comps r' /\ m_alpha r = m_alpha r')).
Proof.
  intros H1 H2 W1 W2 SP. rewrite !composite_checked.
  replace (op_s (dual p)) with (op_d p) by (destruct p; reflexivity). replace (op_d (dual p)) with (op_s p) by (destruct p; reflexivity).
  replace (op_b (dual p)) with (op_b p) by (destruct p; reflexivity).
  apply (checked_swap (op_d p) (op_s p) (op_b p) (op_f (dual p)) (op_f p) h p1 c1 p2 c2 H1 H2 W1 W2 SP).
  intros i s d _ _. destruct p; reflexivity.
Qed.

Lemma mode_swap m m' us ud (h : heap F) p1 c1 p2 c2 : at_addr h p1 c1 -> at_addr h p2 c2 -> wf_color RGB_DEEP c1 -> wf_color RGB_DEEP c2 ->
  rgb_space c1 = rgb_space c2 ->
  (forall i s d, nth_error (comps c1) i = Some s -> nth_error (comps c2) i = Some d -> blend_function m c1 c2 i s d = blend_function m' c2 c1 i d s) ->
  returns (blend m (Some p1) (Some p2) us ud) h (fun r =>
    returns (blend m' (Some p2) (Some p1) ud us) h (fun r' => comps r = comps r' /\ m_alpha r = m_alpha r')).
Proof.
  intros H1 H2 W1 W2 SP H.
  pose proof (checked_swap us ud true (blend_function m) (blend_function m') h p1 c1 p2 c2 H1 H2 W1 W2 SP H) as K.
  rewrite blend_checked. destruct K as [q [r [h' [E [Q K]]]]]. exists q, r, h'. split; [exact E|]. split; [exact Q|].
  rewrite blend_checked. exact K.
Qed.
End Generic.

(** ** binary32 *)
Lemma Bplus_comm_all (x y : f32) : Bplus mode_NE x y = Bplus mode_NE y x.
Proof.
  destruct x as [a|a| |a m e B]; destruct y as [b|b| |b n f C]; try reflexivity; try (destruct a, b; reflexivity).
  cbn [Bplus]. unfold Fplus_naive. rewrite (Z.min_comm e f), Z.add_comm. reflexivity.
Qed.
Lemma Bmult_comm_all (x y : f32) : Bmult mode_NE x y = Bmult mode_NE y x.
Proof.
  destruct x as [a|a| |a m e B]; destruct y as [b|b| |b n f C]; try reflexivity; try (destruct a, b; reflexivity).
  apply B2SF_inj. cbn [Bmult]. rewrite !B2SF_SF2B. rewrite (xorb_comm a b), (Pos.mul_comm m n), (Z.add_comm e f). reflexivity.
Qed.
