(** * Blending is monotone in exact arithmetic; the order fails in binary32 (C192 - C194) *)
From Coq Require Import ZArith QArith Qreals Reals Lra Lia List Bool.
From Flocq Require Import Core IEEE754.BinarySingleNaN.
From Verif Require Import Arith Outcome ColorModel GammaModel MatrixModel SpaceModel Heap Converter Calculation Blend
  Spec RArith F32 F32Facts Spec32 Laws NormalForms Core_Proofs Core2_Proofs Core3_Proofs Alpha8 Spec_Matrix Spec_Conv Spec_Calc Spec_Blend Spec_Formula Spec_Order
  Conv_Proofs Conv2_Proofs Conv3_Proofs HueR_Proofs Round_Proofs Calc_Proofs Calc3_Proofs Blend_Proofs Blend2_Proofs Blend3_Proofs Formula_Proofs Order_Proofs Order2_Proofs.
Import ListNotations.
Local Open Scope R_scope.

Lemma covered_le us ud x y s d b s' d' b' : 0 <= x <= 1 -> 0 <= y <= 1 -> s <= s' -> d <= d' -> b <= b' -> covered us ud x y s d b <= covered us ud x y s' d' b'.
Proof.
  intros X Y S D B. unfold covered.
  assert (x * (1 - y) * on us s <= x * (1 - y) * on us s') by (apply Rmult_le_compat_l; [apply Rmult_le_pos; lra|destruct us; simpl; lra]).
  assert (y * (1 - x) * on ud d <= y * (1 - x) * on ud d') by (apply Rmult_le_compat_l; [apply Rmult_le_pos; lra|destruct ud; simpl; lra]).
  assert (x * y * b <= x * y * b') by (apply Rmult_le_compat_l; [apply Rmult_le_pos; lra|lra]). lra.
Qed.
Lemma cut_le x y : x <= y -> cut 0 1 x <= cut 0 1 y.
Proof. intros L. unfold cut. unfold Rmax, Rmin. repeat destruct Rle_dec; lra. Qed.

Lemma blend_f_leR us ud f g (c1 c2 c1' c2' r r' : color R) : deepR c1 -> deepR c2 -> deepR c1' -> deepR c2' -> darker c1 c1' -> darker c2 c2' ->
  (forall i s d s' d', 0 <= s <= s' -> s' <= 1 -> 0 <= d <= d' -> d' <= 1 ->
    nth_error (comps c1) i = Some s -> nth_error (comps c2) i = Some d -> nth_error (comps c1') i = Some s' -> nth_error (comps c2') i = Some d' -> f i s d <= g i s' d') ->
  blend_f us ud true f c1 c2 = Ok r -> blend_f us ud true g c1' c2' = Ok r' -> darker r r'.
Proof.
  intros [W1 A1] [W2 A2] [W1' A1'] [W2' A2'] [L1 [_ D1]] [L2 [_ D2]] Hf E E'.
  destruct (comps3 _ c1 W1 eq_refl) as [s0 [s1 [s2 E1]]]. destruct (comps3 _ c2 W2 eq_refl) as [d0 [d1 [d2 E2]]].
  destruct (comps3 _ c1' W1' eq_refl) as [s0' [s1' [s2' E1']]]. destruct (comps3 _ c2' W2' eq_refl) as [d0' [d1' [d2' E2']]].
  assert (RG : forall (c : color R) i x, wf_color RGB_DEEP c -> nth_error (comps c) i = Some x -> 0 <= x <= 1).
  { intros c i x W H. pose proof (wf_range _ _ W i x H) as K. apply (proj1 (withinR 0 1 x)) in K. exact K. }
  rewrite (blend_f_nf us ud true f c1 c2 _ _ _ _ _ _ E1 E2) in E. rewrite (blend_f_nf us ud true g c1' c2' _ _ _ _ _ _ E1' E2') in E'.
  assert (Q1 : alpha c1' = alpha c1) by (unfold alpha; rewrite (wf_cls _ _ W1), (wf_cls _ _ W1'); symmetry; exact L1).
  assert (Q2 : alpha c2' = alpha c2) by (unfold alpha; rewrite (wf_cls _ _ W2), (wf_cls _ _ W2'); symmetry; exact L2).
  rewrite Q1, Q2 in E'. set (x := alpha c1) in *. set (y := alpha c2) in *.
  assert (Va : blend_alpha us ud true x y = covered us ud x y 1 1 1) by (unfold blend_alpha; rewrite blend_sumR, !fzR; reflexivity).
  assert (P : 0 <= blend_alpha us ud true x y) by (rewrite Va; destruct (covered_range us ud x y 1 1 1 1) as [K _]; lra).
  assert (C : forall i s d s' d', nth_error (comps c1) i = Some s -> nth_error (comps c2) i = Some d -> nth_error (comps c1') i = Some s' -> nth_error (comps c2') i = Some d' ->
    c01 (blend_sum us ud x y s d (f i s d)) <= c01 (blend_sum us ud x y s' d' (g i s' d'))).
  { intros i s d s' d' N1 N2 N1' N2'. rewrite !blend_sumR, !c01_cut. apply cut_le, covered_le; auto; [exact (D1 _ _ _ N1 N1')|exact (D2 _ _ _ N2 N2')|].
    pose proof (RG _ _ _ W1 N1). pose proof (RG _ _ _ W2 N2). pose proof (RG _ _ _ W1' N1'). pose proof (RG _ _ _ W2' N2').
    pose proof (D1 _ _ _ N1 N1'). pose proof (D2 _ _ _ N2 N2'). apply Hf; auto; lra. }
  pose proof (C 0%nat s0 d0 s0' d0') as C0. pose proof (C 1%nat s1 d1 s1' d1') as C1. pose proof (C 2%nat s2 d2 s2' d2') as C2. clear C.
  rewrite E1, E2, E1', E2' in C0, C1, C2. specialize (C0 eq_refl eq_refl eq_refl eq_refl). specialize (C1 eq_refl eq_refl eq_refl eq_refl). specialize (C2 eq_refl eq_refl eq_refl eq_refl).
  set (a := blend_alpha us ud true x y) in *. clearbody a.
  set (v0 := c01 (blend_sum us ud x y s0 d0 _)) in *. set (v0' := c01 (blend_sum us ud x y s0' d0' _)) in *.
  set (v1 := c01 (blend_sum us ud x y s1 d1 _)) in *. set (v1' := c01 (blend_sum us ud x y s1' d1' _)) in *.
  set (v2 := c01 (blend_sum us ud x y s2 d2 _)) in *. set (v2' := c01 (blend_sum us ud x y s2' d2' _)) in *.
  clearbody v0 v1 v2 v0' v1' v2'. apply Ok_inj in E. apply Ok_inj in E'.
  unfold alpha_divide in E, E'. cbn [m_alpha] in E, E'. revert E E'. rn. destruct (Req_EM_T a 0) as [Z|Z]; [rewrite Reqb_eq by exact Z|rewrite Reqb_ne by exact Z]; intros E E';
    rewrite <- E, <- E'; (split; [reflexivity|]; split; [reflexivity|]); cbn [comps with_comps map]; intros i v v';
    (destruct i as [|[|[|i]]]; cbn [nth_error]; [| | |destruct i; discriminate]); intros [= <-] [= <-]; try assumption;
    rn; (apply Rmult_le_compat_r; [left; apply Rinv_0_lt_compat; lra|assumption]).
Qed.

Lemma blend_monoR us ud m m' (h h' : heap R) p1 c1 p2 c2 q1 c1' q2 c2' : at_addr h p1 c1 -> at_addr h p2 c2 -> at_addr h' q1 c1' -> at_addr h' q2 c2' ->
  deepR c1 -> deepR c2 -> deepR c1' -> deepR c2' -> rgb_space c1 = rgb_space c2 -> rgb_space c1' = rgb_space c2' -> darker c1 c1' -> darker c2 c2' ->
  (forall i s d s' d', 0 <= s <= s' -> s' <= 1 -> 0 <= d <= d' -> d' <= 1 ->
    nth_error (comps c1) i = Some s -> nth_error (comps c2) i = Some d -> nth_error (comps c1') i = Some s' -> nth_error (comps c2') i = Some d' -> blend_function m c1 c2 i s d <= blend_function m' c1' c2' i s' d') ->
  returns (blend m (Some p1) (Some p2) us ud) h (fun r => returns (blend m' (Some q1) (Some q2) us ud) h' (fun r' => darker r r')).
Proof.
  intros H1 H2 H1' H2' D1 D2 D1' D2' SP SP' L1 L2 Hf. rewrite blend_checked.
  destruct (checked_deep_run us ud true (blend_function m) h p1 c1 p2 c2 H1 H2 (proj1 D1) (proj1 D2) SP) as [q [r [g [E [Q B]]]]].
  destruct (checked_deep_run us ud true (blend_function m') h' q1 c1' q2 c2' H1' H2' (proj1 D1') (proj1 D2') SP') as [q' [r' [g' [E' [Q' B']]]]].
  exists q, r, g. split; [exact E|]. split; [exact Q|]. rewrite blend_checked. exists q', r', g'. split; [exact E'|]. split; [exact Q'|].
  exact (blend_f_leR us ud _ _ c1 c2 c1' c2' r r' D1 D2 D1' D2' L1 L2 Hf B B').
Qed.

(** ** The functions *)
Lemma hard_light_le s d s' d' : 0 <= s <= s' -> s' <= 1 -> 0 <= d <= d' -> d' <= 1 -> hard_light s d <= hard_light s' d'.
Proof.
  intros S S1 D D1. unfold hard_light. repeat destruct Rle_dec; try lra.
  - assert (s * d <= s' * d') by (apply Rmult_le_compat; lra). lra.
  - assert (s * d <= 1 / 2 * d) by (apply Rmult_le_compat_r; lra). assert ((1 - s') * (1 - d') <= 1 / 2 * (1 - d')) by (apply Rmult_le_compat_r; lra). lra.
  - assert ((1 - s') * (1 - d') <= (1 - s) * (1 - d)) by (apply Rmult_le_compat; lra). lra.
Qed.
Lemma dodge_le s d s' d' : 0 <= s <= s' -> s' <= 1 -> 0 <= d <= d' -> d' <= 1 -> dodge s d <= dodge s' d'.
Proof.
  intros S S1 D D1. unfold dodge.
  assert (K : forall a b, 0 <= a < 1 -> 0 <= b -> 0 <= b / (1 - a)).
  { intros a b A B. apply Rmult_le_pos; [lra|]. left. apply Rinv_0_lt_compat. lra. }
  repeat destruct Req_EM_T; try lra.
  - apply Rmin_glb; [lra|]. apply K; lra.
  - apply Rmin_l.
  - assert (d / (1 - s) <= d' / (1 - s')).
    { apply Rmult_le_compat; try lra; [left; apply Rinv_0_lt_compat; lra|]. apply Rinv_le; lra. }
    unfold Rmin. repeat destruct Rle_dec; lra.
Qed.

Lemma rising_exact (m : mode R) c1 c2 c1' c2' i s d s' d' : rising m = true -> 0 <= s <= s' -> s' <= 1 -> 0 <= d <= d' -> d' <= 1 ->
  blend_function m c1 c2 i s d <= blend_function m c1' c2' i s' d'.
Proof.
  intros E S S1 D D1.
  assert (T : exists t, textbook m = Some t /\ t s d <= t s' d').
  { assert (M : s * d <= s' * d') by (apply Rmult_le_compat; lra). assert (N : (1 - s') * (1 - d') <= (1 - s) * (1 - d)) by (apply Rmult_le_compat; lra).
    destruct m; cbn [rising] in E; try discriminate E; cbn [textbook]; eexists; (split; [reflexivity|]); try lra; try (apply hard_light_le; lra); try (apply dodge_le; lra);
      unfold Rmin, Rmax; repeat (destruct Rle_dec || destruct Rlt_dec); lra. }
  destruct T as [t [T L]]. rewrite (textbook_agrees m t c1 c2 i s d T) by lra. rewrite (textbook_agrees m t c1' c2' i s' d' T) by lra. exact L.
Qed.

Lemma ordered_exact (m m' : mode R) c1 c2 c1' c2' i s d : In (m, m') mode_order -> 0 <= s <= 1 -> 0 <= d <= 1 ->
  blend_function m c1 c2 i s d <= blend_function m' c1' c2' i s d.
Proof.
  intros I S D.
  assert (T : exists t t', textbook m = Some t /\ textbook m' = Some t' /\ t s d <= t' s d).
  { assert (0 <= s * d) by (apply Rmult_le_pos; lra). assert (0 <= s * (1 - d)) by (apply Rmult_le_pos; lra). assert (0 <= (1 - s) * d) by (apply Rmult_le_pos; lra).
    assert (0 <= (1 - s) * (1 - d)) by (apply Rmult_le_pos; lra).
    cbn [mode_order In] in I. repeat (destruct I as [I|I]; [injection I as <- <-|]); try destruct I; cbn [textbook]; eexists; eexists; (split; [reflexivity|]; split; [reflexivity|]);
      unfold hard_light, Rmin, Rmax, Rabs; repeat (destruct Rle_dec || destruct Rcase_abs); try lra.
    all: nra. }
  destruct T as [t [t' [T [T' L]]]]. rewrite (textbook_agrees m t c1 c2 i s d T) by lra. rewrite (textbook_agrees m' t' c1' c2' i s d T') by lra. exact L.
Qed.

(** The other modes do not always respect the order. *)
Lemma not_rising (m : mode R) c1 c2 : rising m = false -> (forall rnd, m <> Dissolve rnd) -> (forall f, m <> Custom f) ->
  exists s d s' d', 0 <= s <= s' /\ s' <= 1 /\ 0 <= d <= d' /\ d' <= 1 /\ forall i, blend_function m c1 c2 i s' d' < blend_function m c1 c2 i s d.
Proof.
  intros E ND NC. destruct m; cbn [rising] in E; try discriminate E; try (exfalso; eapply ND; reflexivity); try (exfalso; eapply NC; reflexivity); cbn [blend_function].
  - exists (1 / 2), (1 / 2), (1 / 2), 1. repeat (split; [lra|]). intros _. unfold color_burn_func. cbv zeta. rn. cmpR; lra.
  - exists (3 / 4), 0, 1, 0. repeat (split; [lra|]). intros _. unfold soft_light_func. rewrite halfR. rn. cmpR; lra.
  - exists (1 / 2), (1 / 2), (3 / 4), (1 / 2). repeat (split; [lra|]). intros _. unfold vivid_light_func. rewrite halfR. rn. cmpR; lra.
  - exists 0, 1, 1, 1. repeat (split; [lra|]). intros _. unfold difference_func. rn. unfold Rabs. repeat (destruct Rcase_abs; try lra).
  - exists 0, 0, 0, 1. repeat (split; [lra|]). intros _. unfold subtract_func. rn. lra.
  - exists (1 / 2), 1, 1, 1. repeat (split; [lra|]). intros _. unfold divide_func. rn. cmpR; lra.
  - exists 0, 1, 1, 1. repeat (split; [lra|]). intros _. unfold exclusion_func. rn. lra.
Qed.
