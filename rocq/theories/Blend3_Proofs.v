(** * Porter-Duff operators and blend modes in exact arithmetic (C60, C62, C64 - C66) *)
From Coq Require Import ZArith QArith Qreals Reals Lra Lia List Bool.
From Verif Require Import Arith Outcome ColorModel GammaModel MatrixModel SpaceModel Heap Converter Calculation Blend
  Spec RArith Laws NormalForms Core_Proofs Core2_Proofs Alpha8 Spec_Matrix Spec_Conv Spec_Calc Spec_Blend
  Conv_Proofs Conv2_Proofs Conv3_Proofs HueR_Proofs Round_Proofs Calc_Proofs Calc3_Proofs Blend_Proofs.
Import ListNotations.
Local Open Scope R_scope.

Definition on (u : bool) (x : R) : R := if u then x else 0.
Definition covered (us ud : bool) (x y s d b : R) : R := x * (1 - y) * on us s + y * (1 - x) * on ud d + x * y * b.

Lemma blend_sumR us ud x y s d b : @blend_sum R RArith us ud x y s d b = covered us ud x y s d b.
Proof. unfold blend_sum, covered, on. rn. destruct us, ud; reflexivity. Qed.

Lemma covered_range us ud x y s d b m : 0 <= x <= 1 -> 0 <= y <= 1 -> 0 <= s <= 1 -> 0 <= d <= 1 -> 0 <= b <= m -> m <= 1 ->
  0 <= covered us ud x y s d b <= covered us ud x y 1 1 m /\ covered us ud x y 1 1 m <= 1.
Proof.
  intros X Y S D B M. unfold covered.
  assert (0 <= x * (1 - y)) by (apply Rmult_le_pos; lra). assert (0 <= y * (1 - x)) by (apply Rmult_le_pos; lra).
  assert (0 <= x * y) by (apply Rmult_le_pos; lra).
  assert (0 <= on us s <= on us 1 /\ on us 1 <= 1) by (destruct us; simpl; lra).
  assert (0 <= on ud d <= on ud 1 /\ on ud 1 <= 1) by (destruct ud; simpl; lra).
  set (p := x * (1 - y)) in *. set (q := y * (1 - x)) in *. set (r := x * y) in *.
  assert (0 <= p * on us s) by (apply Rmult_le_pos; lra). assert (0 <= q * on ud d) by (apply Rmult_le_pos; lra).
  assert (0 <= r * b) by (apply Rmult_le_pos; lra).
  assert (p * on us s <= p * on us 1) by (apply Rmult_le_compat_l; lra).
  assert (q * on ud d <= q * on ud 1) by (apply Rmult_le_compat_l; lra).
  assert (r * b <= r * m) by (apply Rmult_le_compat_l; lra).
  assert (p * on us 1 <= p * 1) by (apply Rmult_le_compat_l; lra).
  assert (q * on ud 1 <= q * 1) by (apply Rmult_le_compat_l; lra).
  assert (r * m <= r * 1) by (apply Rmult_le_compat_l; lra).
  assert (p + q + r <= 1).
  { unfold p, q, r. assert (0 <= (1 - x) * (1 - y)) by (apply Rmult_le_pos; lra). lra. }
  lra.
Qed.

(** What a blend of two deep colours is, if the function stays in [0, 1]. *)
Record blended (us ud ub : bool) (f : nat -> R -> R -> R) (c1 c2 r : color R) : Prop := {
  bl_ty : ty r = RGB_DEEP;
  bl_len : length (comps r) = 3%nat;
  bl_space : rgb_space r = rgb_space c1;
  bl_alpha : alpha r = covered us ud (alpha c1) (alpha c2) 1 1 (on ub 1);
  bl_arange : 0 <= alpha r <= 1;
  bl_comp : forall i s d v, nth_error (comps c1) i = Some s -> nth_error (comps c2) i = Some d -> nth_error (comps r) i = Some v ->
    alpha r * v = covered us ud (alpha c1) (alpha c2) s d (f i s d) /\ 0 <= v <= 1 /\ (alpha r = 0 -> v = 0)
}.

Definition deepR (c : color R) : Prop := wf_color RGB_DEEP c /\ 0 <= alpha c <= 1.

Lemma quotient v a : 0 <= v <= a -> 0 < a -> a * (v / a) = v /\ 0 <= v / a <= 1.
Proof.
  intros H P. split; [field; lra|]. unfold Rdiv. assert (0 < / a) by (apply Rinv_0_lt_compat, P). split; [apply Rmult_le_pos; lra|].
  apply Rmult_le_reg_l with a; [exact P|]. replace (a * (v * / a)) with v by (field; lra). lra.
Qed.

Lemma blend_f_blended us ud ub f (c1 c2 r : color R) : deepR c1 -> deepR c2 ->
  (forall i s d, 0 <= s <= 1 -> 0 <= d <= 1 -> 0 <= f i s d <= on ub 1) ->
  blend_f us ud ub f c1 c2 = Ok r -> blended us ud ub f c1 c2 r.
Proof.
  intros [W1 A1] [W2 A2] Hf E.
  destruct (comps3 _ c1 W1 eq_refl) as [s0 [s1 [s2 E1]]]. destruct (comps3 _ c2 W2 eq_refl) as [d0 [d1 [d2 E2]]].
  pose proof (fun i x => wf_rng RGB_DEEP c1 i x W1) as R1. pose proof (fun i x => wf_rng RGB_DEEP c2 i x W2) as R2.
  rewrite E1 in R1. rewrite E2 in R2.
  pose proof (R1 0%nat _ eq_refl). pose proof (R1 1%nat _ eq_refl). pose proof (R1 2%nat _ eq_refl).
  pose proof (R2 0%nat _ eq_refl). pose proof (R2 1%nat _ eq_refl). pose proof (R2 2%nat _ eq_refl).
  unfold rng in *. cbn [comp_range fst snd] in *. clear R1 R2.
  rewrite (blend_f_nf us ud ub f c1 c2 _ _ _ _ _ _ E1 E2) in E. unfold blend_alpha in E. rewrite !blend_sumR in E.
  assert (U : on ub 1 <= 1) by (destruct ub; simpl; lra).
  rewrite !fzR in E. change (if ub then 1 else 0) with (on ub 1) in E.
  set (x := alpha c1) in *. set (y := alpha c2) in *.
  pose proof (fun i s d Hs Hd => covered_range us ud x y s d (f i s d) (on ub 1) A1 A2 Hs Hd (Hf i s d Hs Hd) U) as C.
  pose proof (C 0%nat s0 d0 ltac:(assumption) ltac:(assumption)) as C0.
  pose proof (C 1%nat s1 d1 ltac:(assumption) ltac:(assumption)) as C1.
  pose proof (C 2%nat s2 d2 ltac:(assumption) ltac:(assumption)) as C2.
  rewrite !c01R in E by lra. clear C.
  set (A := covered us ud x y 1 1 (on ub 1)) in *.
  unfold alpha_divide in E. cbn [m_alpha] in E. cbn [feq RArith] in E. rewrite ?fzR in E.
  destruct (Req_dec A 0) as [Z|Z].
  - rewrite Reqb_eq in E by exact Z. injection E as <-. constructor; cbn [ty comps rgb_space length]; try reflexivity.
    + change (0 <= A <= 1). lra.
    + fold x y. match goal with |- context [alpha ?c] => change (alpha c) with A end. intros i s d v. rewrite E1, E2. destruct i as [|[|[|i]]]; cbn [nth_error];
        [intros [= <-] [= <-] [= <-]| intros [= <-] [= <-] [= <-]| intros [= <-] [= <-] [= <-]|destruct i; discriminate]; fold x y; rewrite Z in *; repeat split; lra.
  - rewrite Reqb_ne in E by exact Z. cbn [map comps with_comps] in E. injection E as <-. constructor; cbn [ty comps rgb_space length with_comps map]; try reflexivity.
    + change (0 <= A <= 1). lra.
    + fold x y. match goal with |- context [alpha ?c] => change (alpha c) with A end. intros i s d v. rewrite E1, E2.
      destruct (quotient _ A (proj1 C0) ltac:(lra)). destruct (quotient _ A (proj1 C1) ltac:(lra)). destruct (quotient _ A (proj1 C2) ltac:(lra)).
      destruct i as [|[|[|i]]]; cbn [nth_error];
        [intros [= <-] [= <-] [= <-]| intros [= <-] [= <-] [= <-]| intros [= <-] [= <-] [= <-]|destruct i; discriminate]; cbn [fdiv RArith];
        (split; [assumption|split; [assumption|intros K; contradiction]]).
Qed.

Lemma checked_blended us ud ub f (h : heap R) p1 c1 p2 c2 : at_addr h p1 c1 -> at_addr h p2 c2 -> deepR c1 -> deepR c2 ->
  rgb_space c1 = rgb_space c2 -> (forall i s d, 0 <= s <= 1 -> 0 <= d <= 1 -> 0 <= f c1 c2 i s d <= on ub 1) ->
  returns (checked_blend us ud ub f (Some p1) (Some p2)) h (blended us ud ub (f c1 c2) c1 c2).
Proof.
  intros H1 H2 D1 D2 SP Hf.
  destruct (checked_deep_run us ud ub f h p1 c1 p2 c2 H1 H2 (proj1 D1) (proj1 D2) SP) as [q [r [h' [E [Q B]]]]].
  exists q, r, h'. split; [exact E|]. split; [exact Q|]. apply (blend_f_blended us ud ub _ c1 c2 r D1 D2 Hf B).
Qed.

(** ** Porter-Duff *)

Lemma op_f_range p (c1 c2 : color R) i s d : 0 <= s <= 1 -> 0 <= d <= 1 -> 0 <= op_f p c1 c2 i s d <= on (op_b p) 1.
Proof. intros. destruct p; cbn [op_f op_b on]; rewrite ?fzR; lra. Qed.

Lemma returns_impl {F} (m : M F ptr) h (P Q : color F -> Prop) : returns m h P -> (forall r, P r -> Q r) -> returns m h Q.
Proof. intros [q [r [h' [E [A B]]]]] K. exists q, r, h'. auto. Qed.

Lemma pd_formula p (h : heap R) p1 c1 p2 c2 : at_addr h p1 c1 -> at_addr h p2 c2 -> wf_color RGB_DEEP c1 -> wf_color RGB_DEEP c2 ->
  0 <= alpha c1 <= 1 -> 0 <= alpha c2 <= 1 -> rgb_space c1 = rgb_space c2 ->
  returns (composite p (Some p1) (Some p2)) h (pd_result p c1 c2).
Proof.
  intros H1 H2 W1 W2 A1 A2 SP. rewrite composite_checked.
  apply (returns_impl _ _ _ _ (checked_blended (op_s p) (op_d p) (op_b p) (op_f p) h p1 c1 p2 c2 H1 H2 (conj W1 A1) (conj W2 A2) SP (op_f_range p c1 c2))).
  intros r [T L S A AR C]. unfold pd_result. destruct (fractions p (alpha c1) (alpha c2)) as [fa fb] eqn:Fr.
  split; [exact T|]. split; [exact L|]. split; [exact S|].
  split. { rewrite A. unfold covered. destruct p; cbn [fractions op_s op_d op_b on] in *; injection Fr as <- <-; ring. }
  split; [exact AR|]. intros i s d v Es Ed Ev. destruct (C i s d v Es Ed Ev) as [C1 [C2 C3]]. split; [|split; assumption].
  rewrite C1. unfold covered. destruct p; cbn [fractions op_s op_d op_b on op_f] in *; rewrite ?fzR; injection Fr as <- <-; ring.
Qed.

Lemma comps_ext (l m : list R) : length l = 3%nat -> length m = 3%nat -> (forall i v w, nth_error l i = Some v -> nth_error m i = Some w -> v = w) -> l = m.
Proof.
  destruct l as [|a [|b [|c [|]]]]; try discriminate. destruct m as [|a' [|b' [|c' [|]]]]; try discriminate. intros _ _ H.
  rewrite (H 0%nat a a' eq_refl eq_refl), (H 1%nat b b' eq_refl eq_refl), (H 2%nat c c' eq_refl eq_refl). reflexivity.
Qed.
Lemma nth3 (c : color R) i (v : R) : wf_color RGB_DEEP c -> (i < 3)%nat -> exists s, nth_error (comps c) i = Some s.
Proof. intros W L. destruct (nth_error (comps c) i) eqn:E; [eauto|]. apply nth_error_None in E. rewrite (wf_len _ _ W) in E. simpl in E. lia. Qed.
Lemma nth_lt {A} (l : list A) i v : nth_error l i = Some v -> (i < length l)%nat.
Proof. intros E. apply nth_error_Some. congruence. Qed.

(** Two results with the same alpha and the same products are the same. *)
Lemma pd_unique p q (c1 c2 r r' : color R) : wf_color RGB_DEEP c1 -> wf_color RGB_DEEP c2 ->
  (fst (fractions p (alpha c1) (alpha c2)) = snd (fractions q (alpha c2) (alpha c1))) ->
  (snd (fractions p (alpha c1) (alpha c2)) = fst (fractions q (alpha c2) (alpha c1))) ->
  pd_result p c1 c2 r -> pd_result q c2 c1 r' -> comps r = comps r' /\ alpha r = alpha r'.
Proof.
  intros W1 W2. unfold pd_result. destruct (fractions p (alpha c1) (alpha c2)) as [fa fb]. destruct (fractions q (alpha c2) (alpha c1)) as [ga gb].
  cbn [fst snd]. intros <- <- [_ [L [_ [A [_ C]]]]] [_ [L' [_ [A' [_ C']]]]].
  assert (E : alpha r = alpha r') by (rewrite A, A'; ring). split; [|exact E].
  apply comps_ext; [exact L|exact L'|]. intros i v w Hv Hw. pose proof (nth_lt _ _ _ Hv) as Li. rewrite L in Li.
  destruct (nth3 c1 i v W1 Li) as [s Es]. destruct (nth3 c2 i v W2 Li) as [d Ed].
  destruct (C i s d v Es Ed Hv) as [P1 [_ Z1]]. destruct (C' i d s w Ed Es Hw) as [P2 [_ Z2]].
  destruct (Req_dec (alpha r) 0) as [Z|Z]; [rewrite Z1, Z2 by congruence; reflexivity|].
  apply Rmult_eq_reg_l with (alpha r); [|exact Z]. rewrite P1, E, P2. ring.
Qed.

Lemma pd_dual p (h : heap R) p1 c1 p2 c2 : at_addr h p1 c1 -> at_addr h p2 c2 -> wf_color RGB_DEEP c1 -> wf_color RGB_DEEP c2 ->
  0 <= alpha c1 <= 1 -> 0 <= alpha c2 <= 1 -> rgb_space c1 = rgb_space c2 ->
  returns (composite (dual p) (Some p1) (Some p2)) h (fun r =>
    returns (composite p (Some p2) (Some p1)) h (fun r' => comps r = comps r' /\ alpha r = alpha r')).
Proof.
  intros H1 H2 W1 W2 A1 A2 SP.
  apply (returns_impl _ _ _ _ (pd_formula (dual p) h p1 c1 p2 c2 H1 H2 W1 W2 A1 A2 SP)). intros r R1.
  apply (returns_impl _ _ _ _ (pd_formula p h p2 c2 p1 c1 H2 H1 W2 W1 A2 A1 (eq_sym SP))). intros r' R2.
  apply (pd_unique (dual p) p c1 c2 r r' W1 W2); auto; destruct p; reflexivity.
Qed.

Lemma over_opaque (h : heap R) p1 c1 p2 c2 : at_addr h p1 c1 -> at_addr h p2 c2 -> wf_color RGB_DEEP c1 -> wf_color RGB_DEEP c2 ->
  alpha c1 = 1 -> 0 <= alpha c2 <= 1 -> rgb_space c1 = rgb_space c2 ->
  returns (over (Some p1) (Some p2)) h (fun r => comps r = comps c1 /\ alpha r = 1).
Proof.
  intros H1 H2 W1 W2 A1 A2 SP.
  apply (returns_impl _ _ _ _ (pd_formula Over h p1 c1 p2 c2 H1 H2 W1 W2 ltac:(lra) A2 SP)). intros r [T [L [S [A [_ C]]]]].
  cbn [fractions] in *. rewrite A1 in *. assert (E : alpha r = 1) by lra. split; [|exact E].
  apply comps_ext; [exact L|apply (wf_len _ _ W1)|]. intros i v w Hv Hw. pose proof (nth_lt _ _ _ Hv) as Li. rewrite L in Li.
  destruct (nth3 c2 i v W2 Li) as [d Ed]. destruct (C i w d v Hw Ed Hv) as [P _]. rewrite E in P. lra.
Qed.

Lemma clear_black (h : heap R) p1 c1 p2 c2 : at_addr h p1 c1 -> at_addr h p2 c2 -> wf_color RGB_DEEP c1 -> wf_color RGB_DEEP c2 ->
  0 <= alpha c1 <= 1 -> 0 <= alpha c2 <= 1 -> rgb_space c1 = rgb_space c2 ->
  returns (clear (Some p1) (Some p2)) h (fun r => comps r = [0; 0; 0] /\ alpha r = 0).
Proof.
  intros H1 H2 W1 W2 A1 A2 SP.
  apply (returns_impl _ _ _ _ (pd_formula Clear h p1 c1 p2 c2 H1 H2 W1 W2 A1 A2 SP)). intros r [T [L [S [A [_ C]]]]].
  cbn [fractions] in *. assert (E : alpha r = 0) by lra. split; [|exact E].
  apply comps_ext; [exact L|reflexivity|]. intros i v w Hv Hw. pose proof (nth_lt _ _ _ Hv) as Li. rewrite L in Li.
  destruct (nth3 c1 i v W1 Li) as [s Es]. destruct (nth3 c2 i v W2 Li) as [d Ed]. destruct (C i s d v Es Ed Hv) as [_ [_ P]]. rewrite (P E).
  destruct i as [|[|[|i]]]; cbn [nth_error] in Hw; [congruence|congruence|congruence|destruct i; discriminate].
Qed.

(** ** The blend functions *)
Lemma halfR : @half R RArith = 1 / 2.
Proof. unfold half. cbn [lit RArith]. unfold Q2R. simpl. lra. Qed.

Ltac cmpR := repeat match goal with
  | |- context [Rleb ?a ?b] => unfold Rleb at 1; destruct (Rle_dec a b)
  | |- context [Rltb ?a ?b] => unfold Rltb at 1; destruct (Rlt_dec a b)
  | |- context [Reqb ?a ?b] => unfold Reqb at 1; destruct (Req_EM_T a b)
  end.

Lemma textbook_agrees (m : mode R) t c1 c2 i s d : textbook m = Some t -> 0 <= s <= 1 -> 0 <= d <= 1 -> blend_function m c1 c2 i s d = t s d.
Proof.
  intros E S D. destruct m; cbn [textbook] in E; try discriminate E; injection E as <-; cbn [blend_function]; try reflexivity;
    unfold multiply_func, screen_func, overlay_func, hard_light_func, darken_func, lighten_func, color_dodge_func, linear_dodge_func,
      linear_burn_func, linear_light_func, pin_light_func, hard_mix_func, difference_func, subtract_func, divide_func, plus_lighter_func,
      plus_darker_func, exclusion_func, linear_dodge_func, hard_light, dodge; rewrite ?halfR; rn; try (ring; fail).
  - cmpR; destruct (Rle_dec d (1 / 2)); try lra; ring.
  - cmpR; try reflexivity; try lra; unfold Rmin; destruct (Rle_dec 1 (d / (1 - s))); lra.
  - cmpR; destruct (Rle_dec s (1 / 2)); try lra; ring.
  - cmpR; lra.
  - cmpR; destruct (Rle_dec s (1 / 2)); try lra. f_equal; lra.
  - cmpR; destruct (Rlt_dec (s + d) 1); lra.
  - rewrite <- Rabs_Ropp. f_equal. ring.
  - cmpR; reflexivity.
Qed.

Ltac cmp2 := unfold Rleb, Rltb, Reqb; repeat match goal with
  | |- context [Rle_dec ?a ?b] => destruct (Rle_dec a b)
  | |- context [Rlt_dec ?a ?b] => destruct (Rlt_dec a b)
  | |- context [Req_EM_T ?a ?b] => destruct (Req_EM_T a b)
  end.
Lemma mul01 a b : 0 <= a <= 1 -> 0 <= b <= 1 -> 0 <= a * b <= 1.
Proof. intros A B. split; [apply Rmult_le_pos; lra|]. rewrite <- (Rmult_1_r 1). apply Rmult_le_compat; lra. Qed.

Lemma bounded_maps (m : mode R) c1 c2 i s d : bounded_exact m = true -> 0 <= s <= 1 -> 0 <= d <= 1 -> 0 <= blend_function m c1 c2 i s d <= 1.
Proof.
  intros E S D. pose proof (mul01 s d S D). pose proof (mul01 (1 - s) (1 - d) ltac:(lra) ltac:(lra)).
  pose proof (mul01 s (1 - d) ltac:(lra) ltac:(lra)). pose proof (mul01 (1 - s) d ltac:(lra) ltac:(lra)).
  destruct m; cbn [bounded_exact bounded] in E; try discriminate E; cbn [blend_function];
    unfold dissolve_func, multiply_func, screen_func, overlay_func, hard_light_func, darken_func, lighten_func, color_dodge_func, color_burn_func, soft_light_func,
      pin_light_func, hard_mix_func, difference_func, exclusion_func; rewrite ?halfR; cbv zeta; rn; try lra.
  - cmp2; lra.
  - cmp2; [pose proof (mul01 (2 * d) s ltac:(lra) ltac:(lra))|pose proof (mul01 (1 - s) (2 * (1 - d)) ltac:(lra) ltac:(lra))]; lra.
  - unfold Rmin; destruct (Rle_dec s d); lra.
  - unfold Rmax; destruct (Rle_dec s d); lra.
  - cmp2; try lra. split; [|assumption]. apply Rmult_le_pos; [lra|]. left. apply Rinv_0_lt_compat. lra.
  - cmp2; try lra. split; [|assumption]. apply Rmult_le_pos; [lra|]. left. apply Rinv_0_lt_compat. lra.
  - cmp2; [pose proof (mul01 d (2 * s) ltac:(lra) ltac:(lra))|pose proof (mul01 (1 - d) (2 * (1 - s)) ltac:(lra) ltac:(lra))]; lra.
  - cmp2; [pose proof (mul01 d (s + 1 / 2) ltac:(lra) ltac:(lra))|pose proof (mul01 (1 - d) (s - 1 / 2) ltac:(lra) ltac:(lra))]; lra.
  - cmp2; unfold Rmin, Rmax; [destruct (Rle_dec d (2 * s))|destruct (Rle_dec d (2 * (s - 1 / 2)))]; lra.
  - cmp2; lra.
  - unfold Rabs; destruct (Rcase_abs (d - s)); lra.
Qed.

Lemma blend_laws (s d : R) : 0 <= s <= 1 -> 0 <= d <= 1 ->
  multiply_func s d = multiply_func d s /\ screen_func s d = screen_func d s /\ darken_func s d = darken_func d s /\
  lighten_func s d = lighten_func d s /\ difference_func s d = difference_func d s /\ exclusion_func s d = exclusion_func d s /\
  multiply_func 1 d = d /\ screen_func 0 d = d /\ overlay_func s d = hard_light_func d s /\ difference_func s s = 0.
Proof.
  intros S D. unfold multiply_func, screen_func, darken_func, lighten_func, difference_func, exclusion_func, overlay_func. rn.
  repeat match goal with |- _ /\ _ => split end; try ring.
  - apply Rmin_comm.
  - apply Rmax_comm.
  - rewrite <- Rabs_Ropp. f_equal. ring.
  - replace (s - s) with 0 by ring. apply Rabs_R0.
Qed.

(** Blends of deep colours in general. *)
Lemma blend_formula m us ud (h : heap R) p1 c1 p2 c2 : at_addr h p1 c1 -> at_addr h p2 c2 -> wf_color RGB_DEEP c1 -> wf_color RGB_DEEP c2 ->
  0 <= alpha c1 <= 1 -> 0 <= alpha c2 <= 1 -> rgb_space c1 = rgb_space c2 ->
  (forall i s d, 0 <= s <= 1 -> 0 <= d <= 1 -> 0 <= blend_function m c1 c2 i s d <= 1) ->
  returns (blend m (Some p1) (Some p2) us ud) h (blend_result m us ud c1 c2).
Proof.
  intros H1 H2 W1 W2 A1 A2 SP Hf. rewrite blend_checked.
  apply (returns_impl _ _ _ _ (checked_blended us ud true (blend_function m) h p1 c1 p2 c2 H1 H2 (conj W1 A1) (conj W2 A2) SP Hf)).
  intros r [T L S A AR C]. unfold blend_result. split; [exact T|]. split; [exact L|]. split; [exact S|].
  split. { rewrite A. unfold covered. destruct us, ud; simpl; ring. }
  split; [exact AR|]. intros i s d v Es Ed Ev. destruct (C i s d v Es Ed Ev) as [C1 [C2 C3]]. split; [|split; assumption].
  rewrite C1. unfold covered. destruct us, ud; simpl; ring.
Qed.
Lemma blend_bounded_formula m us ud (h : heap R) p1 c1 p2 c2 : at_addr h p1 c1 -> at_addr h p2 c2 -> wf_color RGB_DEEP c1 -> wf_color RGB_DEEP c2 ->
  0 <= alpha c1 <= 1 -> 0 <= alpha c2 <= 1 -> rgb_space c1 = rgb_space c2 -> bounded_exact m = true ->
  returns (blend m (Some p1) (Some p2) us ud) h (blend_result m us ud c1 c2).
Proof. intros. apply blend_formula; auto. intros. apply bounded_maps; auto. Qed.

(** C65, and vivid light *)
Lemma burn_wrong : exists s d : R, 0 < s <= 1 /\ 0 <= d <= 1 /\ color_burn_func s d <> 1 - Rmin 1 ((1 - d) / s).
Proof.
  exists 1, 1. split; [lra|]. split; [lra|]. unfold color_burn_func. rn. rewrite Reqb_eq by reflexivity.
  replace ((1 - 1) / 1) with 0 by field. rewrite Rmin_right by lra. lra.
Qed.
Lemma burn_inverted (s d : R) : 0 <= s <= 1 -> 0 <= d <= 1 -> color_burn_func s d = 1 - burn s d.
Proof.
  intros S D. unfold color_burn_func, burn. rn. cmpR; try lra. rewrite Rmin_right by assumption. lra. rewrite Rmin_left by lra. lra.
Qed.
Lemma soft_light_wrong : exists d : R, 0 <= d <= 1 /\ (forall eps, 0 < eps <= 1 / 2 -> 
    soft_light_func (1 / 2 + eps) d - soft_light_func (1 / 2) d >= 1 / 4) /\ soft_light_func 1 0 = 1 / 2.
Proof.
  exists 0. split; [lra|]. split.
  - intros e He. unfold soft_light_func. rewrite halfR. rn. cmpR; lra.
  - unfold soft_light_func. rewrite halfR. rn. cmpR; lra.
Qed.
Lemma vivid_wrong : vivid_light 0 (1 / 2) = 0 /\ vivid_light_func 0 (1 / 2) = 1 / 2.
Proof.
  split.
  - unfold vivid_light, burn. destruct (Rle_dec 0 (1 / 2)); [|lra]. destruct (Req_EM_T (1 / 2) 1); [lra|]. destruct (Req_EM_T (2 * 0) 0); lra.
  - unfold vivid_light_func. rewrite halfR. rn. cmpR; lra.
Qed.
Lemma soft_light_deviation (s d : R) : 0 <= s <= 1 -> 0 <= d <= 1 ->
  soft_light_func s d = soft_light s d + (if Rle_dec s (1 / 2) then 0 else 2 * (1 - s) * (1 - d)).
Proof. intros S D. unfold soft_light_func, soft_light. rewrite halfR. rn. cmpR; lra. Qed.
Lemma vivid_deviation (s d : R) : 0 <= s <= 1 -> 0 <= d <= 1 ->
  Rmax 0 (Rmin 1 (vivid_light_func s d)) =
  if Rle_dec s (1 / 2) then dodge (2 * s) d else if Req_EM_T s 1 then (if Req_EM_T d 1 then 1 else 0) else burn (2 * s - 1) d.
Proof.
  intros S D. unfold vivid_light_func. rewrite halfR. rn.
  assert (P : forall x, 0 <= x -> Rmax 0 (Rmin 1 x) = Rmin 1 x) by (intros x Hx; apply Rmax_right; apply Rmin_glb; lra).
  destruct (Rle_dec s (1 / 2)) as [L|L].
  - rewrite Rleb_le by assumption. unfold dodge. destruct (Req_EM_T d 0) as [E|E].
    { rewrite Reqb_eq by assumption. rewrite P by lra. apply Rmin_right. lra. }
    rewrite Reqb_ne by assumption. destruct (Req_EM_T (2 * s) 1) as [E'|E'].
    { rewrite Reqb_eq by lra. rewrite P by lra. apply Rmin_left. lra. }
    rewrite Reqb_ne by lra. apply P. apply Rmult_le_pos; [lra|]. left. apply Rinv_0_lt_compat. lra.
  - rewrite Rleb_gt by lra. destruct (Req_EM_T d 1) as [E|E].
    { rewrite Reqb_eq by assumption. rewrite P by lra. rewrite Rmin_left by lra. unfold burn. destruct (Req_EM_T d 1); [|contradiction]. destruct (Req_EM_T s 1); reflexivity. }
    rewrite Reqb_ne by assumption. destruct (Req_EM_T s 1) as [E'|E'].
    { rewrite Reqb_eq by assumption. rewrite P by lra. apply Rmin_right. lra. }
    rewrite Reqb_ne by assumption. unfold burn. destruct (Req_EM_T d 1); [contradiction|]. destruct (Req_EM_T (2 * s - 1) 0); [lra|].
    replace (2 * (s - 1 / 2)) with (2 * s - 1) by lra. set (x := (1 - d) / (2 * s - 1)).
    assert (X : 0 <= x) by (apply Rmult_le_pos; [lra|]; left; apply Rinv_0_lt_compat; lra).
    unfold Rmin, Rmax. destruct (Rle_dec 1 (1 - x)); destruct (Rle_dec 1 x);
      match goal with |- context[Rle_dec ?a ?b] => destruct (Rle_dec a b) | _ => idtac end; lra.
Qed.
