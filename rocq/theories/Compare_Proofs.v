(** * Delta E 94 against Delta E 76 (C190) *)
From Coq Require Import ZArith Reals Lra Lia List Bool.
From Verif Require Import Arith Outcome ColorModel Heap Converter Calculation Distance RArith
  Spec Laws NormalForms Core_Proofs Spec_Conv Spec_Calc Conv_Proofs HueR_Proofs Round_Proofs Calc_Proofs Calc3_Proofs Spec_Distance Distance_Proofs Distance2_Proofs.
Import ListNotations.
Local Open Scope R_scope.

Lemma shrink u k : 1 <= k -> u / k * (u / k) <= u * u.
Proof.
  intros K. assert (P : 0 < / k <= 1). { split; [apply Rinv_0_lt_compat; lra|]. rewrite <- Rinv_1. apply Rinv_le_contravar; lra. }
  replace (u / k * (u / k)) with (u * u * (/ k * / k)) by (unfold Rdiv; ring).
  rewrite <- (Rmult_1_r (u * u)) at 2. apply Rmult_le_compat_l; [nra|nra].
Qed.
Lemma at_least k j c : 1 <= k -> 0 <= j -> 0 <= c -> 1 <= k * (1 + j * c).
Proof. intros K J C. assert (0 <= j * c) by (apply Rmult_le_pos; assumption). nra. Qed.
Lemma grow u k : 0 < k -> u * u = k * k * (u / k * (u / k)).
Proof. intros K. field. lra. Qed.

(** The formulas. *)
Lemma smaller_94 kL k1 k2 kC kH v w : 1 <= kL -> 0 <= k1 -> 0 <= k2 -> 1 <= kC -> 1 <= kH -> length v = 3%nat -> length w = 3%nat ->
  delta_e_94 kL k1 k2 kC kH v w <= euclid v w.
Proof.
  intros P1 P2 P3 P4 P5 Lv Lw. destruct v as [|l1 [|a1 [|b1 [|]]]]; try discriminate Lv. destruct w as [|l2 [|a2 [|b2 [|]]]]; try discriminate Lw.
  unfold euclid, squared_distance. cbn [delta_e_94 map2 fold_right]. apply sqrt_le_1_alt.
  pose proof (hue_radicand a1 b1 a2 b2) as Hr. pose proof (sqrt_pos (a1 * a1 + b1 * b1)) as Q1.
  set (ch1 := sqrt (a1 * a1 + b1 * b1)) in *. set (ch2 := sqrt (a2 * a2 + b2 * b2)) in *.
  assert (K1 : 1 <= kC * (1 + k1 * ch1)) by (apply at_least; assumption). assert (K2 : 1 <= kH * (1 + k2 * ch1)) by (apply at_least; assumption).
  pose proof (shrink (l1 - l2) kL P1). pose proof (shrink (ch1 - ch2) _ K1).
  set (hh := (a1 - a2) * (a1 - a2) + (b1 - b2) * (b1 - b2) - (ch1 - ch2) * (ch1 - ch2)) in *. set (sh := kH * (1 + k2 * ch1)) in *.
  assert (hh / (sh * sh) <= hh).
  { pose proof (shrink 1 sh K2). replace (hh / (sh * sh)) with (hh * (1 / sh * (1 / sh))) by (field; lra).
    rewrite <- (Rmult_1_r hh) at 2. apply Rmult_le_compat_l; lra. }
  unfold hh in *. lra.
Qed.
Lemma larger_94 kL k1 k2 kC kH s v w : 0 < kL <= s -> 0 <= k1 -> 0 <= k2 -> 0 < kC -> 0 < kH ->
  (forall l a b, v = [l; a; b] -> kC * (1 + k1 * sqrt (a * a + b * b)) <= s /\ kH * (1 + k2 * sqrt (a * a + b * b)) <= s) ->
  length v = 3%nat -> length w = 3%nat -> euclid v w <= s * delta_e_94 kL k1 k2 kC kH v w.
Proof.
  intros P1 P2 P3 P4 P5 S Lv Lw. destruct v as [|l1 [|a1 [|b1 [|]]]]; try discriminate Lv. destruct w as [|l2 [|a2 [|b2 [|]]]]; try discriminate Lw.
  specialize (S l1 a1 b1 eq_refl).
  unfold euclid, squared_distance. cbn [delta_e_94 map2 fold_right].
  pose proof (hue_radicand a1 b1 a2 b2) as Hr. pose proof (sqrt_pos (a1 * a1 + b1 * b1)) as Q1.
  set (ch1 := sqrt (a1 * a1 + b1 * b1)) in *. set (ch2 := sqrt (a2 * a2 + b2 * b2)) in *.
  assert (K1 : 0 < kC * (1 + k1 * ch1)) by (apply Rmult_lt_0_compat; nra). assert (K2 : 0 < kH * (1 + k2 * ch1)) by (apply Rmult_lt_0_compat; nra).
  set (hh := (a1 - a2) * (a1 - a2) + (b1 - b2) * (b1 - b2) - (ch1 - ch2) * (ch1 - ch2)) in *.
  set (sh := kH * (1 + k2 * ch1)) in *. set (sc := kC * (1 + k1 * ch1)) in *.
  assert (G : forall u k, 0 < k <= s -> u * u <= s * s * (u / k * (u / k))).
  { intros u k K. rewrite (grow u k) at 1 by lra. apply Rmult_le_compat_r; [apply (Rle_0_sqr (u / k))|nra]. }
  pose proof (G (l1 - l2) kL P1) as G1. pose proof (G (ch1 - ch2) sc ltac:(lra)) as G2.
  assert (G3 : hh <= s * s * (hh / (sh * sh))).
  { replace (s * s * (hh / (sh * sh))) with (hh * (s * s * (1 / sh * (1 / sh)))) by (field; lra).
    pose proof (G 1 sh ltac:(lra)). rewrite <- (Rmult_1_r hh) at 1. apply Rmult_le_compat_l; lra. }
  assert (P3' : 0 <= hh / (sh * sh)). { apply Rmult_le_pos; [exact Hr|]. left. apply Rinv_0_lt_compat. apply Rmult_lt_0_compat; lra. }
  rewrite <- (sqrt_square s) at 1 by lra. pose proof (Rle_0_sqr ((l1 - l2) / kL)) as B1. pose proof (Rle_0_sqr ((ch1 - ch2) / sc)) as B2. unfold Rsqr in B1, B2.
  rewrite <- sqrt_mult; [|apply (Rle_0_sqr s)|lra].
  apply sqrt_le_1_alt. unfold hh in *. lra.
Qed.

Lemma pair_same Y (h : heap R) p1 p2 h1 d1 d2 h2 e1 e2 : converted_pair Y h p1 p2 h1 d1 d2 -> converted_pair Y h p1 p2 h2 e1 e2 -> h1 = h2 /\ d1 = e1 /\ d2 = e2.
Proof.
  intros [a1 [g [a2 [E1 [E2 [A1 A2]]]]]] [b1 [g' [b2 [F1 [F2 [B1 B2]]]]]].
  rewrite E1 in F1. assert (Q1 : a1 = b1 /\ g = g') by (injection F1; auto). destruct Q1 as [-> ->].
  rewrite E2 in F2. assert (Q2 : a2 = b2 /\ h1 = h2) by (injection F2; auto). destruct Q2 as [-> ->].
  unfold at_addr in *. split; [reflexivity|]. split; congruence.
Qed.

Lemma chroma_bound (d : color R) l a b : wf_color LAB d -> comps d = [l; a; b] -> sqrt (a * a + b * b) <= 182.
Proof.
  intros W E. pose proof (wf_rng LAB d 1%nat a W) as A. pose proof (wf_rng LAB d 2%nat b W) as B. rewrite E in A, B.
  specialize (A eq_refl). specialize (B eq_refl). unfold rng in A, B. cbn [comp_range fst snd] in A, B.
  rewrite <- (sqrt_square 182) by lra. apply sqrt_le_1_alt. nra.
Qed.

Lemma compare_94_76 kL k1 k2 kC kH X1 X2 (h : heap R) p1 c1 p2 c2 : 1 <= kL -> 0 <= k1 -> 0 <= k2 -> 1 <= kC -> 1 <= kH ->
  at_addr h p1 c1 -> at_addr h p2 c2 -> wf_color X1 c1 -> wf_color X2 c2 ->
  (needs_space X1 LAB = true -> has_space h c1) -> (needs_space X2 LAB = true -> has_space h c2) ->
  exists x y h', distance (Cie94 kL k1 k2 kC kH) (Some p1) (Some p2) h = (Ok x, h') /\ distance Cie76 (Some p1) (Some p2) h = (Ok y, h') /\
    0 <= x <= y /\ y <= Rmax kL (Rmax (kC * (1 + 182 * k1)) (kH * (1 + 182 * k2))) * x.
Proof.
  intros P1 P2 P3 P4 P5 H1 H2 W1 W2 N1 N2. destruct (Nat.eq_dec p1 p2) as [->|NP].
  - exists 0, 0, h. rewrite !distance_same, fzR. repeat split; try reflexivity; lra.
  - assert (S : sensible (Cie94 kL k1 k2 kC kH)) by (cbn; lra).
    destruct (distance_value (Cie94 kL k1 k2 kC kH) X1 X2 h p1 c1 p2 c2 NP H1 H2 W1 W2 N1 N2 S) as [h1 [d1 [d2 [C1 [D1 [D2 [V1 _]]]]]]].
    destruct (distance_value Cie76 X1 X2 h p1 c1 p2 c2 NP H1 H2 W1 W2 N1 N2 I) as [h2 [e1 [e2 [C2 [_ [_ [V2 _]]]]]]].
    destruct (pair_same _ _ _ _ _ _ _ _ _ _ C1 C2) as [-> [-> ->]].
    exists (delta_e_94 kL k1 k2 kC kH (comps e1) (comps e2)), (euclid (comps e1) (comps e2)), h2.
    split; [apply V1; reflexivity|]. split; [apply V2; reflexivity|].
    pose proof (wf_len _ _ D1) as L1. pose proof (wf_len _ _ D2) as L2. cbn in L1, L2.
    split.
    + split; [|apply smaller_94; assumption]. destruct (comps e1) as [|? [|? [|? [|]]]]; try discriminate L1. destruct (comps e2) as [|? [|? [|? [|]]]]; try discriminate L2. apply sqrt_pos.
    + apply larger_94; try assumption; try lra.
      * split; [lra|]. apply Rmax_l.
      * intros l a b E. pose proof (chroma_bound e1 l a b D1 E) as B. split.
        { apply Rle_trans with (2 := Rmax_r _ _). apply Rle_trans with (2 := Rmax_l _ _). apply Rmult_le_compat_l; [lra|]. nra. }
        { apply Rle_trans with (2 := Rmax_r _ _). apply Rle_trans with (2 := Rmax_r _ _). apply Rmult_le_compat_l; [lra|]. nra. }
Qed.

(** Equal to Delta E 76 if the reference is grey. *)
Lemma grey_reference k1 k2 (h : heap R) p1 c1 p2 c2 l : 0 <= k1 -> 0 <= k2 ->
  at_addr h p1 c1 -> at_addr h p2 c2 -> wf_color LAB c1 -> wf_color LAB c2 -> has_space h c1 -> has_space h c2 -> comps c1 = [l; 0; 0] ->
  exists x, distance (Cie94 1 k1 k2 1 1) (Some p1) (Some p2) h = (Ok x, h) /\ distance Cie76 (Some p1) (Some p2) h = (Ok x, h).
Proof.
  intros P1 P2 H1 H2 W1 W2 N1 N2 E. exists (euclid (comps c1) (comps c2)).
  split; [|eapply direct; eauto; cbn; auto].
  replace (euclid (comps c1) (comps c2)) with (delta_e_94 1 k1 k2 1 1 (comps c1) (comps c2)).
  { eapply direct; eauto; cbn; auto. repeat split; lra. }
  destruct (comps3 _ c2 W2 eq_refl) as [l2 [a2 [b2 E2]]]. rewrite E, E2. unfold euclid, squared_distance. cbn [delta_e_94 map2 fold_right].
  replace (0 * 0 + 0 * 0) with 0 by ring. rewrite sqrt_0. f_equal. field.
Qed.
