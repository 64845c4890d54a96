(** * Mixing on the hue circle, half mixes against averages, dissolve *)
From Coq Require Import ZArith QArith Reals Lra Lia List Bool.
From Verif Require Import Arith Outcome ColorModel GammaModel MatrixModel SpaceModel Heap Converter Calculation Blend
  Spec RArith Laws NormalForms Core_Proofs Core2_Proofs Alpha8 Spec_Matrix Spec_Conv Spec_Calc Spec_Blend Spec_Round Spec_Formula Spec_Sum
  Conv_Proofs Conv2_Proofs Conv3_Proofs HueR_Proofs Round_Proofs Calc_Proofs Calc3_Proofs Calc4_Proofs Blend_Proofs Blend3_Proofs
  Round3_Proofs Round2_Proofs Formula_Proofs Formula2_Proofs Polar_Proofs Formula3_Proofs Sum_Proofs.
Import ListNotations.
Local Open Scope R_scope.

(** ** Polar coordinates are unique *)
Lemma angle_unique a b : 0 <= a < 2 * PI -> 0 <= b < 2 * PI -> cos a = cos b -> sin a = sin b -> a = b.
Proof.
  intros Ha Hb C S.
  assert (E : cos (a - b) = 1). { rewrite cos_minus, C, S. pose proof (sin2_cos2 b) as Q. unfold Rsqr in Q. lra. }
  replace (a - b) with (2 * ((a - b) / 2)) in E by field. rewrite cos_2a_sin in E.
  assert (Z0 : sin ((a - b) / 2) = 0). { assert (sin ((a - b) / 2) * sin ((a - b) / 2) = 0) by lra. destruct (Rmult_integral _ _ H); assumption. }
  destruct (Rtotal_order a b) as [L|[L|L]]; [|exact L|].
  - assert (0 < sin (- ((a - b) / 2))) by (apply sin_gt_0; lra). rewrite sin_neg in H. lra.
  - assert (0 < sin ((a - b) / 2)) by (apply sin_gt_0; lra). lra.
Qed.
Lemma polar_radius x y s h : polar x y s h -> s = sqrt (x * x + y * y).
Proof.
  intros [P [_ [-> ->]]]. pose proof (sin2_cos2 (h * PI / 180)) as Q. unfold Rsqr in Q. set (u := cos _) in *. set (w := sin _) in *.
  replace (s * u * (s * u) + s * w * (s * w)) with (s * s * (w * w + u * u)) by ring. rewrite Q, Rmult_1_r. symmetry. apply sqrt_square, P.
Qed.
Lemma polar_unique x y s h s' h' : polar x y s h -> polar x y s' h' -> s = s' /\ (s <> 0 -> h = h').
Proof.
  intros P P'. assert (E : s = s') by (rewrite (polar_radius _ _ _ _ P), (polar_radius _ _ _ _ P'); reflexivity). split; [exact E|]. intros N. subst s'.
  destruct P as [P1 [P2 [P3 P4]]], P' as [_ [P2' [P3' P4']]]. pose proof PI_RGT_0.
  assert (K : h * PI / 180 = h' * PI / 180).
  { apply angle_unique.
    - split; [apply Rmult_le_pos; [apply Rmult_le_pos|]; lra|]. replace (2 * PI) with (360 * PI / 180) by field.
      unfold Rdiv. apply Rmult_lt_compat_r; [lra|]. apply Rmult_lt_compat_r; lra.
    - split; [apply Rmult_le_pos; [apply Rmult_le_pos|]; lra|]. replace (2 * PI) with (360 * PI / 180) by field.
      unfold Rdiv. apply Rmult_lt_compat_r; [lra|]. apply Rmult_lt_compat_r; lra.
    - apply (Rmult_eq_reg_l s); [lra|exact N].
    - apply (Rmult_eq_reg_l s); [lra|exact N]. }
  apply (Rmult_eq_reg_r (PI / 180)); lra.
Qed.
Lemma circle_polar h s : 0 <= s -> 0 <= h < 360 -> polar (fst (circle h s)) (snd (circle h s)) s h.
Proof. intros. repeat split; try lra. Qed.

(** A colour whose point and value are those of [h], [s], [v]. *)
Lemma hsv_at_own h s v x y l : 0 <= h <= 359 -> 0 <= s <= 1 -> 0 <= v <= 1 -> hsv_at x y v l -> x = fst (circle h s) -> y = snd (circle h s) ->
  l = [h; s; v] \/ (s = 0 /\ exists h', 0 <= h' <= 359 /\ l = [h'; 0; v]).
Proof.
  intros Bh Bs Bv [h' [s' [P ->]]] -> ->. destruct (polar_unique _ _ _ _ _ _ P (circle_polar h s ltac:(lra) ltac:(lra))) as [-> N].
  rewrite !cut_id by lra. destruct (Req_dec s 0) as [E|E].
  - right. split; [exact E|]. exists (Rmin h' 359). rewrite E. split; [|reflexivity]. destruct P as [_ [B _]]. split; [apply Rmin_glb; lra|apply Rmin_r].
  - left. rewrite (N E), Rmin_left by lra. reflexivity.
Qed.

Lemma mix_hsv_self w ia (h : heap R) p1 p2 c1 c2 hue s v : 0 <= w <= 1 -> at_addr h p1 c1 -> at_addr h p2 c2 -> wf_color HSV c1 -> wf_color HSV c2 ->
  comps c1 = [hue; s; v] -> comps c2 = comps c1 -> m_alpha c2 = m_alpha c1 ->
  returns (mix_hsv (Some p1) (Some p2) w ia) h (fun r => ty r = HSV /\ (comps r = comps c1 \/ (s = 0 /\ exists h', comps r = [h'; 0; v])) /\
    alpha r = alpha c1 /\ rgb_space r = rgb_space c1).
Proof.
  intros B H1 H2 W1 W2 E1 E2 EA. rewrite E1 in E2.
  apply (returns_impl _ _ _ _ (mix_hsv_circle w ia h p1 p2 c1 c2 hue s v hue s v B H1 H2 W1 W2 E1 E2)).
  intros r [T [C [A S]]]. split; [exact T|]. pose proof (range3 c1 _ _ _ _ W1 E1) as [Bh [Bs Bv]]. cbn [comp_range fst snd] in Bh, Bs, Bv.
  split; [|split; [|exact S]].
  - destruct (circle hue s) as [x y] eqn:EC. rewrite E1.
    replace (w * v + (1 - w) * v) with v in C by ring.
    destruct (hsv_at_own hue s v _ _ _ Bh Bs Bv C) as [K|[K [h' [_ K']]]]; [rewrite EC; cbn [fst]; ring|rewrite EC; cbn [snd]; ring|left; exact K|].
    right. split; [exact K|]. exists h'. exact K'.
  - rewrite A. destruct ia; [|reflexivity]. rewrite (alpha_std c1 _ W1 eq_refl), (alpha_std c2 _ W2 eq_refl), EA. ring.
Qed.
(** Equal parts of hues at the same distance from 0 degrees. *)
Lemma mix_hsv_across ia (h : heap R) p1 p2 c1 c2 d s v : 1 <= d < 90 -> 0 < s -> at_addr h p1 c1 -> at_addr h p2 c2 -> wf_color HSV c1 -> wf_color HSV c2 ->
  comps c1 = [360 - d; s; v] -> comps c2 = [d; s; v] ->
  returns (mix_hsv (Some p1) (Some p2) (1 / 2) ia) h (fun r => comps r = [0; s * cos (d * PI / 180); v]).
Proof.
  intros Bd Ps H1 H2 W1 W2 E1 E2.
  apply (returns_impl _ _ _ _ (mix_hsv_circle (1 / 2) ia h p1 p2 c1 c2 _ s v _ s v ltac:(lra) H1 H2 W1 W2 E1 E2)).
  intros r [_ [C _]]. pose proof (range3 c1 _ _ _ _ W1 E1) as [_ [Bs Bv]]. cbn [comp_range fst snd] in Bs, Bv. pose proof PI_RGT_0.
  assert (K : 0 < cos (d * PI / 180) <= 1).
  { split; [|apply COS_bound]. apply cos_gt_0.
    - apply Rlt_le_trans with 0; [lra|]. apply Rmult_le_pos; [apply Rmult_le_pos|]; lra.
    - replace (PI / 2) with (90 * PI / 180) by field. unfold Rdiv. apply Rmult_lt_compat_r; [lra|]. apply Rmult_lt_compat_r; lra. }
  unfold circle in C. replace ((360 - d) * PI / 180) with (2 * PI - d * PI / 180) in C by field.
  rewrite cos_minus, sin_minus, cos_2PI, sin_2PI in C. set (u := cos (d * PI / 180)) in *. set (z := sin (d * PI / 180)) in *.
  replace (1 / 2 * (s * (1 * u + 0 * z)) + (1 - 1 / 2) * (s * u)) with (s * u) in C by field.
  replace (1 / 2 * (s * (0 * u - 1 * z)) + (1 - 1 / 2) * (s * z)) with 0 in C by field.
  replace (1 / 2 * v + (1 - 1 / 2) * v) with v in C by field.
  assert (L : 0 < s * u <= 1). { split; [apply Rmult_lt_0_compat; lra|]. rewrite <- (Rmult_1_l 1). apply Rmult_le_compat; lra. }
  destruct (hsv_at_own 0 (s * u) v _ _ _ ltac:(lra) ltac:(lra) Bv C) as [Q|[Q _]]; [| |exact Q|exfalso; lra];
    unfold circle; cbn [fst snd]; replace (0 * PI / 180) with 0 by field; rewrite ?cos_0, ?sin_0; ring.
Qed.

(** ** Half mixes and averages *)
Lemma half_mix_average X (h : heap R) p1 p2 c1 c2 : In X [GREY_TRUE; GREY_DEEP; CMYK; XYZ; XYY; CIELUV] ->
  at_addr h p1 c1 -> at_addr h p2 c2 -> wf_color X c1 -> wf_color X c2 -> (eight_bit X = true -> 0 <= m_alpha c1 <= 1 /\ 0 <= m_alpha c2 <= 1) ->
  exists q1 r1 h1 q2 r2 h2, typed_mix X (Some p1) (Some p2) (1 / 2) false h = (Ok (Some q1), h1) /\ at_addr h1 q1 r1 /\
    average X [Some p1; Some p2] false h = (Ok (Some q2), h2) /\ at_addr h2 q2 r2 /\
    ty r1 = ty r2 /\ comps r1 = comps r2 /\ alpha r1 = alpha r2 /\ rgb_space r1 = rgb_space r2.
Proof.
  intros HX H1 H2 W1 W2 A.
  assert (P : points_to h [Some p1; Some p2] [c1; c2]).
  { repeat constructor; eexists; split; try reflexivity; assumption. }
  destruct (mix_formula X (1 / 2) false h p1 p2 c1 c2) as [q1 [r1 [h1 [E1 [Q1 [T1 [C1 [A1 S1]]]]]]]]; auto; try lra.
  { unfold mix_exact_types. simpl in *. tauto. }
  destruct (average_means X false h (Some p1) [Some p2] c1 [c2]) as [q2 [r2 [h2 [E2 [Q2 [T2 [C2 [S2 [A2 _]]]]]]]]]; auto.
  { simpl in HX; unfold all_types; simpl; tauto. }
  { intros E. specialize (A E). constructor; [apply A|constructor; [apply A|constructor]]. }
  exists q1, r1, h1, q2, r2, h2. split; [exact E1|]. split; [exact Q1|]. split; [exact E2|]. split; [exact Q2|]. split; [congruence|].
  split; [|split; [rewrite A1, A2 by reflexivity; reflexivity|congruence]]. rewrite C1, C2.
  pose proof (wf_len _ _ W1) as L1. pose proof (wf_len _ _ W2) as L2. unfold components, mean. cbn [map].
  destruct (comps c1) as [|x1 [|y1 [|z1 [|k1 [|]]]]], (comps c2) as [|x2 [|y2 [|z2 [|k2 [|]]]]];
    simpl in HX; destruct HX as [<-|[<-|[<-|[<-|[<-|[<-|[]]]]]]]; try discriminate L1; try discriminate L2;
    cbn [map2 mix_value arity seq map nth fold_right length INR]; repeat (apply (f_equal2 cons); [field|]); reflexivity.
Qed.

(** RGB: root mean square against mean; HSV: the hue circle against the mean of the angles. *)
Lemma half_mix_rgb : exists (h : heap R) c1 c2, at_addr h 0%nat c1 /\ at_addr h 1%nat c2 /\ wf_color RGB_DEEP c1 /\ wf_color RGB_DEEP c2 /\
  returns (typed_mix RGB_DEEP (Some 0%nat) (Some 1%nat) (1 / 2) false) h (fun r => comps r = [sqrt (1 / 2); sqrt (1 / 2); 0]) /\
  returns (average RGB_DEEP [Some 0%nat; Some 1%nat] false) h (fun r => comps r = [1 / 2; 1 / 2; 0]) /\ sqrt (1 / 2) <> 1 / 2.
Proof.
  destruct (rgb_deepcolor_made (AF := RArith) (AL := RLaws) 1 0 0 1 None) as [c1 [E1 [W1 [A1 S1]]]].
  destruct (rgb_deepcolor_made (AF := RArith) (AL := RLaws) 0 1 0 1 None) as [c2 [E2 [W2 [A2 S2]]]].
  rewrite rgb_deepcolor_nf in E1, E2. apply Ok_inv in E1. apply Ok_inv in E2.
  assert (C1 : comps c1 = [1; 0; 0]) by (rewrite <- E1; cbn [comps]; rewrite !c01R by lra; reflexivity).
  assert (C2 : comps c2 = [0; 1; 0]) by (rewrite <- E2; cbn [comps]; rewrite !c01R by lra; reflexivity).
  clear E1 E2. set (h := Heap [c1; c2] []).
  exists h, c1, c2. split; [reflexivity|]. split; [reflexivity|]. split; [exact W1|]. split; [exact W2|]. split; [|split].
  - apply (returns_impl _ _ _ _ (mix_formula RGB_DEEP (1 / 2) false h 0%nat 1%nat c1 c2 ltac:(simpl; tauto) ltac:(lra) eq_refl eq_refl W1 W2 ltac:(discriminate))).
    intros r [_ [C _]]. rewrite C, C1, C2. cbn [map2 mix_value]. repeat (apply (f_equal2 cons)); try reflexivity; [f_equal; field|f_equal; field|transitivity (sqrt 0); [f_equal; ring|apply sqrt_0]].
  - assert (P : points_to h [Some 0%nat; Some 1%nat] [c1; c2]) by (repeat constructor; eexists; split; reflexivity).
    apply (returns_impl _ _ _ _ (average_means RGB_DEEP false h (Some 0%nat) [Some 1%nat] c1 [c2] ltac:(simpl; tauto) P
      (Forall_cons _ W1 (Forall_cons _ W2 (Forall_nil _))) ltac:(discriminate))).
    intros r [_ [C _]]. rewrite C. unfold components, mean. cbn [arity seq map nth]. rewrite C1, C2. cbn [nth fold_right length INR]. repeat (apply (f_equal2 cons); [field|]); reflexivity.
  - intros K. assert (S : sqrt (1 / 2) * sqrt (1 / 2) = 1 / 2) by (apply sqrt_sqrt; lra). rewrite K in S. lra.
Qed.
Lemma half_mix_hsv : exists (h : heap R) c1 c2, at_addr h 0%nat c1 /\ at_addr h 1%nat c2 /\ wf_color HSV c1 /\ wf_color HSV c2 /\
  comps c1 = [350; 1; 1] /\ comps c2 = [10; 1; 1] /\
  returns (typed_mix HSV (Some 0%nat) (Some 1%nat) (1 / 2) false) h (fun r => exists s, comps r = [0; s; 1]) /\
  returns (average HSV [Some 0%nat; Some 1%nat] false) h (fun r => comps r = [180; 1; 1]).
Proof.
  destruct (ctor3_made (AF := RArith) (AL := RLaws) HSV 1 0 350 1 1 1 None ltac:(discriminate) eq_refl eq_refl eq_refl) as [c1 [E1 [W1 [A1 S1]]]].
  destruct (ctor3_made (AF := RArith) (AL := RLaws) HSV 1 0 10 1 1 1 None ltac:(discriminate) eq_refl eq_refl eq_refl) as [c2 [E2 [W2 [A2 S2]]]].
  change (hsv (AF := RArith) 350 1 1 1 None = Ok c1) in E1. change (hsv (AF := RArith) 10 1 1 1 None = Ok c2) in E2.
  rewrite (hsv_nf (AL := RLaws)) in E1, E2. apply Ok_inv in E1. apply Ok_inv in E2.
  assert (C1 : comps c1 = [350; 1; 1]) by (rewrite <- E1; cbn [comps]; rewrite hue_norm_id, !c01R by lra; reflexivity).
  assert (C2 : comps c2 = [10; 1; 1]) by (rewrite <- E2; cbn [comps]; rewrite hue_norm_id, !c01R by lra; reflexivity).
  clear E1 E2. set (h := Heap [c1; c2] []).
  exists h, c1, c2. split; [reflexivity|]. split; [reflexivity|]. split; [exact W1|]. split; [exact W2|]. split; [exact C1|]. split; [exact C2|]. split.
  - assert (C1' : comps c1 = [360 - 10; 1; 1]) by (rewrite C1; repeat f_equal; lra).
    apply (returns_impl _ _ _ _ (mix_hsv_across false h 0%nat 1%nat c1 c2 10 1 1 ltac:(lra) ltac:(lra) eq_refl eq_refl W1 W2 C1' C2)).
    intros r C. eexists. exact C.
  - assert (P : points_to h [Some 0%nat; Some 1%nat] [c1; c2]) by (repeat constructor; eexists; split; reflexivity).
    apply (returns_impl _ _ _ _ (average_means HSV false h (Some 0%nat) [Some 1%nat] c1 [c2] ltac:(simpl; tauto) P
      (Forall_cons _ W1 (Forall_cons _ W2 (Forall_nil _))) ltac:(discriminate))).
    intros r [_ [C _]]. rewrite C. unfold components, mean. cbn [arity seq map nth]. rewrite C1, C2. cbn [nth fold_right length INR]. repeat (apply (f_equal2 cons); [field|]); reflexivity.
Qed.

(** ** Dissolve *)
Lemma dissolve_picks (r : Z) (a b s d : R) : (0 <= r)%Z ->
  dissolve_func r (a - b) s d = (if Rlt_dec b a then (if Z_lt_le_dec (r mod 101) 25 then d else s) else (if Z_lt_le_dec (r mod 101) 25 then s else d)).
Proof.
  intros P. unfold dissolve_func. cbv zeta. cbn [flt fle fofZ RArith]. rewrite !fzR. rewrite Z.rem_mod_nonneg by lia.
  assert (K : Rleb 25 (IZR (r mod 101)) = if Z_lt_le_dec (r mod 101) 25 then false else true).
  { destruct (Z_lt_le_dec (r mod 101) 25) as [L|L]; [apply Rleb_gt, IZR_lt; lia|apply Rleb_le, IZR_le; lia]. }
  rewrite K. destruct (Rlt_dec b a) as [L|L]; [rewrite Rltb_lt by lra|rewrite Rltb_ge by lra]; destruct (Z_lt_le_dec _ _); reflexivity.
Qed.

Lemma dissolve_formula rnd us ud (h : heap R) p1 c1 p2 c2 : (forall i, 0 <= rnd i)%Z ->
  at_addr h p1 c1 -> at_addr h p2 c2 -> wf_color RGB_DEEP c1 -> wf_color RGB_DEEP c2 ->
  0 <= alpha c1 <= 1 -> 0 <= alpha c2 <= 1 -> rgb_space c1 = rgb_space c2 ->
  returns (blend_dissolve rnd (Some p1) (Some p2) us ud) h (fun r =>
    let sa := if us then alpha c1 * (1 - alpha c2) else 0 in let da := if ud then alpha c2 * (1 - alpha c1) else 0 in
    ty r = RGB_DEEP /\ length (comps r) = 3%nat /\ alpha r = sa + da + alpha c1 * alpha c2 /\
    forall i s d v, nth_error (comps c1) i = Some s -> nth_error (comps c2) i = Some d -> nth_error (comps r) i = Some v ->
      alpha r * v = sa * s + da * d + alpha c1 * alpha c2 * dissolved (rnd i) (alpha c1) (alpha c2) s d).
Proof.
  intros P H1 H2 W1 W2 A1 A2 SP. change (blend_dissolve rnd (Some p1) (Some p2) us ud) with (blend (Dissolve rnd) (Some p1) (Some p2) us ud).
  apply (returns_impl _ _ _ _ (blend_bounded_formula (Dissolve rnd) us ud h p1 c1 p2 c2 H1 H2 W1 W2 A1 A2 SP eq_refl)).
  intros r [T [L [_ [A [_ C]]]]]. cbv zeta. split; [exact T|]. split; [exact L|]. split; [exact A|]. intros i s d v Es Ed Ev.
  destruct (C i s d v Es Ed Ev) as [Q _]. rewrite Q. do 2 f_equal. cbn [blend_function]. change (fsub (alpha c1) (alpha c2)) with (alpha c1 - alpha c2).
  apply dissolve_picks, P.
Qed.

(** A deep source and an 8-bit destination. *)
Lemma true_to_deep (h : heap R) p c r g b : at_addr h p c -> wf_color RGB_TRUE c -> comps c = [r; g; b] -> 0 <= m_alpha c <= 1 ->
  exists q d h1, to_rgb_deep (Some p) h = (Ok (Some q), h1) /\ at_addr h1 q d /\ unchanged h h1 /\ deepR d /\
    comps d = [r / 255; g / 255; b / 255] /\ m_alpha d = m_alpha c /\ rgb_space d = rgb_space c.
Proof.
  intros Hp W Ec A. destruct (from_true h p c r g b Hp W Ec) as [q [d [h1 [E [Q [T [C [Al S]]]]]]]].
  destruct (to_pure RGB_TRUE RGB_DEEP (wf_real _ _ W) ltac:(discriminate) (or_intror eq_refl) h p c Hp W)
    as [q' [d' [h' [E' [Q' [W' [_ [U _]]]]]]]]; [discriminate|].
  change (to_type RGB_DEEP) with (to_rgb_deep (F := R)) in E'. rewrite E in E'. injection E' as <- <-.
  assert (d' = d) by (unfold at_addr in *; congruence). subst d'.
  exists q, d, h1. split; [exact E|]. split; [exact Q|]. split; [exact U|]. split; [|split; [exact C|split; assumption]].
  split; [exact W'|]. rewrite (alpha_std d _ W' eq_refl), Al. exact A.
Qed.

Lemma dissolve_mixed rnd us ud (h : heap R) p1 c1 p2 c2 r g b : (forall i, 25 <= rnd i <= 100)%Z ->
  at_addr h p1 c1 -> at_addr h p2 c2 -> wf_color RGB_DEEP c1 -> wf_color RGB_TRUE c2 -> comps c2 = [r; g; b] ->
  0 <= m_alpha c1 <= 1 -> 1 / 255 <= m_alpha c2 <= 1 -> rgb_space c1 = rgb_space c2 ->
  returns (blend_dissolve rnd (Some p1) (Some p2) us ud) h (fun x =>
    let a := m_alpha c1 in let b' := m_alpha c2 in
    let sa := if us then a * (1 - b') else 0 in let da := if ud then b' * (1 - a) else 0 in
    ty x = RGB_DEEP /\ length (comps x) = 3%nat /\ alpha x = sa + da + a * b' /\
    forall i s d v, nth_error (comps c1) i = Some s -> nth_error (comps c2) i = Some d -> nth_error (comps x) i = Some v ->
      alpha x * v = sa * s + da * (d / 255) + a * b' * (d / 255)).
Proof.
  intros P H1 H2 W1 W2 Ec A1 A2 SP.
  destruct (true_to_deep h p2 c2 r g b H2 W2 Ec ltac:(lra)) as [q [d [h1 [E [Q [U [D [C [Al S]]]]]]]]].
  assert (D1 : deepR c1) by (split; [exact W1|rewrite (alpha_std c1 _ W1 eq_refl); exact A1]).
  set (f := fun (cs cd : color R) i s d0 => dissolve_func (rnd i) (fsub (alpha cs) (alpha cd)) s d0).
  assert (Fd : forall i s e, f c1 c2 i s e = e).
  { intros i s e. unfold f. change (fsub (alpha c1) (alpha c2)) with (alpha c1 - alpha c2). rewrite dissolve_picks by (specialize (P i); lia).
    rewrite (alpha_std c1 _ W1 eq_refl), (alpha_eight c2 _ W2 eq_refl). cbn [fmul RArith]. rewrite fzR.
    destruct (Rlt_dec (m_alpha c2 * 255) (m_alpha c1)) as [K|_]; [lra|]. specialize (P i). rewrite Z.mod_small by lia.
    destruct (Z_lt_le_dec (rnd i) 25); [lia|reflexivity]. }
  destruct (blend_shape us ud true (f c1 c2) c1 d (wf_len _ _ W1) (wf_len _ _ (proj1 D))) as [x [Ex [Dx Sx]]].
  pose proof (blend_f_blended us ud true (f c1 c2) c1 d x D1 D) as B.
  assert (Bd : forall i s e, 0 <= s <= 1 -> 0 <= e <= 1 -> 0 <= f c1 c2 i s e <= on true 1) by (intros i s e Hs He; rewrite Fd; exact He).
  specialize (B Bd Ex). destruct B as [T L _ A _ Cm].
  exists (length (colors h1)), x, (Heap (colors h1 ++ [x]) (spaces h1)). split; [|split; [apply at_new|]].
  - unfold blend_dissolve. fold f. unfold checked_blend. unfold bind at 1, load at 1. pose proof H1 as H1'. unfold at_addr in H1'. rewrite H1'.
    unfold bind at 1, load at 1. pose proof H2 as H2'. unfold at_addr in H2'. rewrite H2'. rewrite SP, ptr_same. cbn [negb]. rewrite (wf_ty _ _ W1).
    pose proof (to_type_same RGB_DEEP h p1 c1 H1 W1) as K. cbn [to_type] in K.
    unfold bind at 1. rewrite K. unfold bind at 1. rewrite E. unfold bind at 1, general_porter_duff.
    unfold bind at 1. rewrite (load_as_ok h1 p1 c1 RGB_DEEP (proj2 U _ _ H1) W1).
    unfold bind at 1. rewrite (load_as_ok h1 q d RGB_DEEP Q (proj1 D)). rewrite S, SP, ptr_same. cbn [negb].
    unfold bind at 1, lift at 1. rewrite Ex. cbn [alloc convertTo].
    unfold to_rgb_deep, bind, load. rewrite at_new. rewrite (ds_ty x Dx). unfold cast, bind.
    rewrite (load_shape _ _ x (at_new _ _ _) Dx). reflexivity.
  - cbv zeta. split; [exact T|]. split; [exact L|].
    rewrite (alpha_std c1 _ W1 eq_refl), (alpha_std d _ (proj1 D) eq_refl), Al in A. split.
    + rewrite A. unfold covered. destruct us, ud; simpl; ring.
    + intros i s e v Es Ee Ev. rewrite Ec in Ee.
      assert (Ed : nth_error (comps d) i = Some (e / 255)).
      { rewrite C. destruct i as [|[|[|i]]]; cbn [nth_error] in *; try (apply Some_inv in Ee; subst; reflexivity). destruct i; discriminate Ee. }
      destruct (Cm i s (e / 255) v Es Ed Ev) as [K _]. rewrite K, Fd.
      rewrite (alpha_std c1 _ W1 eq_refl), (alpha_std d _ (proj1 D) eq_refl), Al. unfold covered. destruct us, ud; simpl; ring.
Qed.

(** 76 of the 101 numbers, i.e. three quarters. *)
Lemma dissolve_share : length (filter (fun k => negb (Nat.ltb (k mod 101) 25)) (seq 0 101)) = 76%nat /\ length (filter (fun k => Nat.ltb (k mod 101) 25) (seq 0 101)) = 25%nat.
Proof. split; vm_compute; reflexivity. Qed.
