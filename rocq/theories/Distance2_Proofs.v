(** * color_distance: the distances in exact arithmetic *)
From Coq Require Import ZArith QArith Reals Lra Lia List Bool.
From Flocq Require Import Core IEEE754.BinarySingleNaN.
From Verif Require Import Arith Outcome ColorModel GammaModel MatrixModel SpaceModel Heap Converter Calculation Blend Distance
  Spec F32 RArith F32Facts Hue32 Spec32 Laws NormalForms History Core_Proofs Core2_Proofs Core3_Proofs Core4_Proofs Convert_Proofs Alpha8
  Spec_Matrix Spec_Conv Spec_Calc Spec_Blend Spec_Distance
  Conv_Proofs Conv2_Proofs Conv3_Proofs Total_Proofs HueR_Proofs Round_Proofs Calc_Proofs Calc2_Proofs Calc3_Proofs Blend_Proofs Blend2_Proofs Blend3_Proofs
  Run_Proofs Distance_Proofs.

Import ListNotations.
Local Open Scope R_scope.

Lemma pow2R x : @fpow R RArith x (@fz R RArith 2) = x * x.
Proof. rewrite fzR. cbn [fpow RArith]. unfold Rpow_c. destruct (Req_EM_T 2 2); [reflexivity|lra]. Qed.

(** ** The Euclidean distance *)
Lemma sum_squaresR v w : length v = length w -> forall acc, sum_squares (AF := RArith) acc v w = Ok (acc + squared_distance v w).
Proof.
  revert w. induction v as [|a v IH]; intros [|b w] L acc; try discriminate L; cbn [sum_squares].
  - unfold squared_distance. simpl. rewrite Rplus_0_r. reflexivity.
  - rewrite IH by (simpl in L; lia). rewrite pow2R. unfold squared_distance. cbn [map2 fold_right fadd fsub RArith]. f_equal. ring.
Qed.
Lemma squared_fR Y (c d : color R) : wf_color Y c -> wf_color Y d -> squared_f c d = Ok (squared_distance (comps c) (comps d)).
Proof.
  intros W1 W2. unfold squared_f. rewrite sum_squaresR by (rewrite (wf_len _ _ W1), (wf_len _ _ W2); reflexivity). rewrite fzR, Rplus_0_l. reflexivity.
Qed.

Definition sq3 (x y z : R) : R := x * x + y * y + z * z.
Lemma sq3_pos x y z : 0 <= sq3 x y z.
Proof. unfold sq3. nra. Qed.
Lemma squared_distance3 x y z a b c : squared_distance [x; y; z] [a; b; c] = sq3 (x - a) (y - b) (z - c).
Proof. unfold squared_distance, sq3. simpl. ring. Qed.

Lemma cauchy3 x y z a b c : x * a + y * b + z * c <= sqrt (sq3 x y z) * sqrt (sq3 a b c).
Proof.
  rewrite <- sqrt_mult by apply sq3_pos. apply Rle_trans with (Rabs (x * a + y * b + z * c)); [apply Rle_abs|].
  rewrite <- sqrt_Rsqr_abs. apply sqrt_le_1_alt. unfold Rsqr, sq3.
  assert (Q : forall r, 0 <= r * r) by (intros r; apply Rle_0_sqr).
  pose proof (Q (x * b - y * a)) as Q1. pose proof (Q (x * c - z * a)) as Q2. pose proof (Q (y * c - z * b)) as Q3. clear Q. lra.
Qed.
Lemma minkowski3 x y z a b c : sqrt (sq3 (x + a) (y + b) (z + c)) <= sqrt (sq3 x y z) + sqrt (sq3 a b c).
Proof.
  pose proof (cauchy3 x y z a b c) as K. pose proof (sqrt_pos (sq3 x y z)) as P1. pose proof (sqrt_pos (sq3 a b c)) as P2.
  rewrite <- (sqrt_Rsqr (sqrt (sq3 x y z) + sqrt (sq3 a b c))) by lra. apply sqrt_le_1_alt. unfold Rsqr.
  pose proof (sqrt_sqrt (sq3 x y z) (sq3_pos x y z)) as S1. pose proof (sqrt_sqrt (sq3 a b c) (sq3_pos a b c)) as S2.
  set (s := sqrt (sq3 x y z)) in *. set (t := sqrt (sq3 a b c)) in *. replace ((s + t) * (s + t)) with (s * s + t * t + 2 * (s * t)) by ring. rewrite S1, S2. unfold sq3. lra.
Qed.

(** The laws of a metric, for lists of three numbers. *)
Lemma euclid_pos v w : 0 <= euclid v w.
Proof. apply sqrt_pos. Qed.
Lemma squared_distance_sym v w : squared_distance v w = squared_distance w v.
Proof.
  unfold squared_distance. revert w. induction v as [|a v IH]; intros [|b w]; try reflexivity. cbn [map2 fold_right]. rewrite IH. ring.
Qed.
Lemma squared_distance_pos v w : 0 <= squared_distance v w.
Proof.
  unfold squared_distance. revert w. induction v as [|a v IH]; intros [|b w]; cbn [map2 fold_right]; try lra. specialize (IH w). pose proof (Rle_0_sqr (a - b)) as Q. unfold Rsqr in Q. lra.
Qed.
Lemma squared_distance_0 v w : length v = length w -> squared_distance v w = 0 <-> v = w.
Proof.
  revert w. induction v as [|a v IH]; intros [|b w] L; try discriminate L; [split; [reflexivity|intros _; reflexivity]|].
  pose proof (squared_distance_pos v w) as P. unfold squared_distance in *. cbn [map2 fold_right] in *. split.
  - intros H. pose proof (Rle_0_sqr (a - b)) as Q. unfold Rsqr in Q. assert (Q' : (a - b) * (a - b) = 0) by lra. assert (a = b) by (apply Rmult_integral in Q'; lra). subst b. f_equal. apply IH; [simpl in L; lia|lra].
  - intros H. injection H as <- <-. replace ((a - a) * (a - a)) with 0 by ring. rewrite Rplus_0_l. apply IH; [simpl in L; lia|reflexivity].
Qed.
Lemma euclid_sym v w : euclid v w = euclid w v.
Proof. unfold euclid. rewrite squared_distance_sym. reflexivity. Qed.
Lemma euclid_0 v w : length v = length w -> euclid v w = 0 <-> v = w.
Proof.
  intros L. rewrite <- (squared_distance_0 v w L). unfold euclid. split.
  - apply sqrt_eq_0, squared_distance_pos.
  - intros ->. apply sqrt_0.
Qed.
Lemma euclid_triangle u v w : length u = 3%nat -> length v = 3%nat -> length w = 3%nat -> euclid u w <= euclid u v + euclid v w.
Proof.
  intros Lu Lv Lw. destruct u as [|x [|y [|z [|? ?]]]]; try discriminate Lu. destruct v as [|a [|b [|c [|? ?]]]]; try discriminate Lv.
  destruct w as [|r [|s [|t [|? ?]]]]; try discriminate Lw. unfold euclid. rewrite !squared_distance3.
  replace (x - r) with ((x - a) + (a - r)) by ring. replace (y - s) with ((y - b) + (b - s)) by ring. replace (z - t) with ((z - c) + (c - t)) by ring.
  apply minkowski3.
Qed.

(** ** The values of the distance functions *)
Lemma hue_radicand a1 b1 a2 b2 :
  0 <= (a1 - a2) * (a1 - a2) + (b1 - b2) * (b1 - b2) - (sqrt (a1 * a1 + b1 * b1) - sqrt (a2 * a2 + b2 * b2)) * (sqrt (a1 * a1 + b1 * b1) - sqrt (a2 * a2 + b2 * b2)).
Proof.
  pose proof (cauchy3 a1 b1 0 a2 b2 0) as K. unfold sq3 in K. rewrite !Rmult_0_r, !Rplus_0_r in K.
  assert (P1 : 0 <= a1 * a1 + b1 * b1) by nra. assert (P2 : 0 <= a2 * a2 + b2 * b2) by nra.
  pose proof (sqrt_sqrt _ P1) as S1. pose proof (sqrt_sqrt _ P2) as S2.
  set (s := sqrt (a1 * a1 + b1 * b1)) in *. set (t := sqrt (a2 * a2 + b2 * b2)) in *. nra.
Qed.

Lemma value_ok d (c1 c2 : color R) x : wf_color (compared_in d) c1 -> wf_color (compared_in d) c2 -> sensible d ->
  value d (comps c1) (comps c2) = Some x -> on_components d c1 c2 = Ok x.
Proof.
  intros W1 W2 Sd V. pose proof (squared_fR _ c1 c2 W1 W2) as SQ.
  destruct d as [s|s| | | kL k1 k2 kC kH | |]; cbn [value on_components compared_in sensible] in *; try discriminate V; injection V as <-.
  - exact SQ.
  - rewrite SQ. reflexivity.
  - destruct (comps3 _ c1 W1 eq_refl) as [r1 [g1 [b1 E1]]]. destruct (comps3 _ c2 W2 eq_refl) as [r2 [g2 [b2 E2]]].
    unfold weighted_f, with3. rewrite E1, E2. cbn [redmean]. rewrite !pow2R, !fzR. cbn [fadd fsub fmul fdiv fsqrt RArith]. f_equal.
    assert (H : forall x, sqrt (255 * 255 * x) / 255 = sqrt x).
    { intros y. rewrite sqrt_mult_alt by lra. rewrite sqrt_square by lra. field. }
    match goal with |- _ = sqrt ?b => rewrite <- (H b) end. f_equal. f_equal. field.
  - unfold cie76_f. rewrite SQ. reflexivity.
  - destruct (comps3 _ c1 W1 eq_refl) as [l1 [a1 [b1 E1]]]. destruct (comps3 _ c2 W2 eq_refl) as [l2 [a2 [b2 E2]]].
    unfold cie94_f, with3. rewrite E1, E2. cbn [delta_e_94]. rewrite !pow2R, !fzR. cbn [fadd fsub fmul fdiv fsqrt RArith]. f_equal. f_equal.
    pose proof (hue_radicand a1 b1 a2 b2) as Hr. destruct Sd as [P1 [P2 [P3 [P4 P5]]]].
    pose proof (sqrt_pos (a1 * a1 + b1 * b1)) as Q1. set (ch1 := sqrt (a1 * a1 + b1 * b1)) in *. set (ch2 := sqrt (a2 * a2 + b2 * b2)) in *.
    assert (K1 : 0 < 1 + k1 * ch1) by nra. assert (K2 : 0 < 1 + k2 * ch1) by nra.
    pose proof (sqrt_sqrt _ Hr) as S. set (t := sqrt ((a1 - a2) * (a1 - a2) + (b1 - b2) * (b1 - b2) - (ch1 - ch2) * (ch1 - ch2))) in *.
    rewrite <- S. field. repeat split; lra.
Qed.

Lemma distance_value d X1 X2 (h : heap R) p1 c1 p2 c2 : p1 <> p2 -> at_addr h p1 c1 -> at_addr h p2 c2 -> wf_color X1 c1 -> wf_color X2 c2 ->
  (needs_space X1 (compared_in d) = true -> has_space h c1) -> (needs_space X2 (compared_in d) = true -> has_space h c2) -> sensible d ->
  exists h' d1 d2, converted_pair (compared_in d) h p1 p2 h' d1 d2 /\ wf_color (compared_in d) d1 /\ wf_color (compared_in d) d2 /\
    (forall x, value d (comps d1) (comps d2) = Some x -> distance d (Some p1) (Some p2) h = (Ok x, h')) /\
    (X1 = compared_in d -> d1 = c1) /\ (X2 = compared_in d -> d2 = c2) /\ (X1 = compared_in d -> X2 = compared_in d -> h' = h).
Proof.
  intros NP H1 H2 W1 W2 N1 N2 S.
  destruct (distance_run d X1 X2 h p1 c1 p2 c2 NP H1 H2 W1 W2 N1 N2) as [h' [d1 [d2 [C [Wd1 [Wd2 [E [_ [_ [I1 [I2 [I3 _]]]]]]]]]]]].
  exists h', d1, d2. split; [exact C|]. split; [exact Wd1|]. split; [exact Wd2|]. split; [|auto].
  intros x V. rewrite E, (value_ok d d1 d2 x Wd1 Wd2 S V). reflexivity.
Qed.

(** Colours that are already of the type in which they are compared. *)
Lemma value_same d v x : value d v v = Some x -> x = 0.
Proof.
  intros V. assert (Z : squared_distance v v = 0) by (apply squared_distance_0; reflexivity).
  destruct d; cbn [value] in V; try discriminate V; injection V as <-.
  - exact Z.
  - unfold euclid. rewrite Z. apply sqrt_0.
  - unfold redmean. destruct v as [|r [|g [|b [|? ?]]]]; try reflexivity. cbv zeta. rewrite <- sqrt_0 at 1. f_equal. field.
  - unfold euclid. rewrite Z. apply sqrt_0.
  - unfold delta_e_94. destruct v as [|l [|a [|b [|? ?]]]]; try reflexivity. rewrite <- sqrt_0. f_equal. unfold Rdiv. ring.
Qed.
Lemma direct d (h : heap R) p1 c1 p2 c2 x : at_addr h p1 c1 -> at_addr h p2 c2 -> wf_color (compared_in d) c1 -> wf_color (compared_in d) c2 ->
  (cie (compared_in d) = true -> has_space h c1 /\ has_space h c2) -> sensible d ->
  value d (comps c1) (comps c2) = Some x -> distance d (Some p1) (Some p2) h = (Ok x, h).
Proof.
  intros H1 H2 W1 W2 N S V. destruct (Nat.eq_dec p1 p2) as [->|NP].
  - unfold at_addr in H1, H2. rewrite H1 in H2. injection H2 as <-. rewrite distance_same, fzR, (value_same d _ x V). reflexivity.
  - assert (Nn : needs_space (compared_in d) (compared_in d) = true -> cie (compared_in d) = true) by (unfold needs_space; intros Q; apply orb_true_iff in Q; tauto).
    destruct (distance_value d _ _ h p1 c1 p2 c2 NP H1 H2 W1 W2) as [h' [d1 [d2 [_ [_ [_ [E [I1 [I2 I3]]]]]]]]]; auto.
    { intros Q. apply N, Nn, Q. } { intros Q. apply N, Nn, Q. }
    rewrite (I1 eq_refl), (I2 eq_refl), (I3 eq_refl eq_refl) in E. apply E, V.
Qed.

(** The metric laws. *)
Lemma metric_laws d (h : heap R) p1 c1 p2 c2 p3 c3 : d = Cie76 \/ (exists s, d = Euclid s) ->
  at_addr h p1 c1 -> at_addr h p2 c2 -> at_addr h p3 c3 ->
  wf_color (compared_in d) c1 -> wf_color (compared_in d) c2 -> wf_color (compared_in d) c3 ->
  (d = Cie76 -> has_space h c1 /\ has_space h c2 /\ has_space h c3) ->
  exists d12 d21 d23 d13, distance d (Some p1) (Some p2) h = (Ok d12, h) /\ distance d (Some p2) (Some p1) h = (Ok d21, h) /\
    distance d (Some p2) (Some p3) h = (Ok d23, h) /\ distance d (Some p1) (Some p3) h = (Ok d13, h) /\
    0 <= d12 /\ d12 = d21 /\ (d12 = 0 <-> comps c1 = comps c2) /\ d13 <= d12 + d23.
Proof.
  intros Hd H1 H2 H3 W1 W2 W3 N.
  assert (V : forall v w, value d v w = Some (euclid v w)) by (destruct Hd as [->|[s ->]]; reflexivity).
  assert (Sd : sensible d) by (destruct Hd as [->|[s ->]]; exact I).
  assert (L : arity (compared_in d) = 3%nat) by (destruct Hd as [->|[s ->]]; reflexivity).
  assert (N' : cie (compared_in d) = true -> d = Cie76) by (destruct Hd as [->|[s ->]]; [auto|discriminate]).
  exists (euclid (comps c1) (comps c2)), (euclid (comps c2) (comps c1)), (euclid (comps c2) (comps c3)), (euclid (comps c1) (comps c3)).
  do 4 (split; [eapply direct; eauto; intros Q; apply N' in Q; destruct (N Q) as [? [? ?]]; auto|]).
  split; [apply euclid_pos|]. split; [apply euclid_sym|]. split.
  - apply euclid_0. rewrite (wf_len _ _ W1), (wf_len _ _ W2). reflexivity.
  - apply euclid_triangle; rewrite <- L; apply wf_len; assumption.
Qed.
Lemma squared_laws s (h : heap R) p1 c1 p2 c2 : at_addr h p1 c1 -> at_addr h p2 c2 ->
  wf_color (compared_in (F := R) (Squared s)) c1 -> wf_color (compared_in (F := R) (Squared s)) c2 -> (s = CIELUV -> has_space h c1 /\ has_space h c2) ->
  exists d, distance (Squared s) (Some p1) (Some p2) h = (Ok d, h) /\ distance (Squared s) (Some p2) (Some p1) h = (Ok d, h) /\
    0 <= d /\ (d = 0 <-> comps c1 = comps c2).
Proof.
  intros H1 H2 W1 W2 N. exists (squared_distance (comps c1) (comps c2)).
  assert (N' : cie (compared_in (F := R) (Squared s)) = true -> has_space h c1 /\ has_space h c2) by (destruct s; intros Q; try discriminate Q; auto).
  split; [eapply direct; eauto; exact I|]. split.
  - rewrite squared_distance_sym. eapply direct; eauto; [|exact I]. intros Q. destruct (N' Q); auto.
  - split; [apply squared_distance_pos|]. apply squared_distance_0. rewrite (wf_len _ _ W1), (wf_len _ _ W2). reflexivity.
Qed.

(** ** The weighted distance *)
Lemma deep_unit (c : color R) i x : wf_color RGB_DEEP c -> nth_error (comps c) i = Some x -> 0 <= x <= 1.
Proof. intros W E. pose proof (wf_rng RGB_DEEP c i x W E) as H. destruct i as [|[|[|i]]]; exact H. Qed.
Lemma weighted_laws (h : heap R) p1 c1 p2 c2 : at_addr h p1 c1 -> at_addr h p2 c2 -> wf_color RGB_DEEP c1 -> wf_color RGB_DEEP c2 ->
  exists d, distance Weighted (Some p1) (Some p2) h = (Ok d, h) /\ distance Weighted (Some p2) (Some p1) h = (Ok d, h) /\
    sqrt 2 * euclid (comps c1) (comps c2) <= d <= 2 * euclid (comps c1) (comps c2).
Proof.
  intros H1 H2 W1 W2. destruct (comps3 _ c1 W1 eq_refl) as [r1 [g1 [b1 E1]]]. destruct (comps3 _ c2 W2 eq_refl) as [r2 [g2 [b2 E2]]].
  exists (redmean (comps c1) (comps c2)). split; [eapply direct; eauto; try discriminate; exact I|]. split.
  { replace (redmean (comps c1) (comps c2)) with (redmean (comps c2) (comps c1)); [eapply direct; eauto; try discriminate; exact I|].
    rewrite E1, E2. unfold redmean. cbv zeta. f_equal. field. }
  assert (B1 : 0 <= r1 <= 1) by (apply (deep_unit c1 0 r1 W1); rewrite E1; reflexivity).
  assert (B2 : 0 <= r2 <= 1) by (apply (deep_unit c2 0 r2 W2); rewrite E2; reflexivity).
  rewrite E1, E2. unfold redmean, euclid. rewrite squared_distance3. unfold sq3.
  assert (S2 : 2 = sqrt (2 * 2)) by (rewrite sqrt_square; lra).
  assert (P1 := Rle_0_sqr (r1 - r2)). assert (P2 := Rle_0_sqr (g1 - g2)). assert (P3 := Rle_0_sqr (b1 - b2)). unfold Rsqr in P1, P2, P3.
  set (x := (r1 - r2) * (r1 - r2)) in *. set (y := (g1 - g2) * (g1 - g2)) in *. set (z := (b1 - b2) * (b1 - b2)) in *. clearbody x y z.
  assert (M : 0 <= 255 * (r1 + r2) / 2 <= 255) by lra. set (m := 255 * (r1 + r2) / 2) in *. clearbody m. split.
  - rewrite <- sqrt_mult by lra. apply sqrt_le_1_alt. nra.
  - apply Rle_trans with (sqrt (2 * 2) * sqrt (x + y + z)); [|rewrite <- S2; lra]. rewrite <- sqrt_mult by lra. apply sqrt_le_1_alt. nra.
Qed.

(** ** Delta E 94 *)
Lemma cie94_laws kL k1 k2 kC kH (h : heap R) p1 c1 p2 c2 : 0 < kL -> 0 <= k1 -> 0 <= k2 -> 0 < kC -> 0 < kH ->
  at_addr h p1 c1 -> at_addr h p2 c2 -> wf_color LAB c1 -> wf_color LAB c2 -> has_space h c1 -> has_space h c2 ->
  exists d, distance (Cie94 kL k1 k2 kC kH) (Some p1) (Some p2) h = (Ok d, h) /\ d = delta_e_94 kL k1 k2 kC kH (comps c1) (comps c2) /\
    0 <= d /\ (d = 0 <-> comps c1 = comps c2).
Proof.
  intros P1 P2 P3 P4 P5 H1 H2 W1 W2 N1 N2. destruct (comps3 _ c1 W1 eq_refl) as [l1 [a1 [b1 E1]]]. destruct (comps3 _ c2 W2 eq_refl) as [l2 [a2 [b2 E2]]].
  exists (delta_e_94 kL k1 k2 kC kH (comps c1) (comps c2)). split; [eapply direct; eauto; cbn; auto|]. split; [reflexivity|].
  rewrite E1, E2. cbn [delta_e_94]. split; [apply sqrt_pos|].
  pose proof (hue_radicand a1 b1 a2 b2) as Hr. pose proof (sqrt_pos (a1 * a1 + b1 * b1)) as Q1.
  set (ch1 := sqrt (a1 * a1 + b1 * b1)) in *. set (ch2 := sqrt (a2 * a2 + b2 * b2)) in *.
  assert (K1 : 0 < kC * (1 + k1 * ch1)) by (apply Rmult_lt_0_compat; nra). assert (K2 : 0 < kH * (1 + k2 * ch1)) by (apply Rmult_lt_0_compat; nra).
  assert (A1 := Rle_0_sqr ((l1 - l2) / kL)). assert (A2 := Rle_0_sqr ((ch1 - ch2) / (kC * (1 + k1 * ch1)))). unfold Rsqr in A1, A2.
  assert (K3 : 0 < kH * (1 + k2 * ch1) * (kH * (1 + k2 * ch1))) by (apply Rmult_lt_0_compat; lra).
  assert (A3 : 0 <= ((a1 - a2) * (a1 - a2) + (b1 - b2) * (b1 - b2) - (ch1 - ch2) * (ch1 - ch2)) / (kH * (1 + k2 * ch1) * (kH * (1 + k2 * ch1)))).
  { apply Rmult_le_pos; [exact Hr|]. left. apply Rinv_0_lt_compat, K3. }
  assert (Z : forall u v, v <> 0 -> u / v = 0 -> u = 0).
  { intros u v Hv Q. apply (Rmult_eq_reg_r (/ v)); [|apply Rinv_neq_0_compat, Hv]. unfold Rdiv in Q. rewrite Q. ring. }
  split.
  - intros Q. apply sqrt_eq_0 in Q; [|lra].
    assert (Q1' : (l1 - l2) / kL * ((l1 - l2) / kL) = 0) by lra.
    assert (Q2' : (ch1 - ch2) / (kC * (1 + k1 * ch1)) * ((ch1 - ch2) / (kC * (1 + k1 * ch1))) = 0) by lra.
    assert (Q3' : ((a1 - a2) * (a1 - a2) + (b1 - b2) * (b1 - b2) - (ch1 - ch2) * (ch1 - ch2)) / (kH * (1 + k2 * ch1) * (kH * (1 + k2 * ch1))) = 0) by lra.
    apply Z in Q3'; [|lra].
    assert (Q1'' : l1 - l2 = 0) by (apply Rmult_integral in Q1'; destruct Q1' as [Q'|Q']; apply Z in Q'; lra).
    assert (Q2'' : ch1 - ch2 = 0) by (apply Rmult_integral in Q2'; destruct Q2' as [Q'|Q']; apply Z in Q'; lra).
    rewrite Q2'' in Q3'. assert (B1 := Rle_0_sqr (a1 - a2)). assert (B2 := Rle_0_sqr (b1 - b2)). unfold Rsqr in B1, B2.
    assert (C1 : (a1 - a2) * (a1 - a2) = 0) by lra. assert (C2 : (b1 - b2) * (b1 - b2) = 0) by lra.
    apply Rmult_integral in C1. apply Rmult_integral in C2. replace l1 with l2 by lra. replace a1 with a2 by lra. replace b1 with b2 by lra. reflexivity.
  - intros Q. injection Q as -> -> ->. fold ch2 in ch1. rewrite <- sqrt_0. f_equal. unfold ch1, Rdiv. ring.
Qed.

Lemma cie94_asymmetric (h : heap R) p1 c1 p2 c2 l a1 a2 : p1 <> p2 -> at_addr h p1 c1 -> at_addr h p2 c2 -> wf_color LAB c1 -> wf_color LAB c2 ->
  has_space h c1 -> has_space h c2 -> comps c1 = [l; a1; 0] -> comps c2 = [l; a2; 0] -> 0 <= a2 < a1 ->
  exists x y, distance (Cie94 1 (45 / 1000) (15 / 1000) 1 1) (Some p1) (Some p2) h = (Ok x, h) /\
    distance (Cie94 1 (45 / 1000) (15 / 1000) 1 1) (Some p2) (Some p1) h = (Ok y, h) /\ x < y.
Proof.
  intros NP H1 H2 W1 W2 N1 N2 E1 E2 Ha.
  assert (Sd : sensible (Cie94 1 (45 / 1000) (15 / 1000) 1 1)) by (cbn; lra).
  exists (delta_e_94 1 (45 / 1000) (15 / 1000) 1 1 (comps c1) (comps c2)), (delta_e_94 1 (45 / 1000) (15 / 1000) 1 1 (comps c2) (comps c1)).
  split; [eapply direct; eauto|]. split; [eapply direct; eauto|].
  rewrite E1, E2. cbn [delta_e_94]. rewrite !Rmult_0_l, !Rplus_0_r, !sqrt_square by lra.
  assert (V : forall x y, 0 <= x -> 0 <= y -> sqrt ((l - l) / 1 * ((l - l) / 1) + (x - y) / (1 * (1 + 45 / 1000 * x)) * ((x - y) / (1 * (1 + 45 / 1000 * x))) +
     ((x - y) * (x - y) + (0 - 0) * (0 - 0) - (x - y) * (x - y)) / (1 * (1 + 15 / 1000 * x) * (1 * (1 + 15 / 1000 * x)))) = Rabs ((x - y) / (1 + 45 / 1000 * x))).
  { intros x y Hx Hy. rewrite <- sqrt_Rsqr_abs. f_equal. unfold Rsqr. field. lra. }
  rewrite !V by lra. unfold Rdiv. rewrite !Rabs_mult, (Rabs_minus_sym a2 a1).
  apply Rmult_lt_compat_l; [apply Rabs_pos_lt; lra|]. rewrite !Rabs_pos_eq by (left; apply Rinv_0_lt_compat; lra).
  apply Rinv_lt_contravar; [apply Rmult_lt_0_compat; lra|lra].
Qed.
Lemma cie94_same_chroma kL k1 k2 kC kH l1 a1 b1 l2 a2 b2 : a1 * a1 + b1 * b1 = a2 * a2 + b2 * b2 ->
  delta_e_94 kL k1 k2 kC kH [l1; a1; b1] [l2; a2; b2] = delta_e_94 kL k1 k2 kC kH [l2; a2; b2] [l1; a1; b1].
Proof. intros E. cbn [delta_e_94]. rewrite E. f_equal. unfold Rdiv. ring. Qed.

(** ** euclidean_distance ignores the calculation space *)
Lemma space_ignored s1 s2 p q (h : heap R) : euclidean_distance p q s1 h = euclidean_distance p q s2 h.
Proof. reflexivity. Qed.
Lemma luv_ignored (h : heap R) p1 c1 p2 c2 : at_addr h p1 c1 -> at_addr h p2 c2 -> wf_color CIELUV c1 -> wf_color CIELUV c2 ->
  has_space h c1 -> has_space h c2 -> 3 < squared_distance (comps c1) (comps c2) ->
  exists x y h', euclidean_distance (Some p1) (Some p2) CIELUV h = (Ok x, h') /\
    euclidean_distance_squared (Some p1) (Some p2) CIELUV h = (Ok y, h) /\ x < sqrt y.
Proof.
  intros H1 H2 W1 W2 N1 N2 D.
  assert (NP : p1 <> p2).
  { intros ->. unfold at_addr in H1, H2. rewrite H1 in H2. injection H2 as <-. rewrite (proj2 (squared_distance_0 (comps c1) (comps c1) eq_refl) eq_refl) in D. lra. }
  destruct (distance_value (Euclid CIELUV) CIELUV CIELUV h p1 c1 p2 c2 NP H1 H2 W1 W2) as [h' [d1 [d2 [_ [Wd1 [Wd2 [E _]]]]]]]; auto; [exact I|].
  exists (euclid (comps d1) (comps d2)), (squared_distance (comps c1) (comps c2)), h'.
  split; [apply (E _ eq_refl)|]. split; [apply (direct (Squared CIELUV) h p1 c1 p2 c2); auto; exact I|].
  apply Rle_lt_trans with (sqrt 3); [|apply sqrt_lt_1_alt; lra]. apply sqrt_le_1_alt.
  cbn [compared_in] in Wd1, Wd2. destruct (comps3 _ d1 Wd1 eq_refl) as [r1 [g1 [b1 E1]]]. destruct (comps3 _ d2 Wd2 eq_refl) as [r2 [g2 [b2 E2]]].
  pose proof (deep_unit d1 0 r1 Wd1) as A1. pose proof (deep_unit d1 1 g1 Wd1) as A2. pose proof (deep_unit d1 2 b1 Wd1) as A3.
  pose proof (deep_unit d2 0 r2 Wd2) as B1. pose proof (deep_unit d2 1 g2 Wd2) as B2. pose proof (deep_unit d2 2 b2 Wd2) as B3.
  rewrite E1 in A1, A2, A3. rewrite E2 in B1, B2, B3. specialize (A1 eq_refl). specialize (A2 eq_refl). specialize (A3 eq_refl).
  specialize (B1 eq_refl). specialize (B2 eq_refl). specialize (B3 eq_refl).
  rewrite E1, E2, squared_distance3. unfold sq3. clear - A1 A2 A3 B1 B2 B3.
  assert (Q : forall x y, 0 <= x <= 1 -> 0 <= y <= 1 -> (x - y) * (x - y) <= 1) by (intros; nra).
  pose proof (Q r1 r2 A1 B1). pose proof (Q g1 g2 A2 B2). pose proof (Q b1 b2 A3 B3). lra.
Qed.
