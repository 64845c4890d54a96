(** * color_distance: statements for the distance functions, binary32 *)
From Coq Require Import ZArith QArith Reals Lra Lia List Bool.
From Flocq Require Import Core IEEE754.BinarySingleNaN.
From Verif Require Import Arith Outcome ColorModel GammaModel MatrixModel SpaceModel Heap Converter Calculation Blend Distance
  Spec F32 RArith F32Facts Hue32 Spec32 Laws NormalForms History Core_Proofs Core2_Proofs Core3_Proofs Core4_Proofs Convert_Proofs Alpha8
  Spec_Matrix Spec_Conv Spec_Calc Spec_Blend Spec_Distance
  Conv_Proofs Conv2_Proofs Conv3_Proofs Total_Proofs HueR_Proofs Round_Proofs Calc_Proofs Calc2_Proofs Calc3_Proofs Blend_Proofs Blend2_Proofs Blend3_Proofs
  Gamma2_Proofs Run_Proofs Distance_Proofs Distance2_Proofs Distance3_Proofs Round3_Proofs.

Import ListNotations.
Local Open Scope R_scope.

(** ** Exact arithmetic *)
Lemma on_components_R d (d1 d2 : color R) : sensible d -> wf_color (compared_in d) d1 -> wf_color (compared_in d) d2 ->
  exists x, on_components d d1 d2 = Ok x /\ 0 <= x /\ (comps d1 = comps d2 -> x = 0).
Proof.
  intros S W1 W2. destruct (value d (comps d1) (comps d2)) as [x|] eqn:V.
  - exists x. split; [apply value_ok; assumption|]. split.
    + destruct d; cbn [value] in V; try discriminate V; injection V as <-; try apply sqrt_pos; try apply squared_distance_pos;
        unfold redmean, delta_e_94; destruct (comps d1) as [|? [|? [|? [|? ?]]]]; try lra; destruct (comps d2) as [|? [|? [|? [|? ?]]]]; try lra; apply sqrt_pos.
    + intros E. rewrite E in V. apply value_same in V. exact V.
  - destruct d as [| | | | |kL k1 k2 kC kH|l c]; cbn [value] in V; try discriminate V; cbn [on_components compared_in] in *.
    + destruct (cie00_sym kL k1 k2 kC kH d1 d2 W1 W2) as [x [E [_ Z]]]. exists x. split; [exact E|]. split; [|exact Z].
      destruct (comps3 _ d1 W1 eq_refl) as [l1 [a1 [b1 E1]]]. destruct (comps3 _ d2 W2 eq_refl) as [l2 [a2 [b2 E2]]].
      unfold cie00_f, with3 in E. rewrite E1, E2 in E. cbv zeta in E.
      match type of E with (let! h1 := ?u in _) = _ => destruct u; try discriminate E end. cbn [obind] in E.
      match type of E with (let! h1 := ?u in _) = _ => destruct u; try discriminate E end. cbn [obind] in E.
      apply Ok_inj in E. rewrite <- E. apply sqrt_pos.
    + destruct (on_components_ok (Cmc l c) d1 d2 I W1 W2) as [x E]. exists x. cbn [on_components] in E. split; [exact E|]. split.
      * destruct (comps3 _ d1 W1 eq_refl) as [l1 [a1 [b1 E1]]]. destruct (comps3 _ d2 W2 eq_refl) as [l2 [a2 [b2 E2]]].
        unfold cmc_f, with3 in E. rewrite E1, E2 in E. apply Ok_inj in E. rewrite <- E. apply sqrt_pos.
      * intros Q. rewrite (cmc_zero l c d1 d2 W1 W2 Q) in E. apply Ok_inj in E. symmetry. exact E.
Qed.

(** Every distance function has a value, which is not negative, and 0 for equal colours. *)
Lemma distance_sane d X1 X2 (h : heap R) p1 c1 p2 c2 : at_addr h p1 c1 -> at_addr h p2 c2 -> wf_color X1 c1 -> wf_color X2 c2 ->
  (needs_space X1 (compared_in d) = true -> has_space h c1) -> (needs_space X2 (compared_in d) = true -> has_space h c2) -> sensible d ->
  exists x h', distance d (Some p1) (Some p2) h = (Ok x, h') /\ 0 <= x /\ (p1 = p2 -> x = 0) /\
    (p1 <> p2 -> exists d1 d2, converted_pair (compared_in d) h p1 p2 h' d1 d2 /\ (comps d1 = comps d2 -> x = 0)).
Proof.
  intros H1 H2 W1 W2 N1 N2 S. destruct (Nat.eq_dec p1 p2) as [->|NP].
  - exists 0, h. rewrite distance_same, fzR. split; [reflexivity|]. split; [lra|]. split; [auto|]. intros Q. contradiction Q; reflexivity.
  - destruct (distance_run d X1 X2 h p1 c1 p2 c2 NP H1 H2 W1 W2 N1 N2) as [h' [d1 [d2 [C [Wd1 [Wd2 [E _]]]]]]].
    destruct (on_components_R d d1 d2 S Wd1 Wd2) as [x [Ex [P Z]]]. exists x, h'. rewrite E, Ex. split; [reflexivity|]. split; [exact P|].
    split; [intros Q; contradiction|]. intros _. exists d1, d2. auto.
Qed.

Lemma direct_run d (h : heap R) p1 c1 p2 c2 : p1 <> p2 -> at_addr h p1 c1 -> at_addr h p2 c2 -> wf_color (compared_in d) c1 -> wf_color (compared_in d) c2 ->
  (cie (compared_in d) = true -> has_space h c1 /\ has_space h c2) -> distance d (Some p1) (Some p2) h = (on_components d c1 c2, h).
Proof.
  intros NP H1 H2 W1 W2 N.
  assert (Nn : needs_space (compared_in d) (compared_in d) = true -> cie (compared_in d) = true) by (unfold needs_space; intros Q; apply orb_true_iff in Q; tauto).
  destruct (distance_run d _ _ h p1 c1 p2 c2 NP H1 H2 W1 W2) as [h' [d1 [d2 [C [Wd1 [Wd2 [E [_ [_ [I1 [I2 [I3 _]]]]]]]]]]]].
  { intros Q. apply N, Nn, Q. } { intros Q. apply N, Nn, Q. }
  rewrite (I1 eq_refl), (I2 eq_refl), (I3 eq_refl eq_refl) in E. exact E.
Qed.

Lemma cie00_symmetric kL k1 k2 kC kH (h : heap R) p1 c1 p2 c2 : at_addr h p1 c1 -> at_addr h p2 c2 -> wf_color LAB c1 -> wf_color LAB c2 ->
  has_space h c1 -> has_space h c2 ->
  exists d, distance (Cie00 kL k1 k2 kC kH) (Some p1) (Some p2) h = (Ok d, h) /\ distance (Cie00 kL k1 k2 kC kH) (Some p2) (Some p1) h = (Ok d, h).
Proof.
  intros H1 H2 W1 W2 N1 N2. destruct (Nat.eq_dec p1 p2) as [->|NP].
  - exists 0. rewrite distance_same, fzR. auto.
  - destruct (cie00_sym kL k1 k2 kC kH c1 c2 W1 W2) as [x [E1 [E2 _]]]. exists x.
    rewrite !direct_run with (c1 := c1) (c2 := c2) by auto. rewrite (direct_run _ h p2 c2 p1 c1) by auto. cbn [on_components]. rewrite E1, E2. auto.
Qed.
Lemma cie00_wrong (h : heap R) p1 c1 p2 c2 l a1 a2 : p1 <> p2 -> at_addr h p1 c1 -> at_addr h p2 c2 -> wf_color LAB c1 -> wf_color LAB c2 ->
  has_space h c1 -> has_space h c2 -> comps c1 = [l; a1; 0] -> comps c2 = [l; a2; 0] -> 0 < a1 -> a1 < a2 ->
  exists x, distance (Cie00 1 (45 / 1000) (15 / 1000) 1 1) (Some p1) (Some p2) h = (Ok x, h) /\ x < ciede2000 1 1 1 (comps c1) (comps c2).
Proof.
  intros NP H1 H2 W1 W2 N1 N2 E1 E2 P L. destruct (cie00_below l a1 a2 c1 c2 E1 E2 P L) as [x [E B]]. exists x.
  rewrite (direct_run _ h p1 c1 p2 c2) by auto. cbn [on_components]. rewrite E. auto.
Qed.
Lemma cmc_is_published l c (h : heap R) p1 c1 p2 c2 l1 a1 b1 : p1 <> p2 -> at_addr h p1 c1 -> at_addr h p2 c2 -> wf_color LAB c1 -> wf_color LAB c2 ->
  has_space h c1 -> has_space h c2 -> 0 < l -> 0 < c -> comps c1 = [l1; a1; b1] -> hue_angle b1 a1 <> 164 ->
  distance (Cmc l c) (Some p1) (Some p2) h = (Ok (cmc_lc84 l c (comps c1) (comps c2)), h).
Proof.
  intros NP H1 H2 W1 W2 N1 N2 Pl Pc E1 NH. rewrite (direct_run _ h p1 c1 p2 c2) by auto. cbn [on_components].
  rewrite (cmc_formula l c c1 c2 l1 a1 b1) by assumption. reflexivity.
Qed.
Lemma cmc_asymmetric l c (h : heap R) p1 c1 p2 c2 L a : p1 <> p2 -> at_addr h p1 c1 -> at_addr h p2 c2 -> wf_color LAB c1 -> wf_color LAB c2 ->
  has_space h c1 -> has_space h c2 -> 0 < l -> 0 < c -> comps c1 = [L; 0; 0] -> comps c2 = [L; a; 0] -> 0 < a ->
  exists x y, distance (Cmc l c) (Some p1) (Some p2) h = (Ok x, h) /\ distance (Cmc l c) (Some p2) (Some p1) h = (Ok y, h) /\ y < x.
Proof.
  intros NP H1 H2 W1 W2 N1 N2 Pl Pc E1 E2 Pa. destruct (cmc_grey l c c1 c2 L a E1 E2 Pa Pl Pc W1 W2) as [x [y [Ex [Ey Lt]]]]. exists x, y.
  rewrite (direct_run _ h p1 c1 p2 c2), (direct_run _ h p2 c2 p1 c1) by auto. cbn [on_components]. rewrite Ex, Ey. auto.
Qed.

Lemma cie94_symmetric_same kL k1 k2 kC kH (h : heap R) p1 c1 p2 c2 l1 a1 b1 l2 a2 b2 : 0 < kL -> 0 <= k1 -> 0 <= k2 -> 0 < kC -> 0 < kH ->
  at_addr h p1 c1 -> at_addr h p2 c2 -> wf_color LAB c1 -> wf_color LAB c2 -> has_space h c1 -> has_space h c2 ->
  comps c1 = [l1; a1; b1] -> comps c2 = [l2; a2; b2] -> a1 * a1 + b1 * b1 = a2 * a2 + b2 * b2 ->
  exists d, distance (Cie94 kL k1 k2 kC kH) (Some p1) (Some p2) h = (Ok d, h) /\ distance (Cie94 kL k1 k2 kC kH) (Some p2) (Some p1) h = (Ok d, h).
Proof.
  intros P1 P2 P3 P4 P5 H1 H2 W1 W2 N1 N2 E1 E2 Q.
  destruct (cie94_laws kL k1 k2 kC kH h p1 c1 p2 c2) as [d [Ed [Vd _]]]; try assumption.
  destruct (cie94_laws kL k1 k2 kC kH h p2 c2 p1 c1) as [e [Ee [Ve _]]]; try assumption.
  exists d. split; [exact Ed|]. rewrite Ee, Ve, Vd, E1, E2. rewrite (cie94_same_chroma kL k1 k2 kC kH l1 a1 b1 l2 a2 b2 Q). reflexivity.
Qed.

(** ** Examples *)
Lemma lab_pair l1 a1 b1 l2 a2 b2 : 0 <= l1 <= 100 -> -128 <= a1 <= 128 -> -128 <= b1 <= 128 -> 0 <= l2 <= 100 -> -128 <= a2 <= 128 -> -128 <= b2 <= 128 ->
  exists (h : heap R) c1 c2, at_addr h 0%nat c1 /\ at_addr h 1%nat c2 /\ wf_color LAB c1 /\ wf_color LAB c2 /\ has_space h c1 /\ has_space h c2 /\
    comps c1 = [l1; a1; b1] /\ comps c2 = [l2; a2; b2].
Proof.
  intros. destruct (space_ctor_usable (AF := RArith) 0.64 0.33 0.3 0.6 0.15 0.06 0%nat wp_D65_2Degree gamma_sRGB) as [s [Es [U _]]].
  destruct (lab_made (AF := RArith) l1 a1 b1 1 (Some 0%nat)) as [c1 [E1 [W1 [_ S1]]]]. destruct (lab_made (AF := RArith) l2 a2 b2 1 (Some 0%nat)) as [c2 [E2 [W2 [_ S2]]]].
  exists (Heap [c1; c2] [s]), c1, c2. rewrite lab_nf in E1, E2. rewrite c100R, !clamp_idR in E1, E2 by lra. apply Ok_inj in E1, E2.
  split; [reflexivity|]. split; [reflexivity|]. split; [exact W1|]. split; [exact W2|].
  split; [exists 0%nat, s; auto|]. split; [exists 0%nat, s; auto|]. rewrite <- E1, <- E2. auto.
Qed.
Lemma luv_pair : exists (h : heap R) c1 c2, at_addr h 0%nat c1 /\ at_addr h 1%nat c2 /\ wf_color CIELUV c1 /\ wf_color CIELUV c2 /\ has_space h c1 /\ has_space h c2 /\
    3 < squared_distance (comps c1) (comps c2).
Proof.
  destruct (space_ctor_usable (AF := RArith) 0.64 0.33 0.3 0.6 0.15 0.06 0%nat wp_D65_2Degree gamma_sRGB) as [s [Es [U _]]].
  destruct (cieluv_made (AF := RArith) 50 0 0 1 (Some 0%nat)) as [c1 [E1 [W1 [_ S1]]]]. destruct (cieluv_made (AF := RArith) 60 0 0 1 (Some 0%nat)) as [c2 [E2 [W2 [_ S2]]]].
  exists (Heap [c1; c2] [s]), c1, c2. rewrite cieluv_nf in E1, E2. rewrite c100R, !clamp_idR in E1, E2 by lra. apply Ok_inj in E1, E2.
  split; [reflexivity|]. split; [reflexivity|]. split; [exact W1|]. split; [exact W2|].
  split; [exists 0%nat, s; auto|]. split; [exists 0%nat, s; auto|]. rewrite <- E1, <- E2. cbn [comps]. rewrite squared_distance3. unfold sq3. lra.
Qed.
Lemma deep_pair : exists (h : heap R) c1 c2, at_addr h 0%nat c1 /\ at_addr h 1%nat c2 /\ wf_color RGB_DEEP c1 /\ wf_color RGB_DEEP c2 /\
    comps c1 = [1; 0; 1 / 2] /\ comps c2 = [0; 1 / 4; 1].
Proof.
  destruct (rgb_deepcolor_made (AF := RArith) 1 0 (1 / 2) 1 None) as [c1 [E1 [W1 _]]]. destruct (rgb_deepcolor_made (AF := RArith) 0 (1 / 4) 1 1 None) as [c2 [E2 [W2 _]]].
  exists (Heap [c1; c2] []), c1, c2. rewrite deep_eq with (r := 1) (g := 0) (b := 1 / 2) in E1 by (lra || reflexivity). rewrite deep_eq with (r := 0) (g := 1 / 4) (b := 1) in E2 by (lra || reflexivity).
  apply Ok_inj in E1, E2. split; [reflexivity|]. split; [reflexivity|]. split; [exact W1|]. split; [exact W2|]. rewrite <- E1, <- E2. auto.
Qed.
