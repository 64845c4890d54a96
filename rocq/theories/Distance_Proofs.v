(** * color_distance: structure of all distance functions *)
From Coq Require Import ZArith QArith Reals Lra Lia List Bool.
From Flocq Require Import Core IEEE754.BinarySingleNaN.
From Verif Require Import Arith Outcome ColorModel GammaModel MatrixModel SpaceModel Heap Converter Calculation Blend Distance
  Spec F32 RArith F32Facts Hue32 Spec32 Laws NormalForms History Core_Proofs Core2_Proofs Core3_Proofs Core4_Proofs Convert_Proofs Alpha8
  Spec_Matrix Spec_Conv Spec_Calc Spec_Blend Spec_Distance
  Conv_Proofs Conv2_Proofs Conv3_Proofs Total_Proofs HueR_Proofs Round_Proofs Calc_Proofs Calc2_Proofs Calc3_Proofs Blend_Proofs Blend2_Proofs Blend3_Proofs
  Run_Proofs.

Import ListNotations.

Section Structure.
Context {F : Type} {AF : Arith F} {AL : ArithLaws F} {A8 : Alpha8Laws F}.
Local Notation color := (color F).
Local Notation heap := (heap F).

Lemma to_step X Y (h : heap) p c : Y <> UNDEFINED -> at_addr h p c -> wf_color X c -> (needs_space X Y = true -> has_space h c) ->
  exists q r h', to_type Y (Some p) h = (Ok (Some q), h') /\ at_addr h' q r /\ wf_color Y r /\ rgb_space r = rgb_space c /\ others_unchanged h h' p /\
    (X <> Y -> fresh h q) /\ (X = Y -> q = p /\ r = c /\ h' = h) /\ (X <> RGB_DEEP \/ cie Y = false -> unchanged h h').
Proof.
  intros UY H W N. destruct (ctype_eq_dec X Y) as [->|D].
  - exists p, c, h. split; [apply (to_type_same Y h p c H W)|]. split; [exact H|]. split; [exact W|]. split; [reflexivity|].
    split; [split; auto|]. split; [congruence|]. split; [auto|]. intros _. apply unchanged_refl.
  - destruct (to_type_cv X Y (wf_real _ _ W) UY D h p c H W N) as [q [r [h' [c' [E [Fq [Hq [Wr [S [O [P' _]]]]]]]]]]].
    exists q, r, h'. split; [exact E|]. split; [exact Hq|]. split; [exact Wr|]. split; [exact S|]. split; [exact O|]. split; [auto|].
    split; [congruence|]. intros P.
    destruct (to_pure X Y (wf_real _ _ W) UY P h p c H W N) as [q2 [r2 [h2 [E2 [_ [_ [_ [U _]]]]]]]]. congruence.
Qed.

Lemma measure_same X cv f p (h : heap) : measure X cv f p p h = (Ok (fz 0), h).
Proof. unfold measure, ptr_eqb. destruct p; [rewrite Nat.eqb_refl|]; reflexivity. Qed.

Lemma measure_run X1 X2 Y (h : heap) p1 c1 p2 c2 : Y <> UNDEFINED -> p1 <> p2 -> at_addr h p1 c1 -> at_addr h p2 c2 -> wf_color X1 c1 -> wf_color X2 c2 ->
  (needs_space X1 Y = true -> has_space h c1) -> (needs_space X2 Y = true -> has_space h c2) ->
  exists h' d1 d2, converted_pair Y h p1 p2 h' d1 d2 /\ wf_color Y d1 /\ wf_color Y d2 /\
    (forall f, measure Y (to_type Y) f (Some p1) (Some p2) h = (f d1 d2, h')) /\
    spaces h' = spaces h /\ (forall i c, i <> p1 -> i <> p2 -> at_addr h i c -> at_addr h' i c) /\
    (X1 = Y -> d1 = c1) /\ (X2 = Y -> d2 = c2) /\ (X1 = Y -> X2 = Y -> h' = h) /\
    ((X1 <> RGB_DEEP /\ X2 <> RGB_DEEP) \/ cie Y = false -> unchanged h h').
Proof.
  intros UY NP H1 H2 W1 W2 N1 N2.
  destruct (to_step X1 Y h p1 c1 UY H1 W1 N1) as [a1 [d1 [h1 [E1 [A1 [Wd1 [S1 [[O1 O1'] [F1 [I1 P1]]]]]]]]]].
  assert (H2' : at_addr h1 p2 c2) by (apply O1'; auto).
  destruct (to_step X2 Y h1 p2 c2 UY H2' W2) as [a2 [d2 [h2 [E2 [A2 [Wd2 [S2 [[O2 O2'] [F2 [I2 P2]]]]]]]]]].
  { intros Q. destruct (N2 Q) as [i [s [Q1 [Q2 Q3]]]]. exists i, s. rewrite O1. auto. }
  assert (D12 : a1 <> p2).
  { destruct (ctype_eq_dec X1 Y) as [Q|Q]; [destruct (I1 Q) as [-> _]; exact NP|].
    pose proof (F1 Q) as Fq. unfold fresh in Fq. pose proof (at_addr_lt _ _ _ H2). lia. }
  assert (NA : a1 <> a2).
  { destruct (ctype_eq_dec X2 Y) as [Q|Q]; [destruct (I2 Q) as [-> _]; exact D12|].
    pose proof (F2 Q) as Fq. unfold fresh in Fq. pose proof (at_addr_lt _ _ _ A1). lia. }
  exists h2, d1, d2. assert (A1' : at_addr h2 a1 d1) by (apply O2'; auto).
  split; [exists a1, h1, a2; auto|]. split; [exact Wd1|]. split; [exact Wd2|]. split.
  { intros f. unfold measure. cbn [ptr_eqb]. replace (Nat.eqb p1 p2) with false by (symmetry; apply Nat.eqb_neq; exact NP).
    unfold bind. rewrite E1, E2. replace (ptr_eqb (Some a1) (Some a2)) with false by (symmetry; apply Nat.eqb_neq; exact NA).
    rewrite (load_as_ok h2 a1 d1 Y A1' Wd1), (load_as_ok h2 a2 d2 Y A2 Wd2). unfold lift. destruct (f d1 d2); reflexivity. }
  split; [congruence|]. split. { intros i c Q1 Q2 Q. apply O2'; auto. }
  split; [intros Q; apply (I1 Q)|]. split; [intros Q; apply (I2 Q)|]. split.
  { intros Q1 Q2. destruct (I1 Q1) as [_ [_ ->]]. destruct (I2 Q2) as [_ [_ ->]]. reflexivity. }
  intros P. apply (unchanged_trans _ h1); [apply P1|apply P2]; tauto.
Qed.

(** Every distance function is of this form. *)
Definition on_components (d : distance_fun F) (c1 c2 : color) : outcome F :=
  match d with
  | Squared _ => squared_f c1 c2
  | Euclid _ => let! v := squared_f c1 c2 in Ok (fsqrt v)
  | Weighted => weighted_f c1 c2
  | Cie76 => cie76_f c1 c2
  | Cie94 kL k1 k2 kC kH => cie94_f kL k1 k2 kC kH c1 c2
  | Cie00 kL k1 k2 kC kH => cie00_f kL k1 k2 kC kH c1 c2
  | Cmc l c => cmc_f l c c1 c2
  end.

Lemma compared_real d : @compared_in F d <> UNDEFINED.
Proof. destruct d as [s| | | | | |]; try discriminate. destruct s; discriminate. Qed.

Lemma distance_same d p (h : heap) : distance d p p h = (Ok (fz 0), h).
Proof.
  destruct d as [s| | | | | |]; cbn [distance]; try apply measure_same.
  - destruct s; apply measure_same.
  - unfold euclidean_distance, ptr_eqb. destruct p; [rewrite Nat.eqb_refl|]; reflexivity.
Qed.

Lemma distance_run d X1 X2 (h : heap) p1 c1 p2 c2 : p1 <> p2 -> at_addr h p1 c1 -> at_addr h p2 c2 -> wf_color X1 c1 -> wf_color X2 c2 ->
  (needs_space X1 (compared_in d) = true -> has_space h c1) -> (needs_space X2 (compared_in d) = true -> has_space h c2) ->
  exists h' d1 d2, converted_pair (compared_in d) h p1 p2 h' d1 d2 /\ wf_color (compared_in d) d1 /\ wf_color (compared_in d) d2 /\
    distance d (Some p1) (Some p2) h = (on_components d d1 d2, h') /\
    spaces h' = spaces h /\ (forall i c, i <> p1 -> i <> p2 -> at_addr h i c -> at_addr h' i c) /\
    (X1 = compared_in d -> d1 = c1) /\ (X2 = compared_in d -> d2 = c2) /\ (X1 = compared_in d -> X2 = compared_in d -> h' = h) /\
    ((X1 <> RGB_DEEP /\ X2 <> RGB_DEEP) \/ cie (compared_in d) = false -> unchanged h h').
Proof.
  intros NP H1 H2 W1 W2 N1 N2.
  destruct (measure_run X1 X2 (compared_in d) h p1 c1 p2 c2 (compared_real d) NP H1 H2 W1 W2 N1 N2) as [h' [d1 [d2 [C [Wd1 [Wd2 [E R]]]]]]].
  exists h', d1, d2. split; [exact C|]. split; [exact Wd1|]. split; [exact Wd2|]. split; [|exact R].
  destruct d as [s|s| | | | |]; cbn [distance compared_in] in *; try (cbn [to_type] in E; apply E).
  - destruct s; cbn [to_type] in E; apply E.
  - cbn [to_type] in E. unfold euclidean_distance. cbn [ptr_eqb]. replace (Nat.eqb p1 p2) with false by (symmetry; apply Nat.eqb_neq; exact NP).
    unfold bind. cbn [euclidean_distance_squared]. rewrite E. cbn [on_components]. destruct (squared_f d1 d2); reflexivity.
Qed.

(** Nothing can go wrong, except the conversion of the hue to an integer in the CIE 2000 formula. *)
Lemma sum_squares_ok (v w : list F) : length v = length w -> forall acc, exists x, sum_squares acc v w = Ok x.
Proof.
  revert w. induction v as [|a v IH]; intros [|b w] L acc; try discriminate L; [eexists; reflexivity|]. cbn [sum_squares]. apply IH. simpl in L. lia.
Qed.
Lemma on_components_ok d (d1 d2 : color) : match d with Cie00 _ _ _ _ _ => False | _ => True end ->
  wf_color (compared_in d) d1 -> wf_color (compared_in d) d2 -> exists x, on_components d d1 d2 = Ok x.
Proof.
  intros Hd W1 W2.
  assert (SQ : exists x, squared_f d1 d2 = Ok x).
  { unfold squared_f. apply sum_squares_ok. rewrite (wf_len _ _ W1), (wf_len _ _ W2). reflexivity. }
  destruct SQ as [x SQ].
  destruct d as [s|s| | | | |]; cbn [on_components compared_in] in *; try contradiction.
  - exists x. exact SQ.
  - rewrite SQ. eexists. reflexivity.
  - destruct (comps3 _ d1 W1 eq_refl) as [? [? [? E1]]]. destruct (comps3 _ d2 W2 eq_refl) as [? [? [? E2]]].
    unfold weighted_f, with3. rewrite E1, E2. eexists. reflexivity.
  - unfold cie76_f. rewrite SQ. eexists. reflexivity.
  - destruct (comps3 _ d1 W1 eq_refl) as [? [? [? E1]]]. destruct (comps3 _ d2 W2 eq_refl) as [? [? [? E2]]].
    unfold cie94_f, with3. rewrite E1, E2. eexists. reflexivity.
  - destruct (comps3 _ d1 W1 eq_refl) as [? [? [? E1]]]. destruct (comps3 _ d2 W2 eq_refl) as [? [? [? E2]]].
    unfold cmc_f, with3. rewrite E1, E2. eexists. reflexivity.
Qed.
End Structure.
