(** * Laws of sums and mixtures (C203) *)
From Coq Require Import ZArith QArith Reals Lra Lia List Bool.
From Flocq Require Import Core IEEE754.BinarySingleNaN.
From Verif Require Import Arith Outcome ColorModel GammaModel MatrixModel SpaceModel Heap Converter Calculation
  Spec F32 RArith F32Facts Hue32 Spec32 Laws NormalForms History Core_Proofs Core2_Proofs Core3_Proofs Core4_Proofs Convert_Proofs Alpha8
  Spec_Matrix Spec_Conv Spec_Formula Spec_Sum Spec_Error Spec_Rank Spec_Mix Spec_Law Conv_Proofs Conv2_Proofs HueR_Proofs Blend2_Proofs Mirror_Proofs Spec_Calc.
Import ListNotations.

Section Laws.
Context {F : Type} {AF : Arith F} {AL : ArithLaws F}.
Local Notation color := (color F).
Local Notation heap := (heap F).

(** The combination of two components, and what is stored. *)
Definition addc (X : ctype) (w1 w2 a b : F) : F := match X with RGB_TRUE | RGB_DEEP => add_root w1 w2 a b | _ => add_lin w1 w2 a b end.
Definition pre (X : ctype) (v : F) : F := if eight_bit X then fmin (fmax v (fz 0)) (fz 255) else v.
Definition stored (X : ctype) (i : nat) (v : F) : F := clamp (pre X v) (fz (snd (comp_range X i))) (fz (fst (comp_range X i))).
Definition stored_alpha (X : ctype) (a : F) : F := if eight_bit X then c01 (fdiv (fmin (fmax a (fz 0)) (fz 255)) (fz 255)) else a.

Definition sum_of (X : ctype) (w1 w2 : F) (ia : bool) (c1 c2 r : color) : Prop :=
  ty r = X /\ length (comps r) = arity X /\ rgb_space r = rgb_space c1 /\
  (forall i x y, nth_error (comps c1) i = Some x -> nth_error (comps c2) i = Some y -> nth_error (comps r) i = Some (stored X i (addc X w1 w2 x y))) /\
  m_alpha r = stored_alpha X (if ia then addc X w1 w2 (alpha c1) (alpha c2) else alpha c1).

Lemma new2_run X f (h : heap) p1 c1 p2 c2 r : at_addr h p1 c1 -> at_addr h p2 c2 -> wf_color X c1 -> wf_color X c2 -> f c1 c2 = Ok r ->
  new2 X f (Some p1) (Some p2) h = (Ok (Some (length (colors h))), Heap (colors h ++ [r]) (spaces h)).
Proof.
  intros H1 H2 W1 W2 E. unfold new2, bind. rewrite (load_as_ok h p1 c1 X H1 W1), (load_as_ok h p2 c2 X H2 W2). unfold lift. rewrite E. reflexivity.
Qed.
Lemma new2_returns X f (h : heap) p1 c1 p2 c2 (P : color -> Prop) : at_addr h p1 c1 -> at_addr h p2 c2 -> wf_color X c1 -> wf_color X c2 -> (exists r, f c1 c2 = Ok r /\ P r) ->
  returns (new2 X f (Some p1) (Some p2)) h P.
Proof.
  intros H1 H2 W1 W2 [r [E Pr]]. exists (length (colors h)), r, (Heap (colors h ++ [r]) (spaces h)).
  split; [apply (new2_run X f h p1 c1 p2 c2 r); assumption|]. split; [apply at_new|exact Pr].
Qed.

Ltac parts := split; [reflexivity|]; split; [reflexivity|]; split; [reflexivity|]; split; [|reflexivity];
  let i := fresh "i" in let A := fresh "A" in let B := fresh "B" in intros i ? ? A B; repeat (destruct i as [|i]; cbn [comps nth_error] in *; [solve [discriminate A|inversion A; inversion B; subst; reflexivity]|]; try discriminate A).

Lemma add_runs X w1 w2 ia (h : heap) p1 p2 c1 c2 : In X plain_types -> bad_weight w1 = false -> bad_weight w2 = false ->
  at_addr h p1 c1 -> at_addr h p2 c2 -> wf_color X c1 -> wf_color X c2 ->
  returns (typed_add X (Some p1) (Some p2) w1 w2 ia) h (sum_of X w1 w2 ia c1 c2).
Proof.
  intros P G1 G2 H1 H2 W1 W2. unfold plain_types in P. simpl in P.
  destruct P as [<-|[<-|[<-|[<-|[<-|[<-|[<-|[<-|[]]]]]]]]]; cbn [typed_add];
    unfold add_rgb_true, add_rgb_deep, add_grey_true, add_grey_deep, add_cmyk, add_xyz, add_xyy, add_cieluv, check2; rewrite G1, G2;
    eapply new2_returns; try eassumption; unfold sum_of.
  - destruct (comps3 _ _ W1 eq_refl) as [x1 [y1 [z1 C1]]]. destruct (comps3 _ _ W2 eq_refl) as [x2 [y2 [z2 C2]]].
    unfold add_rgb_true_f, with3. rewrite C1, C2. cbv zeta. rewrite rgb_truecolor_nf. eexists. split; [reflexivity|parts].
  - destruct (comps3 _ _ W1 eq_refl) as [x1 [y1 [z1 C1]]]. destruct (comps3 _ _ W2 eq_refl) as [x2 [y2 [z2 C2]]].
    unfold add_rgb_deep_f, with3. rewrite C1, C2. cbv zeta. rewrite rgb_deepcolor_nf. eexists. split; [reflexivity|parts].
  - destruct (comps1 _ _ W1 eq_refl) as [x1 C1]. destruct (comps1 _ _ W2 eq_refl) as [x2 C2].
    unfold add_grey_true_f, with1. rewrite C1, C2. cbv zeta. rewrite grey_truecolor_nf. eexists. split; [reflexivity|parts].
  - destruct (comps1 _ _ W1 eq_refl) as [x1 C1]. destruct (comps1 _ _ W2 eq_refl) as [x2 C2].
    unfold add_grey_deep_f, with1. rewrite C1, C2. cbv zeta. rewrite grey_deepcolor_nf. eexists. split; [reflexivity|parts].
  - destruct (comps4 _ _ W1 eq_refl) as [x1 [y1 [z1 [k1 C1]]]]. destruct (comps4 _ _ W2 eq_refl) as [x2 [y2 [z2 [k2 C2]]]].
    unfold add_cmyk_f, with4. rewrite C1, C2. cbv zeta. rewrite cmyk_nf. eexists. split; [reflexivity|parts].
  - destruct (comps3 _ _ W1 eq_refl) as [x1 [y1 [z1 C1]]]. destruct (comps3 _ _ W2 eq_refl) as [x2 [y2 [z2 C2]]].
    unfold add3_f, with3. rewrite C1, C2. cbv zeta. rewrite xyz_nf. eexists. split; [reflexivity|parts].
  - destruct (comps3 _ _ W1 eq_refl) as [x1 [y1 [z1 C1]]]. destruct (comps3 _ _ W2 eq_refl) as [x2 [y2 [z2 C2]]].
    unfold add3_f, with3. rewrite C1, C2. cbv zeta. rewrite xyy_nf. eexists. split; [reflexivity|parts].
  - destruct (comps3 _ _ W1 eq_refl) as [x1 [y1 [z1 C1]]]. destruct (comps3 _ _ W2 eq_refl) as [x2 [y2 [z2 C2]]].
    unfold add3_f, with3. rewrite C1, C2. cbv zeta. rewrite cieluv_nf. eexists. split; [reflexivity|parts].
Qed.

(** Differences *)
Definition difference_of (X : ctype) (w : F) (ia : bool) (c1 c2 r : color) : Prop :=
  ty r = X /\ length (comps r) = arity X /\
  (forall i x y, nth_error (comps c1) i = Some x -> nth_error (comps c2) i = Some y ->
     nth_error (comps r) i = Some (clamp (sub_lin w x y) (fz (snd (comp_range X i))) (fz (fst (comp_range X i))))).
Ltac parts2 := split; [reflexivity|]; split; [reflexivity|];
  let i := fresh "i" in let A := fresh "A" in let B := fresh "B" in intros i ? ? A B; repeat (destruct i as [|i]; cbn [comps nth_error] in *; [solve [discriminate A|inversion A; inversion B; subst; reflexivity]|]; try discriminate A).

Lemma subtract_runs X w ia (h : heap) p1 p2 c1 c2 : In X plain_types -> bad_weight w = false ->
  at_addr h p1 c1 -> at_addr h p2 c2 -> wf_color X c1 -> wf_color X c2 ->
  returns (typed_subtract X (Some p1) (Some p2) w ia) h (difference_of X w ia c1 c2).
Proof.
  intros P G H1 H2 W1 W2. unfold plain_types in P. simpl in P.
  destruct P as [<-|[<-|[<-|[<-|[<-|[<-|[<-|[<-|[]]]]]]]]]; cbn [typed_subtract];
    unfold subtract_rgb_true, subtract_rgb_deep, subtract_grey_true, subtract_grey_deep, subtract_cmyk, subtract_xyz, subtract_xyy, subtract_cieluv, check1; rewrite G;
    eapply new2_returns; try eassumption; unfold difference_of.
  - destruct (comps3 _ _ W1 eq_refl) as [x1 [y1 [z1 C1]]]. destruct (comps3 _ _ W2 eq_refl) as [x2 [y2 [z2 C2]]].
    unfold sub3_f, with3. rewrite C1, C2. cbv zeta. rewrite rgb_truecolor_nf. eexists. split; [reflexivity|parts2].
  - destruct (comps3 _ _ W1 eq_refl) as [x1 [y1 [z1 C1]]]. destruct (comps3 _ _ W2 eq_refl) as [x2 [y2 [z2 C2]]].
    unfold sub3_f, with3. rewrite C1, C2. cbv zeta. rewrite rgb_deepcolor_nf. eexists. split; [reflexivity|parts2].
  - destruct (comps1 _ _ W1 eq_refl) as [? C1]. destruct (comps1 _ _ W2 eq_refl) as [? C2].
    unfold sub1_f, with1. rewrite C1, C2. cbv zeta. rewrite grey_truecolor_nf. eexists. split; [reflexivity|parts2].
  - destruct (comps1 _ _ W1 eq_refl) as [? C1]. destruct (comps1 _ _ W2 eq_refl) as [? C2].
    unfold sub1_f, with1. rewrite C1, C2. cbv zeta. rewrite grey_deepcolor_nf. eexists. split; [reflexivity|parts2].
  - destruct (comps4 _ _ W1 eq_refl) as [x1 [y1 [z1 [k1 C1]]]]. destruct (comps4 _ _ W2 eq_refl) as [x2 [y2 [z2 [k2 C2]]]].
    unfold sub_cmyk_f, with4. rewrite C1, C2. cbv zeta. rewrite cmyk_nf. eexists. split; [reflexivity|parts2].
  - destruct (comps3 _ _ W1 eq_refl) as [x1 [y1 [z1 C1]]]. destruct (comps3 _ _ W2 eq_refl) as [x2 [y2 [z2 C2]]].
    unfold sub3_f, with3. rewrite C1, C2. cbv zeta. rewrite xyz_nf. eexists. split; [reflexivity|parts2].
  - destruct (comps3 _ _ W1 eq_refl) as [x1 [y1 [z1 C1]]]. destruct (comps3 _ _ W2 eq_refl) as [x2 [y2 [z2 C2]]].
    unfold sub3_f, with3. rewrite C1, C2. cbv zeta. rewrite xyy_nf. eexists. split; [reflexivity|parts2].
  - destruct (comps3 _ _ W1 eq_refl) as [x1 [y1 [z1 C1]]]. destruct (comps3 _ _ W2 eq_refl) as [x2 [y2 [z2 C2]]].
    unfold sub3_f, with3. rewrite C1, C2. cbv zeta. rewrite cieluv_nf. eexists. split; [reflexivity|parts2].
Qed.

(** ** Exchanging the arguments *)
Hypothesis add_sym : forall x y : F, fadd x y = fadd y x.

Lemma lin_sym w1 w2 a b : add_lin w1 w2 a b = add_lin w2 w1 b a.
Proof. unfold add_lin. apply add_sym. Qed.
Lemma root_sym w1 w2 a b : add_root w1 w2 a b = add_root w2 w1 b a.
Proof. unfold add_root. rewrite add_sym. reflexivity. Qed.
Lemma addc_sym X w1 w2 a b : addc X w1 w2 a b = addc X w2 w1 b a.
Proof. unfold addc. destruct X; first [apply root_sym|apply lin_sym]. Qed.

Lemma list_ext (l m : list F) : length l = length m -> (forall i x y, nth_error l i = Some x -> nth_error m i = Some y -> x = y) -> l = m.
Proof.
  revert m. induction l as [|a l IH]; intros [|b m] L H; try discriminate L; [reflexivity|]. f_equal; [apply (H 0%nat); reflexivity|].
  apply IH; [injection L; auto|]. intros i. apply (H (S i)).
Qed.
Lemma nth_some (l : list F) i n : length l = n -> (i < n)%nat -> exists x, nth_error l i = Some x.
Proof. intros L H. destruct (nth_error l i) as [x|] eqn:E; [exists x; reflexivity|]. apply nth_error_None in E. lia. Qed.

Lemma add_exchange X w1 w2 ia (h : heap) p1 p2 c1 c2 : In X own_types -> bad_weight w1 = false -> bad_weight w2 = false ->
  at_addr h p1 c1 -> at_addr h p2 c2 -> wf_color X c1 -> wf_color X c2 ->
  agree ia (typed_add X (Some p1) (Some p2) w1 w2 ia) (typed_add X (Some p2) (Some p1) w2 w1 ia) h.
Proof.
  intros [<-|P] G1 G2 H1 H2 W1 W2.
  - destruct (comps3 _ _ W1 eq_refl) as [x1 [y1 [z1 C1]]]. destruct (comps3 _ _ W2 eq_refl) as [x2 [y2 [z2 C2]]].
    cbn [typed_add]. unfold add_hsv, check2, agree. rewrite G1, G2.
    do 6 eexists. split; [eapply (new2_run HSV); try eassumption; unfold add_hsv_f, with3; rewrite C1, C2; unfold convert_to_vector, convert_from_vector; cbv zeta; rewrite hsv_nf; reflexivity|].
    split; [apply at_new|].
    split; [eapply (new2_run HSV); try eassumption; unfold add_hsv_f, with3; rewrite C1, C2; unfold convert_to_vector, convert_from_vector; cbv zeta; rewrite hsv_nf; reflexivity|].
    split; [apply at_new|]. split; [reflexivity|]. cbn [comps m_alpha].
    split; [rewrite !(lin_sym w2 w1); reflexivity|]. intros ->. apply lin_sym.
  - destruct (add_runs X w1 w2 ia h p1 p2 c1 c2 P G1 G2 H1 H2 W1 W2) as [q1 [r1 [h1 [E1 [A1 [T1 [L1 [S1 [K1 B1]]]]]]]]].
    destruct (add_runs X w2 w1 ia h p2 p1 c2 c1 P G2 G1 H2 H1 W2 W1) as [q2 [r2 [h2 [E2 [A2 [T2 [L2 [S2 [K2 B2]]]]]]]]].
    exists q1, r1, h1, q2, r2, h2. do 4 (split; [assumption|]). split; [congruence|]. split.
    + apply list_ext; [congruence|]. intros i x y Ex Ey.
      assert (I : (i < arity X)%nat) by (rewrite <- L1; apply nth_error_Some; congruence).
      destruct (nth_some (comps c1) i _ (wf_len _ _ W1) I) as [a Ea]. destruct (nth_some (comps c2) i _ (wf_len _ _ W2) I) as [b Eb].
      specialize (K1 i a b Ea Eb). specialize (K2 i b a Eb Ea). rewrite (addc_sym X w1 w2 a b) in K1. congruence.
    + intros ->. rewrite B1, B2, (addc_sym X w1 w2). reflexivity.
Qed.
End Laws.
