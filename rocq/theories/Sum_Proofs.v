(** * color_calculation in exact arithmetic: sums, differences, hue circles *)
From Coq Require Import ZArith QArith Reals Lra Lia List Bool.
From Verif Require Import Arith Outcome ColorModel GammaModel MatrixModel SpaceModel Heap Converter Calculation
  Spec RArith Laws NormalForms Core_Proofs Core2_Proofs Alpha8 Spec_Matrix Spec_Conv Spec_Calc Spec_Formula Spec_Sum
  Conv_Proofs Conv2_Proofs Conv3_Proofs HueR_Proofs Round_Proofs Calc_Proofs Calc3_Proofs Formula_Proofs Polar_Proofs Formula3_Proofs.
Import ListNotations.
Local Open Scope R_scope.

Definition cuts (X : ctype) (l : list R) (a : R) (sp : option nat) (m : outcome (color R)) : Prop :=
  exists r, m = Ok r /\ ty r = X /\ comps r = l /\ alpha r = into_alpha X a /\ rgb_space r = sp.
Definition cut3 (X : ctype) (mk : R -> R -> R -> R -> option nat -> outcome (color R)) : Prop :=
  forall x y z a sp, cuts X [into X 0 x; into X 1 y; into X 2 z] a sp (mk x y z a sp).
Definition cut1 (X : ctype) (mk : R -> R -> option nat -> outcome (color R)) : Prop :=
  forall x a sp, cuts X [into X 0 x] a sp (mk x a sp).

Ltac stored2 := eexists; split; [reflexivity|]; split; [reflexivity|]; split; [|split; [|reflexivity]].
Ltac opened := unfold cut3, cut1; intros; unfold into, into_alpha; cbn [comp_range fst snd eight_bit].

Lemma alpha8_cut a : 255 * @c01 R RArith (a / 255) = cut 0 255 a.
Proof.
  rewrite c01_cut. unfold cut. unfold Rmax, Rmin. destruct (Rle_dec 1 (a / 255)), (Rle_dec 255 a); try (exfalso; lra); repeat destruct (Rle_dec _ _); lra.
Qed.
Lemma rgb_true_cut : cut3 RGB_TRUE (rgb_truecolor (AF := RArith)).
Proof.
  opened. rewrite rgb_truecolor_nf. stored2.
  - cbn [comps]. rewrite !c255_cut. reflexivity.
  - unfold alpha. cbn [cls m_alpha]. unfold base_alpha. cbn [cls m_alpha]. rn. rewrite Rmult_comm. apply alpha8_cut.
Qed.
Lemma grey_true_cut : cut1 GREY_TRUE (grey_truecolor (AF := RArith)).
Proof.
  opened. rewrite grey_truecolor_nf. stored2.
  - cbn [comps]. rewrite !c255_cut. reflexivity.
  - unfold alpha. cbn [cls m_alpha]. unfold base_alpha. cbn [cls m_alpha]. rn. rewrite Rmult_comm. apply alpha8_cut.
Qed.
Lemma rgb_deep_cut : cut3 RGB_DEEP (rgb_deepcolor (AF := RArith)).
Proof. opened. rewrite rgb_deepcolor_nf. stored2; [|reflexivity]. cbn [comps]. rewrite !c01_cut. reflexivity. Qed.
Lemma grey_deep_cut : cut1 GREY_DEEP (grey_deepcolor (AF := RArith)).
Proof. opened. rewrite grey_deepcolor_nf. stored2; [|reflexivity]. cbn [comps]. rewrite !c01_cut. reflexivity. Qed.
Lemma cmyk_cut x y z k a sp : cuts CMYK [into CMYK 0 x; into CMYK 1 y; into CMYK 2 z; into CMYK 3 k] a sp (cmyk (AF := RArith) x y z k a sp).
Proof. opened. rewrite cmyk_nf. stored2; [|reflexivity]. cbn [comps]. rewrite !c01_cut. reflexivity. Qed.
Lemma xyz_cut : cut3 XYZ (xyz (AF := RArith)).
Proof. opened. rewrite xyz_nf. stored2; [|reflexivity]. cbn [comps]. rewrite !c100_cut. reflexivity. Qed.
Lemma xyy_cut : cut3 XYY (xyy (AF := RArith)).
Proof. opened. rewrite xyy_nf. stored2; [|reflexivity]. cbn [comps]. rewrite !c100_cut. reflexivity. Qed.
Lemma cieluv_cut : cut3 CIELUV (cieluv (AF := RArith)).
Proof. opened. rewrite cieluv_nf. stored2; [|reflexivity]. cbn [comps]. rewrite !c100_cut, !cut_clamp by lra. reflexivity. Qed.

Lemma add_rootR2 w v a b : @add_root R RArith w v a b = sqrt (w * (a * a) + v * (b * b)).
Proof. unfold add_root. rn. rewrite !pow2. reflexivity. Qed.

Lemma cut_again lo hi x : lo <= hi -> cut lo hi (Rmin (Rmax x lo) hi) = cut lo hi x.
Proof. intros H. unfold cut. unfold Rmax, Rmin. repeat destruct (Rle_dec _ _); lra. Qed.

Section Combine.
Variables (X : ctype) (ia : bool) (h : heap R) (p1 p2 : nat) (c1 c2 : color R).
Hypothesis H1 : at_addr h p1 c1.
Hypothesis H2 : at_addr h p2 c2.
Hypothesis W1 : wf_color X c1.
Hypothesis W2 : wf_color X c2.
Hypothesis A1 : eight_bit X = true -> 0 <= m_alpha c1 <= 1.

Lemma own_alpha : into_alpha X (alpha c1) = alpha c1.
Proof.
  unfold into_alpha. destruct (eight_bit X) eqn:E; [|reflexivity]. rewrite (alpha_eight c1 X W1 E). cbn [fmul RArith]. rewrite fzR.
  apply cut_id. specialize (A1 eq_refl). lra.
Qed.

(** What remains to be shown about a function on two colours. *)
Lemma combined_new f (g : R -> R -> R) :
  (exists l, cuts X l (if ia then g (alpha c1) (alpha c2) else alpha c1) (rgb_space c1) (f c1 c2) /\ length l = arity X /\
    forall i a b, nth_error (comps c1) i = Some a -> nth_error (comps c2) i = Some b -> nth_error l i = Some (into X i (g a b))) ->
  returns (new2 X f (Some p1) (Some p2)) h (combined X ia g c1 c2).
Proof.
  intros [l [[r [E [T [C [A S]]]]] [L P]]]. exists (length (colors h)), r, (Heap (colors h ++ [r]) (spaces h)).
  split; [apply (new2_run X f h p1 p2 c1 c2 r H1 H2 W1 W2 E)|]. split; [apply at_new|]. split; [exact T|]. rewrite C.
  split; [exact L|]. split; [exact P|]. split; [|exact S]. rewrite A. destruct ia; [reflexivity|apply own_alpha].
Qed.
End Combine.

Lemma Some_inv {A} (a b : A) : Some a = Some b -> a = b.
Proof. intros E. injection E. auto. Qed.
Ltac step_index i E1 E2 := destruct i as [|i]; cbn [nth_error] in E1, E2; [apply Some_inv in E1; apply Some_inv in E2; subst; reflexivity|].
Ltac by_index := let i := fresh "i" in let E1 := fresh "E" in let E2 := fresh "E" in
  intros i ? ? E1 E2; repeat (step_index i E1 E2); destruct i; discriminate E1.
Ltac three W1 W2 := let E1 := fresh "E" in let E2 := fresh "E" in
  destruct (comps3 _ _ W1 eq_refl) as [?x1 [?y1 [?z1 E1]]]; destruct (comps3 _ _ W2 eq_refl) as [?x2 [?y2 [?z2 E2]]];
  unfold with3; rewrite E1, E2 in *; cbv zeta.
Ltac one W1 W2 := let E1 := fresh "E" in let E2 := fresh "E" in
  destruct (comps1 _ _ W1 eq_refl) as [?x1 E1]; destruct (comps1 _ _ W2 eq_refl) as [?x2 E2];
  unfold with1; rewrite E1, E2 in *; cbv zeta.
Ltac four W1 W2 := let E1 := fresh "E" in let E2 := fresh "E" in
  destruct (comps4 _ _ W1 eq_refl) as [?x1 [?y1 [?z1 [?k1 E1]]]]; destruct (comps4 _ _ W2 eq_refl) as [?x2 [?y2 [?z2 [?k2 E2]]]];
  unfold with4; rewrite E1, E2 in *; cbv zeta.

Lemma Ok_inv {A} (a b : A) : Ok a = Ok b -> a = b.
Proof. intros E. injection E. auto. Qed.
Lemma cuts_again3 r g b a sp l : cuts RGB_TRUE l a sp (rgb_truecolor (AF := RArith) r g b a sp) ->
  cuts RGB_TRUE l a sp (rgb_truecolor (AF := RArith) (Rmin (Rmax r 0) 255) (Rmin (Rmax g 0) 255) (Rmin (Rmax b 0) 255) (Rmin (Rmax a 0) 255) sp).
Proof.
  rewrite !rgb_truecolor_nf. intros [x [E [T [C [A S]]]]]. apply Ok_inv in E. subst x. cbn [ty comps rgb_space] in *.
  stored2; [|].
  - cbn [comps]. rewrite <- C. rewrite !c255_cut, !cut_again by lra. reflexivity.
  - rewrite <- A. unfold alpha, base_alpha. cbn [cls m_alpha]. rn. f_equal.
    pose proof (alpha8_cut a) as Q. pose proof (alpha8_cut (Rmin (Rmax a 0) 255)) as Q'. rewrite cut_again in Q' by lra. lra.
Qed.
Lemma cuts_again1 v a sp l : cuts GREY_TRUE l a sp (grey_truecolor (AF := RArith) v a sp) ->
  cuts GREY_TRUE l a sp (grey_truecolor (AF := RArith) (Rmin (Rmax v 0) 255) (Rmin (Rmax a 0) 255) sp).
Proof.
  rewrite !grey_truecolor_nf. intros [x [E [T [C [A S]]]]]. apply Ok_inv in E. subst x. cbn [ty comps rgb_space] in *.
  stored2; [|].
  - cbn [comps]. rewrite <- C. rewrite !c255_cut, !cut_again by lra. reflexivity.
  - rewrite <- A. unfold alpha, base_alpha. cbn [cls m_alpha]. rn. f_equal.
    pose proof (alpha8_cut a) as Q. pose proof (alpha8_cut (Rmin (Rmax a 0) 255)) as Q'. rewrite cut_again in Q' by lra. lra.
Qed.

Lemma add_combined X w1 w2 ia (h : heap R) p1 p2 c1 c2 : In X plain_types -> 0 <= w1 <= 1 -> 0 <= w2 <= 1 ->
  at_addr h p1 c1 -> at_addr h p2 c2 -> wf_color X c1 -> wf_color X c2 -> (eight_bit X = true -> 0 <= m_alpha c1 <= 1) ->
  returns (typed_add X (Some p1) (Some p2) w1 w2 ia) h (combined X ia (weighted_sum X w1 w2) c1 c2).
Proof.
  intros HX B1 B2 H1 H2 W1 W2 A1.
  assert (Bw : @bad_weight R RArith w1 = false) by (apply bad_weightR, B1).
  assert (Bv : @bad_weight R RArith w2 = false) by (apply bad_weightR, B2).
  unfold plain_types in HX. simpl in HX.
  destruct HX as [<-|[<-|[<-|[<-|[<-|[<-|[<-|[<-|[]]]]]]]]]; cbn [typed_add];
    unfold add_rgb_true, add_rgb_deep, add_grey_true, add_grey_deep, add_cmyk, add_xyz, add_xyy, add_cieluv, check2; rewrite Bw, Bv;
    apply combined_new; auto; clear Bw Bv.
  - unfold add_rgb_true_f. three W1 W2. rewrite !add_rootR2. eexists.
    split; [cbn [fmin fmax RArith]; rewrite !fzR; apply cuts_again3, rgb_true_cut|split; [reflexivity|by_index]].
  - unfold add_rgb_deep_f. three W1 W2. rewrite !add_rootR2. eexists. split; [apply rgb_deep_cut|split; [reflexivity|by_index]].
  - unfold add_grey_true_f. one W1 W2. unfold add_lin. eexists.
    split; [cbn [fmin fmax RArith]; rewrite !fzR; apply cuts_again1, grey_true_cut|split; [reflexivity|by_index]].
  - unfold add_grey_deep_f. one W1 W2. eexists. split; [apply grey_deep_cut|split; [reflexivity|by_index]].
  - unfold add_cmyk_f. four W1 W2. eexists. split; [apply cmyk_cut|split; [reflexivity|by_index]].
  - unfold add3_f. three W1 W2. eexists. split; [apply xyz_cut|split; [reflexivity|by_index]].
  - unfold add3_f. three W1 W2. eexists. split; [apply xyy_cut|split; [reflexivity|by_index]].
  - unfold add3_f. three W1 W2. eexists. split; [apply cieluv_cut|split; [reflexivity|by_index]].
Qed.

Lemma subtract_combined X w ia (h : heap R) p1 p2 c1 c2 : In X plain_types -> 0 <= w <= 1 ->
  at_addr h p1 c1 -> at_addr h p2 c2 -> wf_color X c1 -> wf_color X c2 -> (eight_bit X = true -> 0 <= m_alpha c1 <= 1) ->
  returns (typed_subtract X (Some p1) (Some p2) w ia) h (combined X ia (fun a b => a - w * b) c1 c2).
Proof.
  intros HX B1 H1 H2 W1 W2 A1.
  assert (Bw : @bad_weight R RArith w = false) by (apply bad_weightR, B1).
  unfold plain_types in HX. simpl in HX.
  destruct HX as [<-|[<-|[<-|[<-|[<-|[<-|[<-|[<-|[]]]]]]]]]; cbn [typed_subtract];
    unfold subtract_rgb_true, subtract_rgb_deep, subtract_grey_true, subtract_grey_deep, subtract_cmyk, subtract_xyz, subtract_xyy, subtract_cieluv, check1;
    rewrite Bw; apply (combined_new _ ia h p1 p2 c1 c2 H1 H2 W1 W2 A1); clear Bw.
  - unfold sub3_f. three W1 W2. eexists. split; [apply rgb_true_cut|split; [reflexivity|by_index]].
  - unfold sub3_f. three W1 W2. eexists. split; [apply rgb_deep_cut|split; [reflexivity|by_index]].
  - unfold sub1_f. one W1 W2. eexists. split; [apply grey_true_cut|split; [reflexivity|by_index]].
  - unfold sub1_f. one W1 W2. eexists. split; [apply grey_deep_cut|split; [reflexivity|by_index]].
  - unfold sub_cmyk_f. four W1 W2. eexists. split; [apply cmyk_cut|split; [reflexivity|by_index]].
  - unfold sub3_f. three W1 W2. eexists. split; [apply xyz_cut|split; [reflexivity|by_index]].
  - unfold sub3_f. three W1 W2. eexists. split; [apply xyy_cut|split; [reflexivity|by_index]].
  - unfold sub3_f. three W1 W2. eexists. split; [apply cieluv_cut|split; [reflexivity|by_index]].
Qed.

(** ** The hue circle *)
Lemma hsv_from x y v a sp : exists r, hsv (AF := RArith) (Ratan2 y x * 180 / PI) (sqrt (x * x + y * y)) v a sp = Ok r /\
  ty r = HSV /\ hsv_at x y v (comps r) /\ m_alpha r = a /\ alpha r = a /\ rgb_space r = sp.
Proof.
  rewrite (hsv_nf (AL := RLaws)). eexists. split; [reflexivity|]. split; [reflexivity|]. split; [|repeat split]. cbn [comps].
  rewrite !c01_cut. destruct (atan2_range y x) as [L U]. destruct (Ratan2_polar y x) as [P Q]. pose proof PI_RGT_0 as Pp.
  set (t := Ratan2 y x) in *.
  assert (E : t = t * 180 / PI * PI / 180) by (field; lra). set (d := t * 180 / PI) in *.
  assert (Ld : - 180 < d) by (apply (Rmult_lt_reg_r (PI / 180)); [lra|]; lra).
  assert (Ud : d <= 180) by (apply (Rmult_le_reg_r (PI / 180)); [lra|]; lra).
  destruct (Rlt_dec d 0) as [N|N].
  - rewrite hue_norm_neg by lra. exists (d + 360), (sqrt (x * x + y * y)). split; [|reflexivity].
    split; [apply sqrt_pos|]. split; [lra|].
    replace ((d + 360) * PI / 180) with (t + 2 * PI) by lra. rewrite cos_plus, sin_plus, cos_2PI, sin_2PI.
    replace (cos t * 1 - sin t * 0) with (cos t) by ring. replace (sin t * 1 + cos t * 0) with (sin t) by ring. split; assumption.
  - rewrite hue_norm_pos by lra. exists d, (sqrt (x * x + y * y)). split; [|reflexivity].
    split; [apply sqrt_pos|]. split; [lra|]. rewrite <- E. split; assumption.
Qed.

Lemma circle_code (hue s v : R) : convert_to_vector (AF := RArith) hue s v = (fst (circle hue s), snd (circle hue s), v).
Proof.
  unfold convert_to_vector, circle. cbn [fcos fsin fpi fmul fdiv RArith fst snd]. rn. rewrite (Rmult_comm s), (Rmult_comm s).
  replace (hue / 180 * PI) with (hue * PI / 180) by field. reflexivity.
Qed.

Lemma add_hsv_circle w1 w2 ia (h : heap R) p1 p2 c1 c2 h1 s1 v1 h2 s2 v2 : 0 <= w1 <= 1 -> 0 <= w2 <= 1 ->
  at_addr h p1 c1 -> at_addr h p2 c2 -> wf_color HSV c1 -> wf_color HSV c2 -> comps c1 = [h1; s1; v1] -> comps c2 = [h2; s2; v2] ->
  returns (add_hsv (Some p1) (Some p2) w1 w2 ia) h (fun r => ty r = HSV /\
    (let '(x1, y1) := circle h1 s1 in let '(x2, y2) := circle h2 s2 in
     hsv_at (w1 * x1 + w2 * x2) (w1 * y1 + w2 * y2) (w1 * v1 + w2 * v2) (comps r)) /\
    alpha r = (if ia then w1 * alpha c1 + w2 * alpha c2 else alpha c1) /\ rgb_space r = rgb_space c1).
Proof.
  intros B1 B2 H1 H2 W1 W2 E1 E2. unfold add_hsv, check2. rewrite !bad_weightR by assumption.
  pose proof (hsv_from (w1 * fst (circle h1 s1) + w2 * fst (circle h2 s2)) (w1 * snd (circle h1 s1) + w2 * snd (circle h2 s2)) (w1 * v1 + w2 * v2)
    (if ia then w1 * alpha c1 + w2 * alpha c2 else alpha c1) (rgb_space c1)) as [r [E [T [C [_ [A S]]]]]].
  exists (length (colors h)), r, (Heap (colors h ++ [r]) (spaces h)). split; [|split; [apply at_new|]].
  - apply (new2_run HSV _ h p1 p2 c1 c2 r H1 H2 W1 W2). unfold add_hsv_f, with3. rewrite E1, E2, !circle_code. unfold add_lin, convert_from_vector.
    cbn [fcos fsin fpi fmul fdiv fadd fsqrt fpow fatan2 RArith]. rewrite !fzR, !pow2. exact E.
  - split; [exact T|]. split; [exact C|]. split; [exact A|exact S].
Qed.
Lemma mix_hsv_circle w ia (h : heap R) p1 p2 c1 c2 h1 s1 v1 h2 s2 v2 : 0 <= w <= 1 ->
  at_addr h p1 c1 -> at_addr h p2 c2 -> wf_color HSV c1 -> wf_color HSV c2 -> comps c1 = [h1; s1; v1] -> comps c2 = [h2; s2; v2] ->
  returns (mix_hsv (Some p1) (Some p2) w ia) h (fun r => ty r = HSV /\
    (let '(x1, y1) := circle h1 s1 in let '(x2, y2) := circle h2 s2 in
     hsv_at (w * x1 + (1 - w) * x2) (w * y1 + (1 - w) * y2) (w * v1 + (1 - w) * v2) (comps r)) /\
    alpha r = (if ia then w * alpha c1 + (1 - w) * alpha c2 else alpha c1) /\ rgb_space r = rgb_space c1).
Proof.
  intros B1 H1 H2 W1 W2 E1 E2. unfold mix_hsv, check1. rewrite !bad_weightR by assumption.
  change (fsub (fz 1) w) with (@fz R RArith 1 - w). rewrite fzR.
  apply (add_hsv_circle w (1 - w) ia h p1 p2 c1 c2 h1 s1 v1 h2 s2 v2); auto; lra.
Qed.
Lemma subtract_hsv_circle w ia (h : heap R) p1 p2 c1 c2 h1 s1 v1 h2 s2 v2 : 0 <= w <= 1 ->
  at_addr h p1 c1 -> at_addr h p2 c2 -> wf_color HSV c1 -> wf_color HSV c2 -> comps c1 = [h1; s1; v1] -> comps c2 = [h2; s2; v2] ->
  returns (subtract_hsv (Some p1) (Some p2) w ia) h (fun r => ty r = HSV /\
    (let '(x1, y1) := circle h1 s1 in let '(x2, y2) := circle h2 s2 in
     hsv_at (x1 - w * x2) (y1 - w * y2) (v1 - w * v2) (comps r)) /\
    alpha r = (if ia then alpha c1 - w * alpha c2 else alpha c1) /\ rgb_space r = rgb_space c1).
Proof.
  intros B1 H1 H2 W1 W2 E1 E2. unfold subtract_hsv, check1. rewrite !bad_weightR by assumption.
  pose proof (hsv_from (fst (circle h1 s1) - w * fst (circle h2 s2)) (snd (circle h1 s1) - w * snd (circle h2 s2)) (v1 - w * v2)
    (if ia then alpha c1 - w * alpha c2 else alpha c1) (rgb_space c1)) as [r [E [T [C [_ [A S]]]]]].
  exists (length (colors h)), r, (Heap (colors h ++ [r]) (spaces h)). split; [|split; [apply at_new|]].
  - apply (new2_run HSV _ h p1 p2 c1 c2 r H1 H2 W1 W2). unfold sub_hsv_f, with3. rewrite E1, E2, !circle_code. unfold sub_lin, convert_from_vector.
    cbn [fcos fsin fpi fmul fdiv fadd fsub fsqrt fpow fatan2 RArith]. rewrite !fzR, !pow2. exact E.
  - split; [exact T|]. split; [exact C|]. split; [exact A|exact S].
Qed.
