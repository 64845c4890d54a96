(** * Adjustments in HSL seen from RGB (C215) *)
From Coq Require Import ZArith QArith Reals Lra Lia List Bool.
From Flocq Require Import Core IEEE754.BinarySingleNaN.
From Verif Require Import Calculation Blend Adjust Spec_Calc Spec_Blend Spec_Adjust Calc_Proofs Adjust_Proofs Adjust2_Proofs.
From Verif Require Import Arith Outcome ColorModel GammaModel MatrixModel SpaceModel Heap Converter F32 F32Facts RArith
  Spec Spec32 Laws NormalForms Alpha8 Core_Proofs Core2_Proofs Core3_Proofs Core4_Proofs Hue32 Spec_Matrix Spec_Conv Spec_Round
  Conv_Proofs Conv2_Proofs Conv3_Proofs Run_Proofs HueR_Proofs Round_Proofs Round2_Proofs Error_Proofs Error2_Proofs Error3_Proofs Error4_Proofs Error8_Proofs
  Spec_Error Spec_Formula Formula_Proofs Formula2_Proofs Spec_Stretch Spec_Calc.
Import ListNotations.
Local Open Scope R_scope.

(** ** The formulas *)
Lemma scale_clamp S a b : 0 < S -> Rmax 0 (Rmin (S * a) (S * b)) = S * Rmax 0 (Rmin a b).
Proof. intros P. unfold Rmax, Rmin. repeat destruct (Rle_dec _ _); nra. Qed.
Section Formulas.
Variables (r g b : R).
Hypothesis (Br : 0 <= r <= 1) (Bg : 0 <= g <= 1) (Bb : 0 <= b <= 1).
Local Notation M := (largest r g b).
Local Notation m := (smallest r g b).
Local Notation L := (middle r g b).
Definition sat_of : R := if Req_EM_T M m then 0 else (M - m) / (1 - Rabs (M + m - 1)).
Lemma spread_hue C k L' : C = k * (M - m) ->
  lifted (hexagon_rgb (Rmin (hexagon_hue r g b) 359) C) (L' - C / 2) = map (fun x => L' + k * (x - L)) [r; g; blue_back r g b].
Proof.
  intros ->. unfold middle. rewrite largest_mx, smallest_mn.
  pose proof (mx3_ge r g b) as [X1 [X2 X3]]. pose proof (mn3_le r g b) as [N1 [N2 N3]].
  destruct (Req_EM_T (mx3 r g b) (mn3 r g b)) as [E|E].
  - rewrite (blue_grey r g b E). rewrite E. replace (k * (mn3 r g b - mn3 r g b)) with 0 by ring.
    assert (Z : hexagon_rgb (Rmin (hexagon_hue r g b) 359) 0 = (0, 0, 0)).
    { rewrite (hue_grey r g b E), Rmin_left by lra. rewrite hexagon_unit by lra. rewrite !Rmult_0_l. reflexivity. }
    rewrite Z. cbn [lifted map]. assert (r = mn3 r g b) by lra. assert (g = mn3 r g b) by lra. assert (b = mn3 r g b) by lra.
    repeat apply (f_equal2 cons); try reflexivity; nra.
  - destruct (exact_hue r g b ltac:(lra)) as [Bt [E1 [E2 E3]]]. unfold hueR in Bt, E1, E2, E3. rewrite (hue_published r g b E) in Bt, E1, E2, E3.
    rewrite hexagon_unit by lra. cbn [lifted map].
    repeat apply (f_equal2 cons); try reflexivity; nra.
Qed.
Lemma mid_bounds : 0 <= m <= M /\ M <= 1 /\ 0 <= L <= 1.
Proof. unfold middle. rewrite largest_mx, smallest_mn. pose proof (mx3_in r g b). pose proof (mn3_in r g b). pose proof (mx3_ge r g b). pose proof (mn3_le r g b). lra. Qed.
Lemma room : 1 - Rabs (M + m - 1) = 2 * Rmin L (1 - L).
Proof. replace (M + m) with (2 * L) by (unfold middle; lra). apply min_abs. Qed.
Lemma room_half : (M - m) / 2 <= Rmin L (1 - L).
Proof. destruct mid_bounds as [H1 [H2 H3]]. apply Rmin_glb; unfold middle; lra. Qed.
Lemma sat_bounds : 0 <= sat_of <= 1.
Proof.
  unfold sat_of. destruct (Req_EM_T M m) as [E|E]; [lra|]. destruct mid_bounds as [H1 [H2 H3]]. pose proof room_half. rewrite room. apply div_bounds; lra.
Qed.
Lemma chroma_sat p : (1 - Rabs (2 * L - 1)) * unit_clamp (sat_of * (1 + p)) = stretch SaturateHSL p r g b * (M - m).
Proof.
  cbn [stretch]. rewrite min_abs. destruct mid_bounds as [H1 [H2 H3]]. pose proof room_half as RH. pose proof room as R0. unfold sat_of.
  destruct (Req_EM_T M m) as [E|E].
  - rewrite Rmult_0_l, unit_clamp_id by lra. rewrite E. ring.
  - rewrite R0. set (D := (M - m) / 2) in * . assert (PD : 0 < D) by (unfold D; lra). set (mu := Rmin L (1 - L)) in * .
    replace (M - L) with D by (unfold D, middle; lra). replace (M - m) with (2 * D) by (unfold D; lra). unfold unit_clamp.
    replace (2 * D / (2 * mu) * (1 + p)) with (D / mu * (1 + p)) by (field; lra).
    replace (Rmin (D / mu * (1 + p)) 1) with (Rmin (D / mu * (1 + p)) (D / mu * (mu / D))) by (f_equal; field; lra).
    rewrite scale_clamp by (apply Rdiv_lt_0_compat; lra). field. lra.
Qed.
Lemma chroma_lum p : (1 - Rabs (2 * middle_after LuminateHSL p r g b - 1)) * sat_of = stretch LuminateHSL p r g b * (M - m).
Proof.
  cbn [stretch]. rewrite min_abs. destruct mid_bounds as [H1 [H2 H3]]. pose proof room_half as RH. pose proof room as R0. unfold sat_of.
  destruct (Req_EM_T M m) as [E|E]; [rewrite E; ring|]. rewrite R0. field. lra.
Qed.
End Formulas.

(** ** The functions *)
Lemma adjust_by {F} {AF : Arith F} {AL : ArithLaws F} a p (h h1 : heap F) i c q d hue s l X : in_hsl a = true -> feq p (fz 0) = false ->
  at_addr h1 i c -> wf_color X c -> X <> HSL -> to_hsl (Some i) h = (Ok (Some q), h1) -> at_addr h1 q d -> wf_color HSL d -> comps d = [hue; s; l] ->
  exists v h2, wf_color HSL v /\ comps v = match a with LuminateHSL => [hue; s; c01 (fmul l (fadd (fz 1) p))] | _ => [hue; c01 (fmul s (fadd (fz 1) p)); l] end /\
    rgb_space v = rgb_space d /\ m_alpha v = m_alpha d /\ at_addr h2 q v /\ adjust a (Some i) p h = convertTo (Some q) X h2.
Proof.
  intros Ha P H W NX R Aa Wd Ed.
  set (j := hsl_component a). assert (Hj : (j = 1 \/ j = 2)%nat) by (unfold j; destruct a; cbn; auto).
  assert (exists w, raw_comp d j = Ok w /\ w = match a with LuminateHSL => l | _ => s end) as [w [Ew Vw]].
  { unfold raw_comp, j. rewrite Ed. destruct a; try discriminate Ha; eexists; split; reflexivity. }
  destruct (named_set_ok HSL d (fmul w (fadd (fz 1) p)) j Wd) as [v [Ev [Wv [Av Sv]]]]; [destruct Hj as [-> | ->]; simpl; lia|].
  set (h2 := Heap (upd q v (colors h1)) (spaces h1)). assert (A2 : at_addr h2 q v) by apply (at_upd h1 q d v Aa).
  exists v, h2. split; [exact Wv|]. split.
  { pose proof Ev as Ev'. rewrite (hsl_set d _ _ hue s l Wd Ed Hj) in Ev'. apply Ok_inj in Ev'. rewrite <- Ev', Vw. unfold j. destruct a; try discriminate Ha; reflexivity. }
  split; [congruence|]. split; [congruence|]. split; [exact A2|].
  assert (D : q <> i). { intros ->. unfold at_addr in H, Aa. rewrite H in Aa. injection Aa as Aa. apply NX. rewrite <- (wf_ty _ _ W), <- (wf_ty _ _ Wd), Aa. reflexivity. }
  assert (L : at_addr h2 i c) by (unfold at_addr, h2; cbn [colors]; rewrite upd_nth_other by congruence; exact H).
  replace (adjust a (Some i) p h) with (adjust_hsl j (Some i) p h) by (unfold j; destruct a; try discriminate Ha; reflexivity).
  unfold adjust_hsl, bind. rewrite P. change (convertTo (Some i) HSL) with (to_hsl (Some i)). rewrite R.
  rewrite (load_as_ok h1 q d HSL Aa Wd). unfold lift. rewrite Ew. cbn [obind]. rewrite Ev.
  rewrite (store_ok h1 q d v Aa). fold h2. unfold load. unfold at_addr in L. rewrite L. rewrite (wf_ty _ _ W). reflexivity.
Qed.
Lemma to_hsl_run {F} {AF : Arith F} {AL : ArithLaws F} (h : heap F) i c P : at_addr h i c -> wf_color RGB_DEEP c -> yields to_hsl h i P ->
  exists q d h1, to_hsl (Some i) h = (Ok (Some q), h1) /\ at_addr h1 i c /\ at_addr h1 q d /\ wf_color HSL d /\ P d.
Proof.
  intros H W [q [m [h1 [E [A K]]]]]. destruct (rgb_deep_to_hsl_ok c W) as [d [Ed [Wd _]]].
  assert (D1 : dispatches to_hsl RGB_DEEP (leaf RGB_DEEP rgb_deep_to_hsl_f)) by disp.
  assert (R : to_hsl (Some i) h = (Ok (Some (length (colors h))), pushed h d)) by (rewrite (D1 h i c H (wf_ty _ _ W)); apply (leaf_run RGB_DEEP _ h i c d H W Ed)).
  rewrite R in E. assert (Eq : q = length (colors h)) by congruence. assert (Eh : h1 = pushed h d) by congruence. subst q h1.
  assert (Am : m = d). { assert (B : at_addr (pushed h d) (length (colors h)) d) by apply at_new. unfold at_addr in A, B. rewrite B in A. congruence. } subst m.
  exists (length (colors h)), d, (pushed h d). split; [exact R|]. split; [apply (proj2 (unchanged_new h d)), H|]. split; [exact A|]. split; assumption.
Qed.

Lemma stretch_exact a p (h : heap R) i c r g b : in_hsl a = true -> p <> 0 -> at_addr h i c -> wf_color RGB_DEEP c -> comps c = [r; g; b] ->
  returns (adjust a (Some i) p) h (fun t => ty t = RGB_DEEP /\ comps t = stretched a p r g b (blue_back r g b) /\
    (middle_after a p r g b <> 0 -> m_alpha t = m_alpha c) /\ rgb_space t = rgb_space c).
Proof.
  intros Ha Np H W Ec. destruct (deep_range c r g b W Ec) as [Br [Bg Bb]].
  destruct (to_hsl_run h i c _ H W (hsl_published h i c r g b H W Ec)) as [q [d [h1 [Rn [A1 [Aq [Wd [_ [Ed [Ad Sd]]]]]]]]]].
  assert (Ep : @feq R RArith p (fz 0) = false) by (rewrite fzR; apply Reqb_ne, Np).
  destruct (adjust_by a p h h1 i c q d _ _ _ RGB_DEEP Ha Ep A1 W ltac:(discriminate) Rn Aq Wd Ed) as [v [h2 [Wv [Ev [Sv [Av [A2 E]]]]]]].
  fold (sat_of r g b) in Ev. fold (middle r g b) in Ev. pose proof (mid_bounds r g b Br Bg Bb) as MB. pose proof (sat_bounds r g b Br Bg Bb) as SB.
  unfold returns. rewrite E. change (convertTo (Some q) RGB_DEEP) with (@to_rgb_deep R RArith (Some q)).
  assert (K : exists x s l, comps v = [x; s; l] /\ lifted (hexagon_rgb x ((1 - Rabs (2 * l - 1)) * s)) (l - ((1 - Rabs (2 * l - 1)) * s) / 2) = stretched a p r g b (blue_back r g b) /\ l = middle_after a p r g b).
  { destruct a; try discriminate Ha; rewrite Ev; do 3 eexists; (split; [reflexivity|]); rewrite clamp01.
    - split; [|reflexivity]. change (fmul (sat_of r g b) (fadd (fz 1) p)) with (sat_of r g b * (@fz R RArith 1 + p)). rewrite fzR. unfold stretched. apply (spread_hue r g b). apply chroma_sat; assumption.
    - change (fmul (middle r g b) (fadd (fz 1) p)) with (middle r g b * (@fz R RArith 1 + p)). rewrite fzR. split; [|reflexivity]. change (unit_clamp (middle r g b * (1 + p))) with (middle_after LuminateHSL p r g b).
      unfold stretched. apply (spread_hue r g b). apply chroma_lum; assumption. }
  destruct K as [x [s [l [Cv [KE Kl]]]]].
  destruct (from_hsl h2 q v x s l A2 Cv Wv _ eq_refl) as [q' [t [h3 [E3 [A3 [Tt [Ct [At St]]]]]]]].
  exists q', t, h3. split; [exact E3|]. split; [exact A3|]. split; [exact Tt|]. split; [congruence|]. split; [|congruence]. intros N. rewrite At by congruence. congruence.
Qed.

Lemma half_red : stretched SaturateHSL (- (1 / 2)) 1 0 0 0 = [3 / 4; 1 / 4; 1 / 4].
Proof.
  unfold stretched, middle_after, stretch, middle. rewrite largest_mx, smallest_mn. unfold mx3, mn3. cbn [map].
  repeat apply (f_equal2 cons); try reflexivity; unfold Rmax, Rmin; repeat destruct (Rle_dec _ _); lra.
Qed.
Lemma dark_red : stretched LuminateHSL (- (1 / 2)) 1 0 0 0 = [1 / 2; 0; 0].
Proof.
  unfold stretched, stretch, middle_after, middle, unit_clamp. rewrite largest_mx, smallest_mn. unfold mx3, mn3. cbn [map].
  repeat apply (f_equal2 cons); try reflexivity; unfold Rmax, Rmin; repeat destruct (Rle_dec _ _); lra.
Qed.
