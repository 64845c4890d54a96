(** * Adjustments in HSL seen from RGB, in binary32 (C216) *)
From Coq Require Import ZArith QArith Reals Lra Lia List Bool.
From Flocq Require Import Core IEEE754.BinarySingleNaN.
From Verif Require Import Calculation Blend Adjust Spec_Calc Spec_Blend Spec_Adjust Calc_Proofs Adjust_Proofs Adjust2_Proofs.
From Verif Require Import Arith Outcome ColorModel GammaModel MatrixModel SpaceModel Heap Converter F32 F32Facts RArith
  Spec Spec32 Laws NormalForms Alpha8 Core_Proofs Core2_Proofs Core3_Proofs Core4_Proofs Hue32 Spec_Matrix Spec_Conv Spec_Round
  Conv_Proofs Conv2_Proofs Conv3_Proofs Run_Proofs HueR_Proofs Round_Proofs Round2_Proofs Error_Proofs Error2_Proofs Error3_Proofs Error4_Proofs Error8_Proofs
  Spec_Error Spec_Formula Formula_Proofs Formula2_Proofs Spec_Channels Spec_Near Spec_Grey Sum_Proofs Grey32_Proofs Oneway2_Proofs Stable_Proofs Spec_Stretch Stretch_Proofs Spec_Calc.
Import ListNotations.
Local Open Scope R_scope.
Local Notation fin x := (is_finite x = true).

Lemma clamp_lip a b : Rabs (unit_clamp a - unit_clamp b) <= Rabs (a - b).
Proof. unfold unit_clamp, Rabs, Rmin, Rmax. repeat (destruct (Rle_dec _ _) || destruct (Rcase_abs _)); lra. Qed.
Lemma spread_move x x' C C' l l' : 0 <= x < 360 -> 0 <= x' < 360 -> 0 <= C <= 1 ->
  close_by (Rabs (x - x') / 60 + Rabs (C - C') / 2 + Rabs (l - l')) (lifted (hexagon_rgb x C) (l - C / 2)) (lifted (hexagon_rgb x' C') (l' - C' / 2)).
Proof.
  intros Bx Bx' BC. rewrite !hexagon_unit by assumption. destruct (unit_bounds (x / 60)) as [U1 [U2 U3]]. destruct (unit_bounds (x' / 60)) as [W1 [W2 W3]].
  assert (E : Rabs (x / 60 - x' / 60) = Rabs (x - x') / 60).
  { replace (x / 60 - x' / 60) with ((x - x') * / 60) by field. rewrite Rabs_mult, (Rabs_pos_eq (/ 60)) by lra. lra. }
  assert (K : forall w w', 0 <= w' <= 1 -> Rabs (w - w') <= Rabs (x - x') / 60 ->
    Rabs (C * w + (l - C / 2) - (C' * w' + (l' - C' / 2))) <= Rabs (x - x') / 60 + Rabs (C - C') / 2 + Rabs (l - l')).
  { intros w w' Bw Hw. replace (_ - _) with ((l - l') + (C * (w - / 2) - C' * (w' - / 2))) by field. eapply Rle_trans; [apply Rabs_triang|].
    assert (P : Rabs (C * (w - / 2) - C' * (w' - / 2)) <= 1 * Rabs (w - / 2 - (w' - / 2)) + / 2 * Rabs (C - C')) by (apply prod_lip; [rewrite Rabs_pos_eq; lra|apply Rabs_le; lra]).
    replace (w - / 2 - (w' - / 2)) with (w - w') in P by ring. lra. }
  unfold close_by, lifted. three; apply K; auto; rewrite <- E; [apply lip_r|apply (lip_m 2)|apply (lip_m 4)].
Qed.
Lemma chroma_move l l' s s' : 0 <= s <= 1 -> 0 <= l' <= 1 ->
  Rabs ((1 - Rabs (2 * l - 1)) * s - (1 - Rabs (2 * l' - 1)) * s') <= 2 * Rabs (l - l') + (1 - Rabs (2 * l' - 1)) * Rabs (s - s').
Proof.
  intros Bs Bl. set (m := 1 - Rabs (2 * l - 1)). set (m' := 1 - Rabs (2 * l' - 1)).
  assert (P : 0 <= m') by (unfold m', Rabs; destruct (Rcase_abs _); lra).
  assert (D : Rabs (m - m') <= 2 * Rabs (l - l')). { unfold m, m', Rabs. repeat destruct (Rcase_abs _); lra. }
  replace (m * s - m' * s') with ((m - m') * s + m' * (s - s')) by ring. eapply Rle_trans; [apply Rabs_triang|].
  rewrite !Rabs_mult, (Rabs_pos_eq m' P), (Rabs_pos_eq s) by lra. pose proof (Rabs_pos (m - m')). nra.
Qed.
Lemma channels_move l l' e t (d : color f32) : close_by t l l' -> channels l e d -> channels l' (e + t) d.
Proof.
  intros K H i v Hv. assert (exists w, nth_error l i = Some w /\ Rabs (w - v) <= t) as [w [Ew D]].
  { clear H. revert i Hv. induction K as [|a b l l' Hab K IH]; intros [|i] Hv; cbn in Hv; try discriminate; [apply Some_inv in Hv; subst; exists a; auto|exact (IH i Hv)]. }
  destruct (H i w Ew) as [x [Ex [Fx Dx]]]. exists x. split; [exact Ex|]. split; [exact Fx|]. apply Rabs_le_inv in D. apply Rabs_le_inv in Dx. apply Rabs_le. lra.
Qed.
Lemma yields_and {F} go (h : heap F) p (P Q : color F -> Prop) : yields go h p P -> yields go h p Q -> yields go h p (fun m => P m /\ Q m).
Proof.
  intros [q [m [h1 [E [A H]]]]] [q' [m' [h1' [E' [A' H']]]]]. rewrite E in E'. assert (Eq : q' = q) by congruence. assert (Eh : h1' = h1) by congruence. subst q' h1'.
  unfold at_addr in A, A'. rewrite A in A'. apply Some_inv in A'. subst m'. exists q, m, h1. auto.
Qed.

Lemma channels_weak l e e' (d : color f32) : channels l e d -> e <= e' -> channels l e' d.
Proof. intros H L i v Hv. destruct (H i v Hv) as [x [Ex [Fx Dx]]]. exists x. split; [exact Ex|]. split; [exact Fx|lra]. Qed.
Lemma hue_range r g b : 0 <= Rmin (hexagon_hue r g b) 359 < 360.
Proof.
  pose proof (mx3_ge r g b) as [X1 [X2 X3]]. pose proof (mn3_le r g b) as [N1 [N2 N3]].
  destruct (Req_EM_T (mx3 r g b) (mn3 r g b)) as [E|E]; [rewrite (hue_grey r g b E), Rmin_left; lra|].
  destruct (exact_hue r g b ltac:(lra)) as [Bt _]. unfold hueR in Bt. rewrite (hue_published r g b E) in Bt. lra.
Qed.

Section E.
Context (o : oracle).
Local Notation "x +. y" := (@fadd f32 (F32 o) x y) (at level 50, left associativity).
Local Notation "x *. y" := (@fmul f32 (F32 o) x y) (at level 40, left associativity).
Local Notation "$ n" := (fz (H := F32 o) n) (at level 2).
Local Notation c1 := (@c01 f32 (F32 o)).
Local Notation fval := (@B2R 24 128).

Lemma factor_near (x : f32) a e p : near x a e -> 0 <= a <= 1 -> 0 <= e <= / 4194304 -> in_interval (-8) 8 p ->
  near (c1 (x *. ($1 +. p))) (unit_clamp (a * (1 + fval p))) (9 * e + 19 * u).
Proof.
  intros N Ba He [Fp Bp]. change (-8 <= fval p <= 8) in Bp.
  assert (N1 : near ($1 +. p) (1 + fval p) (9 * u + tiny)).
  { eapply near_weaken; [apply (near_add o $1 p 1 (fval p) 0 0 9); [apply (near_fz o 1); sm|apply near_self, Fp|apply Rabs_le; lra|lra]|num]. }
  assert (N2 : near (x *. ($1 +. p)) (a * (1 + fval p)) (9 * e + 19 * u)).
  { eapply near_weaken; [apply (near_mul o x _ a _ e (9 * u + tiny) 1 9 9 N N1); [apply Rabs_le; lra|apply Rabs_le; lra| |]|].
    - rewrite Rabs_mult. assert (0 <= Rabs a <= 1) by (rewrite Rabs_pos_eq; lra). assert (0 <= Rabs (1 + fval p) <= 9) by (split; [apply Rabs_pos|apply Rabs_le; lra]). nra.
    - unfold u, tiny in * . nra.
    - unfold u, tiny in * . nra. }
  replace (unit_clamp (a * (1 + fval p))) with (Rmax (Rmin (a * (1 + fval p)) 1) 0) by (unfold unit_clamp; apply Rmax_comm).
  apply near_c01; [exact N2|]. num.
Qed.

(** White has saturation 0. *)
Lemma white_grey (h : heap f32) i (c : color f32) r g b : at_addr h i c -> @wf_color f32 (F32 o) RGB_DEEP c -> comps c = [r; g; b] -> middle (B2R r) (B2R g) (B2R b) = 1 ->
  yields (@to_hsl f32 (F32 o)) h i (fun m => comp_sat m 1 (fun x => fval x = 0)).
Proof.
  intros H W Ec E. destruct (chan o c r g b W Ec) as [[Fr Br] [[Fg Bg] [Fb Bb]]].
  unfold middle in E. rewrite largest_mx, smallest_mn in E. pose proof (mx3_ge (fval r) (fval g) (fval b)). pose proof (mn3_le (fval r) (fval g) (fval b)).
  pose proof (mx3_in (fval r) (fval g) (fval b)). pose proof (mn3_in (fval r) (fval g) (fval b)).
  assert (S : forall x : f32, fin x -> fval x = 1 -> x = r).
  { assert (G : forall x : f32, fin x -> fval x = 1 -> is_finite_strict x = true) by (intros [s|s| |s m e ?] Fx Vx; try reflexivity; try discriminate; exfalso; unfold B2R in Vx; lra).
    intros x Fx Vx. apply B2R_inj; [apply G; assumption|apply G; [exact Fr|lra]|]. change (fval x = fval r). lra. }
  assert (g = r) by (apply S; [exact Fg|lra]). assert (b = r) by (apply S; [exact Fb|lra]). subst g b.
  eapply yields_imp; [apply (grey_hsl o h i c r H W Ec)|]. cbv beta. intros m [_ [_ [[x [Ex [_ Vx]]] _]]]. exists x. split; [exact Ex|exact Vx].
Qed.

Lemma stretch_accurate a p (h : heap f32) i (c : color f32) r g b : in_hsl a = true -> in_interval (-8) 8 p -> ~ is_value p 0 -> at_addr h i c -> @wf_color f32 (F32 o) RGB_DEEP c -> comps c = [r; g; b] ->
  forall R G B P, R = B2R r -> G = B2R g -> B = B2R b -> P = B2R p ->
  returns (@adjust f32 (F32 o) a (Some i) p) h (fun t => ty t = RGB_DEEP /\ rgb_space t = rgb_space c /\
    channels (stretched a P R G B (blue_back R G B)) match a with LuminateHSL => / 65536 + stretch a P R G B / 524288 | _ => / 32768 end t).
Proof.
  intros Ha Hp Np H W Ec R G B P ER EG EB EP. destruct (chan o c r g b W Ec) as [[Fr Br] [[Fg Bg] [Fb Bb]]]. cbv zeta in Br, Bg, Bb.
  change (0 <= fval r <= 1) in Br. change (0 <= fval g <= 1) in Bg. change (0 <= fval b <= 1) in Bb. rewrite <- ER in Br. rewrite <- EG in Bg. rewrite <- EB in Bb.
  assert (Y : yields (@to_hsl f32 (F32 o)) h i (fun m => (ty m = HSL /\ comp_sat m 0 (approx (Rmin (hexagon_hue R G B) 359) (/ 16384)) /\
    comp_sat m 1 (fun x => is_finite x = true /\ forall S, S = sat_of R G B -> Rabs (B2R x - S) * (1 - Rabs (largest R G B + smallest R G B - 1)) <= / 262144) /\
    comp_sat m 2 (approx (middle R G B) (/ 4194304)) /\ m_alpha m = m_alpha c /\ rgb_space m = rgb_space c) /\ (middle R G B = 1 -> comp_sat m 1 (fun x => fval x = 0)))).
  { destruct (Req_EM_T (middle R G B) 1) as [E1|E1].
    - eapply yields_imp; [apply (yields_and _ _ _ _ _ (oneway_hsl o h i c r g b H W Ec R G B ER EG EB) (white_grey h i c r g b H W Ec ltac:(subst; exact E1)))|].
      cbv beta. intros m [K1 K2]. split; [exact K1|]. intros _. exact K2.
    - eapply yields_imp; [apply (oneway_hsl o h i c r g b H W Ec R G B ER EG EB)|]. cbv beta. intros m K1. split; [exact K1|]. intros K; contradiction. }
  destruct (to_hsl_run h i c _ H W Y) as [q [d [h1 [Rn [A1 [Aq [Wd [[_ [[x [Ex [Fx Dx]]] [[s [Es [Fs Ds]]] [[l [El [Fl Dl]]] [Ad Sd]]]]] White]]]]]]]].
  specialize (Ds _ eq_refl).
  assert (Ed : comps d = [x; s; l]).
  { destruct (comps3 d (wf_len _ _ Wd)) as [x1 [x2 [x3 E]]]. rewrite E in Ex, Es, El |- * . cbn in Ex, Es, El. apply Some_inv in Ex. apply Some_inv in Es. apply Some_inv in El. congruence. }
  assert (Ep : @feq f32 (F32 o) p $0 = false).
  { destruct Hp as [Fp _]. destruct (fz_val o 0) as [F0 V0]; [sm|]. apply ne_val; auto. rewrite V0. intros E0. apply Np. split; [exact Fp|exact E0]. }
  destruct (adjust_by (AF := F32 o) a p h h1 i c q d x s l RGB_DEEP Ha Ep A1 W ltac:(discriminate) Rn Aq Wd Ed) as [v [h2 [Wv [Ev [Sv [Av [A2 E]]]]]]].
  pose proof (mid_bounds R G B Br Bg Bb) as MB. pose proof (sat_bounds R G B Br Bg Bb) as SB. pose proof (room R G B) as RM. rewrite RM in Ds.
  destruct (hue_parts o d x s l Ed HSL ltac:(auto) Wd) as [[_ Bx] [[_ Bs] [_ Bl]]]. change (0 <= fval x <= 359) in Bx. change (0 <= fval s <= 1) in Bs. change (0 <= fval l <= 1) in Bl.
  set (mu := Rmin (middle R G B) (1 - middle R G B)) in * .
  pose proof (hue_range R G B) as BH. set (H0 := Rmin (hexagon_hue R G B) 359) in * .
  change (Rabs (fval x - H0) <= / 16384) in Dx. change (Rabs (fval l - middle R G B) <= / 4194304) in Dl. change (Rabs (fval s - sat_of R G B) * (2 * mu) <= / 262144) in Ds.
  unfold returns. rewrite E. change (@convertTo f32 (F32 o) (Some q) RGB_DEEP) with (@to_rgb_deep f32 (F32 o) (Some q)).
    assert (Bmu : 0 <= mu <= / 2). { unfold mu, Rmin. destruct (Rle_dec _ _); lra. }
  destruct a; try discriminate Ha.
  - pose proof (factor_near s (fval s) 0 p (near_self s Fs) Bs ltac:(lra) Hp) as [Fn Dn]. set (s' := c1 (s *. ($1 +. p))) in * . rewrite <- EP in Dn.
    destruct (hue_parts o v x s' l Ev HSL ltac:(auto) Wv) as [_ [[_ Bs'] _]]. change (0 <= fval s' <= 1) in Bs'.
    destruct (hsl_back o h2 q v A2 x s' l Ev Wv _ eq_refl) as [q' [t [h3 [E3 [A3 [Tt [Ct [_ St]]]]]]]].
    exists q', t, h3. split; [exact E3|]. split; [exact A3|]. split; [exact Tt|]. split; [congruence|].
    set (S' := unit_clamp (sat_of R G B * (1 + P))).
    assert (ES : stretched SaturateHSL P R G B (blue_back R G B) = lifted (hexagon_rgb (Rmin (hexagon_hue R G B) 359) ((1 - Rabs (2 * middle R G B - 1)) * S')) (middle R G B - ((1 - Rabs (2 * middle R G B - 1)) * S') / 2)).
    { unfold stretched. symmetry. apply (spread_hue R G B). apply chroma_sat; assumption. }
    rewrite ES. eapply channels_weak; [eapply channels_move; [apply spread_move|exact Ct]|].
    + lra.
    + exact BH.
    + rewrite min_abs. apply mul_unit; [unfold Rmin; destruct (Rle_dec _ _); lra|exact Bs'].
    + pose proof (chroma_move (fval l) (middle R G B) (fval s') S' Bs' ltac:(lra)) as CM. rewrite (min_abs (middle R G B)) in CM |- * . fold mu in CM |- * .
      assert (DS : Rabs (fval s' - S') <= 19 * u + 9 * Rabs (fval s - sat_of R G B)).
      { unfold S'. replace (fval s' - _) with ((fval s' - unit_clamp (fval s * (1 + P))) + (unit_clamp (fval s * (1 + P)) - unit_clamp (sat_of R G B * (1 + P)))) by ring.
        eapply Rle_trans; [apply Rabs_triang|]. apply Rplus_le_compat; [lra|]. eapply Rle_trans; [apply clamp_lip|].
        replace (fval s * (1 + P) - sat_of R G B * (1 + P)) with ((1 + P) * (fval s - sat_of R G B)) by ring. rewrite Rabs_mult. apply Rmult_le_compat_r; [apply Rabs_pos|]. apply Rabs_le. destruct Hp as [_ Bp]. change (-8 <= fval p <= 8) in Bp. lra. }
      assert (2 * mu * Rabs (fval s' - S') <= 19 * u + 9 * / 262144).
      { pose proof (Rabs_pos (fval s - sat_of R G B)). apply Rle_trans with (2 * mu * (19 * u + 9 * Rabs (fval s - sat_of R G B))); [apply Rmult_le_compat_l; lra|]. unfold u in * . nra. }
      match goal with |- _ + (_ + Rabs ?X / 2 + _) <= _ => set (DD := Rabs X) in * end. fold H0. unfold u in * . lra.
  - pose proof (factor_near l (middle R G B) (/ 4194304) p (conj Fl Dl) (proj2 (proj2 MB)) ltac:(lra) Hp) as [Fn Dn]. set (l' := c1 (l *. ($1 +. p))) in * . rewrite <- EP in Dn.
    change (unit_clamp (middle R G B * (1 + P))) with (middle_after LuminateHSL P R G B) in Dn. set (L' := middle_after LuminateHSL P R G B) in * .
    assert (BL' : 0 <= L' <= 1). { unfold L', middle_after, unit_clamp, Rmax, Rmin. repeat destruct (Rle_dec _ _); lra. }
    destruct (hue_parts o v x s l' Ev HSL ltac:(auto) Wv) as [_ [_ [_ Bl']]]. change (0 <= fval l' <= 1) in Bl'.
    destruct (hsl_back o h2 q v A2 x s l' Ev Wv _ eq_refl) as [q' [t [h3 [E3 [A3 [Tt [Ct [_ St]]]]]]]].
    exists q', t, h3. split; [exact E3|]. split; [exact A3|]. split; [exact Tt|]. split; [congruence|].
    assert (ES : stretched LuminateHSL P R G B (blue_back R G B) = lifted (hexagon_rgb H0 ((1 - Rabs (2 * L' - 1)) * sat_of R G B)) (L' - ((1 - Rabs (2 * L' - 1)) * sat_of R G B) / 2)).
    { unfold stretched. symmetry. apply (spread_hue R G B). apply chroma_lum; assumption. }
    rewrite ES. eapply channels_weak; [eapply channels_move; [apply spread_move|exact Ct]|].
    + lra.
    + exact BH.
    + rewrite min_abs. apply mul_unit; [unfold Rmin; destruct (Rle_dec _ _); lra|exact Bs].
    + pose proof (chroma_move (fval l') L' (fval s) (sat_of R G B) Bs BL') as CM.
      assert (K : (1 - Rabs (2 * L' - 1)) * Rabs (fval s - sat_of R G B) <= stretch LuminateHSL P R G B / 262144).
      { rewrite min_abs. cbn [stretch]. fold L' mu. set (mu' := Rmin L' (1 - L')) in * . assert (Bmu' : 0 <= mu') by (unfold mu', Rmin; destruct (Rle_dec _ _); lra).
        destruct (Req_EM_T mu 0) as [Z|Z].
        - rewrite Z. unfold Rdiv at 2. rewrite Rinv_0, Rmult_0_r. unfold Rdiv. rewrite Rmult_0_l.
          destruct (Req_EM_T (middle R G B) 1) as [E1|E1].
          + destruct (White E1) as [s1 [Es1 Vs1]]. rewrite Es in Es1. apply Some_inv in Es1. subst s1. rewrite Vs1.
            assert (ZS : sat_of R G B = 0). { unfold sat_of. destruct (Req_EM_T (largest R G B) (smallest R G B)) as [_|NE]; [reflexivity|]. exfalso. unfold middle in E1. lra. }
            rewrite ZS. replace (0 - 0) with 0 by ring. rewrite Rabs_R0. lra.
          + assert (ZL : middle R G B = 0). { unfold mu, Rmin in Z. destruct (Rle_dec _ _); lra. }
            assert (ZL' : L' = 0). { unfold L', middle_after. rewrite ZL, Rmult_0_l. apply unit_clamp_id. lra. }
            unfold mu'. rewrite ZL', Rmin_left by lra. lra.
        - assert (Pmu : 0 < mu) by lra. replace (2 * mu' * Rabs (fval s - sat_of R G B)) with (mu' / mu * (Rabs (fval s - sat_of R G B) * (2 * mu))) by (field; lra).
          unfold Rdiv at 3. apply Rmult_le_compat_l; [apply Rmult_le_pos; [exact Bmu'|left; apply Rinv_0_lt_compat, Pmu]|exact Ds]. }
      match goal with |- _ + (_ + Rabs ?X / 2 + _) <= _ => set (DD := Rabs X) in * end. unfold u in * . lra.
Qed.
End E.
