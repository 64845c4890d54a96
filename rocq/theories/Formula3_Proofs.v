(** * The conversions between the CIE types (exact arithmetic) *)
From Coq Require Import ZArith QArith Qreals Reals Lra Lia List Bool.
From Verif Require Import Arith Outcome ColorModel GammaModel MatrixModel SpaceModel Heap Converter RArith
  Spec Laws NormalForms Alpha8 Core_Proofs Core2_Proofs Spec_Matrix Spec_Conv Spec_Round Conv_Proofs Conv2_Proofs Run_Proofs HueR_Proofs
  Gamma2_Proofs Round_Proofs Round2_Proofs Round3_Proofs RoundEx_Proofs Polar_Proofs Spec_Formula Formula_Proofs.
Import ListNotations.
Local Open Scope R_scope.

Lemma yields_white go X f (h : heap R) p c w m (P : color R -> Prop) : dispatches go X (leaf_white X f) ->
  at_addr h p c -> wf_color X c -> white_of h c w -> f c w = Ok m -> P m -> yields go h p P.
Proof.
  intros D Hp W Hw E H. exists (length (colors h)), m, (pushed h m).
  split; [rewrite (D h p c Hp (wf_ty _ _ W)); apply (leaf_white_run X f h p c w m Hp W (white_load _ _ _ Hw) E)|]. split; [apply at_new|exact H].
Qed.

(** ** Lab to XYZ *)
Lemma cube_le (a t : R) : 0 <= a -> t <= a -> t * t * t <= a * a * a.
Proof.
  intros Pa L. destruct (Rle_dec 0 t) as [P|P].
  - assert (t * t <= a * a) by (apply Rmult_le_compat; lra). apply Rmult_le_compat; try lra. apply Rmult_le_pos; lra.
  - assert (0 <= a * a * a) by (apply Rmult_le_pos; [apply Rmult_le_pos|]; lra).
    assert (0 <= t * t) by (replace (t * t) with (Rsqr t) by reflexivity; apply Rle_0_sqr).
    assert (0 <= t * t * - t) by (apply Rmult_le_pos; lra). lra.
Qed.
Lemma cube_lt (a t : R) : 0 <= a -> a < t -> a * a * a < t * t * t.
Proof.
  intros Pa L. assert (a * a < t * t) by (apply Rmult_le_0_lt_compat; lra). apply Rmult_le_0_lt_compat; try lra. apply Rmult_le_pos; lra.
Qed.

Lemma lab_inverse t : lab_to_xyz_helper (AF := RArith) t false = cie_f_inverse t.
Proof.
  unfold lab_to_xyz_helper, lab_epsilon, lab_kappa, cie_f_inverse. rn. rewrite pow3.
  destruct (Rlt_dec (6 / 29) t) as [L|L].
  - pose proof (cube_lt (6 / 29) t ltac:(lra) L). rewrite Rltb_lt by lra. reflexivity.
  - pose proof (cube_le (6 / 29) t ltac:(lra) ltac:(lra)). rewrite Rltb_ge by lra. field.
Qed.
Lemma lab_inverse_y l : lab_to_xyz_helper (AF := RArith) l true = cie_f_inverse ((l + 16) / 116).
Proof.
  unfold lab_to_xyz_helper, lab_epsilon, lab_kappa, cie_f_inverse. rn. rewrite pow3.
  destruct (Rlt_dec (6 / 29) ((l + 16) / 116)) as [L|L]; [rewrite Rltb_lt by lra; reflexivity|rewrite Rltb_ge by lra; field].
Qed.

Lemma from_lab (h : heap R) p c w l a b : at_addr h p c -> wf_color LAB c -> comps c = [l; a; b] -> white_of h c w ->
  yields to_xyz h p (fun m => ty m = XYZ /\ (forall f, f = (l + 16) / 116 -> comps m =
    [cut 0 100 (tx w * cie_f_inverse (f + a / 500)); cut 0 100 (ty_ w * cie_f_inverse f); cut 0 100 (tz w * cie_f_inverse (f - b / 200))]) /\
    m_alpha m = cut 0 1 (m_alpha c) /\ rgb_space m = rgb_space c).
Proof.
  intros Hp W Ec Hw.
  eapply (yields_white to_xyz LAB lab_to_xyz_f h p c w); [disp|exact Hp|exact W|exact Hw| |].
  - unfold lab_to_xyz_f, with3. rewrite Ec. rn. rewrite !lab_inverse, lab_inverse_y. rewrite xyz_nf. cbn [obind]. reflexivity.
  - unfold alpha_set, base_alpha_set, with_alpha. cbn [cls ty comps m_alpha rgb_space]. split; [reflexivity|]. split; [|split; [|reflexivity]].
    + intros f ->. rewrite !c100_cut. rewrite (Rplus_comm (a / 500)). rewrite (Rmult_comm (tx w)), (Rmult_comm (ty_ w)), (Rmult_comm (tz w)). reflexivity.
    + rewrite (alpha_std c _ W eq_refl). apply cut_clamp. lra.
Qed.

(** XYZ to Lab, without the assumption that nothing is cut *)
Lemma to_lab_cut (h : heap R) p c w x y z : at_addr h p c -> wf_color XYZ c -> comps c = [x; y; z] -> white_of h c w ->
  0 < tx w -> 0 < ty_ w -> 0 < tz w ->
  yields to_lab h p (fun m => ty m = LAB /\ comps m = [cut 0 100 (cie_L w y); cut (-128) 128 (cie_a w x y); cut (-128) 128 (cie_b w y z)] /\
    m_alpha m = cut 0 1 (m_alpha c) /\ rgb_space m = rgb_space c).
Proof.
  intros Hp W Ec Hw PX PY PZ. destruct (xyz_range c x y z W Ec) as [Bx [By Bz]].
  assert (Dx : 0 <= x / tx w) by (apply Rmult_le_pos; [lra|left; apply Rinv_0_lt_compat; lra]).
  assert (Dy : 0 <= y / ty_ w) by (apply Rmult_le_pos; [lra|left; apply Rinv_0_lt_compat; lra]).
  assert (Dz : 0 <= z / tz w) by (apply Rmult_le_pos; [lra|left; apply Rinv_0_lt_compat; lra]).
  eapply (yields_white to_lab XYZ xyz_to_lab_f h p c w); [disp|exact Hp|exact W|exact Hw| |].
  - unfold xyz_to_lab_f, with3. rewrite Ec. rn. rewrite !helper_cie by assumption.
    fold (cie_L w y) (cie_a w x y) (cie_b w y z). rewrite lab_nf. cbn [obind]. reflexivity.
  - unfold alpha_set, base_alpha_set, with_alpha. cbn [cls ty comps m_alpha rgb_space]. split; [reflexivity|]. split; [|split; [|reflexivity]].
    + rewrite c100_cut, !cut_clamp by lra. reflexivity.
    + rewrite (alpha_std c _ W eq_refl). apply cut_clamp. lra.
Qed.

(** ** Luv *)
Lemma lightness_code t : 0 <= t ->
  (if Rltb (@lit R RArith (8856 # 1000000)) t then 116 * Rpow_c t (1 / 3) - 16 else @lit R RArith (9033 # 10) * t) = lightness t.
Proof.
  intros P.
  assert (L1 : @lit R RArith (8856 # 1000000) = 0.008856) by (cbn; unfold Q2R; cbn; lra).
  assert (L2 : @lit R RArith (9033 # 10) = 903.3) by (cbn; unfold Q2R; cbn; lra).
  rewrite L1, L2. unfold lightness. destruct (Rlt_dec 0.008856 t) as [L|L]; [rewrite Rltb_lt by exact L|rewrite Rltb_ge by lra; reflexivity].
  rewrite Rpow_c_pos by lra. reflexivity.
Qed.
Lemma lightness_back l : (if Rltb (@lit R RArith (9033 # 10) * @lit R RArith (8856 # 1000000)) l then Rpow_c ((l + 16) / 116) 3 else l / @lit R RArith (9033 # 10))
  = lightness_inverse l.
Proof.
  assert (L1 : @lit R RArith (8856 # 1000000) = 0.008856) by (cbn; unfold Q2R; cbn; lra).
  assert (L2 : @lit R RArith (9033 # 10) = 903.3) by (cbn; unfold Q2R; cbn; lra).
  rewrite L1, L2, pow3. unfold lightness_inverse. destruct (Rlt_dec _ l) as [L|L]; [rewrite Rltb_lt by exact L|rewrite Rltb_ge by lra]; reflexivity.
Qed.

Lemma luv_code (h : heap R) p c w x y z : at_addr h p c -> wf_color XYZ c -> comps c = [x; y; z] -> white_of h c w -> 0 < ty_ w ->
  yields to_cieluv h p (fun m => ty m = CIELUV /\ (forall l, l = lightness (x / ty_ w) -> comps m =
    [cut 0 100 l; cut (-100) 100 (13 * l * (ucs_u x y z - ucs_u (tx w) (ty_ w) (tz w)));
     cut (-100) 100 (13 * l * (ucs_v x y z - 4 / 9 * ucs_v (tx w) (ty_ w) (tz w)))]) /\
    m_alpha m = m_alpha c /\ rgb_space m = rgb_space c).
Proof.
  intros Hp W Ec Hw PY. destruct (xyz_range c x y z W Ec) as [Bx _].
  assert (Dx : 0 <= x / ty_ w) by (apply Rmult_le_pos; [lra|left; apply Rinv_0_lt_compat; lra]).
  eapply (yields_white to_cieluv XYZ xyz_to_cieluv_f h p c w); [disp|exact Hp|exact W|exact Hw| |].
  - unfold xyz_to_cieluv_f, with3, n_root3, fgt. rewrite Ec. rn. rewrite (lightness_code (x / ty_ w) Dx). rewrite cieluv_nf. reflexivity.
  - cbn [ty comps m_alpha rgb_space]. split; [reflexivity|]. split; [|split; [apply (alpha_std c _ W eq_refl)|reflexivity]].
    intros l ->. rewrite c100_cut, !cut_clamp by lra. unfold ucs_u, ucs_v.
    replace (4 / 9 * (9 * ty_ w / (tx w + 15 * ty_ w + 3 * tz w))) with (4 * ty_ w / (tx w + 15 * ty_ w + 3 * tz w)) by (unfold Rdiv; generalize (/ (tx w + 15 * ty_ w + 3 * tz w)); intros; field). reflexivity.
Qed.

(** The white point itself should map to (100, 0, 0). *)
Lemma luv_white (h : heap R) p c w : at_addr h p c -> wf_color XYZ c -> comps c = [tx w; ty_ w; tz w] -> white_of h c w ->
  0 < tx w -> 0 < ty_ w -> 0 < tz w ->
  yields to_cieluv h p (fun m => exists l u v, comps m = [l; u; v] /\ u = 0 /\ 0 < v) /\
  luv_of w (tx w) (ty_ w) (tz w) = [100; 0; 0].
Proof.
  intros Hp W Ec Hw PX PY PZ. split.
  - destruct (luv_code h p c w _ _ _ Hp W Ec Hw PY) as [q [m [h1 [E1 [E2 [E3 [E4 E5]]]]]]].
    exists q, m, h1. split; [exact E1|]. split; [exact E2|]. specialize (E4 _ eq_refl).
    do 3 eexists. split; [exact E4|]. split.
    + rewrite Rminus_eq_0, Rmult_0_r. apply cut_id. lra.
    + set (l := lightness (tx w / ty_ w)).
      assert (Pt : 0 < tx w / ty_ w) by (apply Rdiv_lt_0_compat; lra).
      assert (Pl : 0 < l).
      { unfold l, lightness. destruct (Rlt_dec _ _) as [L|L]; [|lra].
        pose proof (root3_gt (tx w / ty_ w) 0.2 ltac:(lra) ltac:(lra)). lra. }
      assert (Pv : 0 < ucs_v (tx w) (ty_ w) (tz w)) by (unfold ucs_v; apply Rdiv_lt_0_compat; lra).
      set (v := ucs_v _ _ _) in *. unfold cut.
      assert (0 < 13 * l * (v - 4 / 9 * v)) by (apply Rmult_lt_0_compat; lra).
      apply Rlt_le_trans with (Rmin 100 (13 * l * (v - 4 / 9 * v))); [apply Rmin_glb_lt; lra|apply Rmax_r].
  - unfold luv_of. replace (ty_ w / ty_ w) with 1 by (field; lra).
    assert (E : lightness 1 = 100).
    { unfold lightness. destruct (Rlt_dec _ _); [|lra]. unfold Rpower. rewrite ln_1, Rmult_0_r, exp_0. lra. }
    rewrite E, !Rminus_eq_0, !Rmult_0_r. reflexivity.
Qed.

Lemma from_luv (h : heap R) p c w l u v u' v' : at_addr h p c -> wf_color CIELUV c -> comps c = [l; u; v] -> white_of h c w -> 0 < l ->
  u' = u / (13 * l) + ucs_u (tx w) (ty_ w) (tz w) -> v' = v / (13 * l) + ucs_v (tx w) (ty_ w) (tz w) -> u' <> 0 -> v' <> 0 ->
  yields to_xyz h p (fun m => ty m = XYZ /\ comps m = map (cut 0 100) (xyz_of_luv w l u v) /\
    m_alpha m = m_alpha c /\ rgb_space m = rgb_space c).
Proof.
  intros Hp W Ec Hw Pl Eu Ev Nu Nv.
  eapply (yields_white to_xyz CIELUV cieluv_to_xyz_f h p c w); [disp|exact Hp|exact W|exact Hw| |].
  - unfold cieluv_to_xyz_f, with3, fgt. rewrite Ec. rn. rewrite lightness_back. rewrite xyz_nf. reflexivity.
  - cbn [ty comps m_alpha rgb_space]. split; [reflexivity|]. split; [|split; [apply (alpha_std c _ W eq_refl)|reflexivity]].
    unfold xyz_of_luv. rewrite <- Eu, <- Ev. fold (ucs_u (tx w) (ty_ w) (tz w)) (ucs_v (tx w) (ty_ w) (tz w)).
    set (un := ucs_u (tx w) (ty_ w) (tz w)) in *. set (vn := ucs_v (tx w) (ty_ w) (tz w)) in *. set (Y := lightness_inverse l).
    assert (A : u + 13 * l * un = 13 * l * u') by (rewrite Eu; field; lra).
    assert (B : v + 13 * l * vn = 13 * l * v') by (rewrite Ev; field; lra).
    rewrite A, B. cbn [map]. rewrite !c100_cut.
    assert (X : (Y * (39 * l / (13 * l * v') - 5) - -5 * Y) / (1 / 3 * (52 * l / (13 * l * u') - 1) - -1 / 3) = Y * (9 * u') / (4 * v')).
    { field. repeat split; lra. }
    rewrite X. f_equal. f_equal. f_equal. f_equal. field. repeat split; lra.
Qed.

(** ** Polar forms *)
Lemma atan2_range y x : - PI < Ratan2 y x <= PI.
Proof.
  unfold Ratan2. pose proof PI_RGT_0. pose proof (atan_bound (y / x)).
  destruct (Rlt_dec 0 x); [lra|]. destruct (Rlt_dec x 0) as [N|N].
  - destruct (Rle_dec 0 y) as [P|P].
    + split; [lra|]. assert (y / x <= 0).
      { unfold Rdiv. assert (/ x < 0) by (apply Rinv_lt_0_compat; lra). assert (0 <= y * - / x) by (apply Rmult_le_pos; lra). lra. }
      destruct (Req_EM_T (y / x) 0) as [Z|Z]; [rewrite Z, atan_0; lra|].
      assert (atan (y / x) < atan 0) by (apply atan_increasing; lra). rewrite atan_0 in *. lra.
    + split; [|lra]. assert (0 < y / x).
      { unfold Rdiv. assert (/ x < 0) by (apply Rinv_lt_0_compat; lra). assert (0 < - y * - / x) by (apply Rmult_lt_0_compat; lra). lra. }
      assert (atan 0 < atan (y / x)) by (apply atan_increasing; lra). rewrite atan_0 in *. lra.
  - destruct (Rlt_dec 0 y); [lra|]. destruct (Rlt_dec y 0); lra.
Qed.

Lemma pow2 x : Rpow_c x 2 = x * x.
Proof. unfold Rpow_c. destruct (Req_EM_T 2 2); [reflexivity|lra]. Qed.

(** The hue the library computes: an angle in radians, brought above 0 by adding 360. *)
Lemma polar_hue a b : let t := Ratan2 b a in let x := if Rltb t 0 then t + 360 else t in
  (0 <= cut 0 359 x <= PI \/ 360 - PI <= cut 0 359 x <= 359).
Proof.
  intros t x. pose proof (atan2_range b a) as [L H]. fold t in L, H. pose proof PI_4. pose proof PI2_1. unfold x, cut.
  destruct (Rlt_dec t 0) as [N|N]; [rewrite Rltb_lt by exact N|rewrite Rltb_ge by lra].
  - right. split; [|apply Rmax_lub; [lra|apply Rmin_l]]. apply Rle_trans with (Rmin 359 (t + 360)); [apply Rmin_glb; lra|apply Rmax_r].
  - left. split; [apply Rmax_l|]. apply Rmax_lub; [pose proof PI_RGT_0; lra|]. apply Rle_trans with t; [apply Rmin_r|lra].
Qed.

Lemma lch_ab_code (h : heap R) p c l a b : at_addr h p c -> wf_color LAB c -> comps c = [l; a; b] ->
  yields to_lch_ab h p (fun m => ty m = LCH_AB /\ comps m = [l; cut 0 100 ((sqrt (a * a + b * b) + 128) * (100 / 256));
      cut 0 359 (if Rltb (Ratan2 b a) 0 then Ratan2 b a + 360 else Ratan2 b a)] /\
    m_alpha m = cut 0 1 (m_alpha c) /\ rgb_space m = rgb_space c).
Proof.
  intros Hp W Ec. pose proof (range3 c _ l a b W Ec) as [Bl _]. cbn [comp_range fst snd] in Bl.
  eapply (yields_leaf to_lch_ab LAB lab_to_lch_ab_f h p c); [disp|exact Hp|exact W| |].
  - unfold lab_to_lch_ab_f, with3, transform_range. rewrite Ec. rewrite (wf_min _ _ W), (wf_max _ _ W). cbn [limits fst snd fatan2 RArith]. rn.
    rewrite !pow2. rewrite lch_ab_nf. cbn [obind]. reflexivity.
  - unfold alpha_set, base_alpha_set, with_alpha. cbn [cls ty comps m_alpha rgb_space]. split; [reflexivity|]. split; [|split; [|reflexivity]].
    + rewrite !c100_cut, cut_clamp by lra. f_equal; [apply cut_id; lra|]. f_equal. f_equal. field.
    + rewrite (alpha_std c _ W eq_refl). apply cut_clamp. lra.
Qed.
Lemma lch_uv_code (h : heap R) p c l a b : at_addr h p c -> wf_color CIELUV c -> comps c = [l; a; b] ->
  yields to_lch_uv h p (fun m => ty m = LCH_UV /\ comps m = [l; cut 0 100 ((sqrt (a * a + b * b) + 100) * (100 / 200));
      cut 0 359 (if Rltb (Ratan2 b a) 0 then Ratan2 b a + 360 else Ratan2 b a)] /\
    m_alpha m = cut 0 1 (m_alpha c) /\ rgb_space m = rgb_space c).
Proof.
  intros Hp W Ec. pose proof (range3 c _ l a b W Ec) as [Bl _]. cbn [comp_range fst snd] in Bl.
  eapply (yields_leaf to_lch_uv CIELUV cieluv_to_lch_uv_f h p c); [disp|exact Hp|exact W| |].
  - unfold cieluv_to_lch_uv_f, with3, transform_range. rewrite Ec. rewrite (wf_min _ _ W), (wf_max _ _ W). cbn [limits fst snd fatan2 RArith]. rn.
    rewrite !pow2. rewrite lch_uv_nf. cbn [obind]. reflexivity.
  - unfold alpha_set, base_alpha_set, with_alpha. cbn [cls ty comps m_alpha rgb_space]. split; [reflexivity|]. split; [|split; [|reflexivity]].
    + rewrite !c100_cut, cut_clamp by lra. f_equal; [apply cut_id; lra|]. f_equal. f_equal. field.
    + rewrite (alpha_std c _ W eq_refl). apply cut_clamp. lra.
Qed.

Lemma cut_low x : 50 <= x -> 50 <= cut 0 100 x.
Proof. intros H. unfold cut. apply Rle_trans with (Rmin 100 x); [apply Rmin_glb; lra|apply Rmax_r]. Qed.
Lemma polar_far a b ch hue : 50 <= ch -> a * a + b * b < 2500 -> ~ polar a b ch hue.
Proof.
  intros L S [_ [_ [-> ->]]]. pose proof (sin2_cos2 (hue * PI / 180)) as Q. unfold Rsqr in Q.
  set (u := cos _) in *. set (w := sin _) in *.
  replace (ch * u * (ch * u) + ch * w * (ch * w)) with (ch * ch * (w * w + u * u)) in S by ring. rewrite Q in S.
  assert (50 * 50 <= ch * ch) by (apply Rmult_le_compat; lra). lra.
Qed.

(** Only hues in [0, pi] and [360 - pi, 359] occur, and no chroma below 50 *)
Lemma lch_ab_hues (h : heap R) p c l a b : at_addr h p c -> wf_color LAB c -> comps c = [l; a; b] ->
  yields to_lch_ab h p (fun m => exists ch hue, comps m = [l; ch; hue] /\ 50 <= ch /\ (hue <= PI \/ 360 - PI <= hue) /\
    (a * a + b * b < 2500 -> ~ polar a b ch hue)).
Proof.
  intros Hp W Ec.
  destruct (lch_ab_code h p c l a b Hp W Ec) as [q [m [h1 [E1 [E2 [E3 [E4 E5]]]]]]]. exists q, m, h1. split; [exact E1|]. split; [exact E2|].
  do 2 eexists. split; [exact E4|]. pose proof (sqrt_pos (a * a + b * b)).
  assert (L : 50 <= cut 0 100 ((sqrt (a * a + b * b) + 128) * (100 / 256))) by (apply cut_low; lra).
  split; [exact L|]. split; [pose proof (polar_hue a b) as K; cbv zeta in K; tauto|]. intros S. apply polar_far; assumption.
Qed.
Lemma lch_uv_hues (h : heap R) p c l a b : at_addr h p c -> wf_color CIELUV c -> comps c = [l; a; b] ->
  yields to_lch_uv h p (fun m => exists ch hue, comps m = [l; ch; hue] /\ 50 <= ch /\ (hue <= PI \/ 360 - PI <= hue) /\
    (a * a + b * b < 2500 -> ~ polar a b ch hue)).
Proof.
  intros Hp W Ec.
  destruct (lch_uv_code h p c l a b Hp W Ec) as [q [m [h1 [E1 [E2 [E3 [E4 E5]]]]]]]. exists q, m, h1. split; [exact E1|]. split; [exact E2|].
  do 2 eexists. split; [exact E4|]. pose proof (sqrt_pos (a * a + b * b)).
  assert (L : 50 <= cut 0 100 ((sqrt (a * a + b * b) + 100) * (100 / 200))) by (apply cut_low; lra).
  split; [exact L|]. split; [pose proof (polar_hue a b) as K; cbv zeta in K; tauto|]. intros S. apply polar_far; assumption.
Qed.

Lemma polar_angle a b (P : R -> R -> R -> Prop) :
  P (sqrt (a * a + b * b)) (Ratan2 b a) (if Rltb (Ratan2 b a) 0 then Ratan2 b a + 360 else Ratan2 b a) ->
  exists r t, 0 <= r /\ - PI < t <= PI /\ a = r * cos t /\ b = r * sin t /\ P r t (if Rlt_dec t 0 then t + 360 else t).
Proof.
  intros H. exists (sqrt (a * a + b * b)), (Ratan2 b a). split; [apply sqrt_pos|]. split; [apply atan2_range|].
  destruct (Ratan2_polar b a) as [A B]. split; [exact A|]. split; [exact B|].
  unfold Rltb in H. destruct (Rlt_dec (Ratan2 b a) 0); exact H.
Qed.
Lemma lch_ab_exact (h : heap R) p c l a b : at_addr h p c -> wf_color LAB c -> comps c = [l; a; b] ->
  yields to_lch_ab h p (fun m => ty m = LCH_AB /\ (exists r t, 0 <= r /\ - PI < t <= PI /\ a = r * cos t /\ b = r * sin t /\
      comps m = [l; cut 0 100 ((r + 128) * (100 / 256)); cut 0 359 (if Rlt_dec t 0 then t + 360 else t)]) /\
    m_alpha m = cut 0 1 (m_alpha c) /\ rgb_space m = rgb_space c).
Proof.
  intros Hp W Ec. destruct (lch_ab_code h p c l a b Hp W Ec) as [q [m [h1 [E1 [E2 [E3 [E4 E5]]]]]]]. exists q, m, h1.
  split; [exact E1|]. split; [exact E2|]. split; [exact E3|]. split; [|exact E5].
  apply (polar_angle a b (fun r t x => comps m = [l; cut 0 100 ((r + 128) * (100 / 256)); cut 0 359 x])). exact E4.
Qed.
Lemma lch_uv_exact (h : heap R) p c l a b : at_addr h p c -> wf_color CIELUV c -> comps c = [l; a; b] ->
  yields to_lch_uv h p (fun m => ty m = LCH_UV /\ (exists r t, 0 <= r /\ - PI < t <= PI /\ a = r * cos t /\ b = r * sin t /\
      comps m = [l; cut 0 100 ((r + 100) * (100 / 200)); cut 0 359 (if Rlt_dec t 0 then t + 360 else t)]) /\
    m_alpha m = cut 0 1 (m_alpha c) /\ rgb_space m = rgb_space c).
Proof.
  intros Hp W Ec. destruct (lch_uv_code h p c l a b Hp W Ec) as [q [m [h1 [E1 [E2 [E3 [E4 E5]]]]]]]. exists q, m, h1.
  split; [exact E1|]. split; [exact E2|]. split; [exact E3|]. split; [|exact E5].
  apply (polar_angle a b (fun r t x => comps m = [l; cut 0 100 ((r + 100) * (100 / 200)); cut 0 359 x])). exact E4.
Qed.

Lemma polar_bound c t k : 0 <= c <= k -> - k <= c * t <= k \/ ~ (-1 <= t <= 1).
Proof.
  intros B. destruct (Rle_dec (-1) t) as [L|L]; [|right; lra]. destruct (Rle_dec t 1) as [U|U]; [|right; lra]. left. split.
  - assert (0 <= c * (t + 1)) by (apply Rmult_le_pos; lra). lra.
  - assert (0 <= c * (1 - t)) by (apply Rmult_le_pos; lra). lra.
Qed.

Lemma from_lch_ab (h : heap R) p c l ch hue : at_addr h p c -> wf_color LCH_AB c -> comps c = [l; ch; hue] ->
  yields to_lab h p (fun m => ty m = LAB /\ (exists a b, comps m = [l; a; b] /\ polar a b ch hue) /\
    m_alpha m = cut 0 1 (m_alpha c) /\ rgb_space m = rgb_space c).
Proof.
  intros Hp W Ec. pose proof (range3 c _ l ch hue W Ec) as [Bl [Bc Bh]]. cbn [comp_range fst snd] in Bl, Bc, Bh.
  eapply (yields_leaf to_lab LCH_AB lch_ab_to_lab_f h p c); [disp|exact Hp|exact W| |].
  - unfold lch_ab_to_lab_f, with3. rewrite Ec. cbn [fcos fsin fradians RArith]. rn. rewrite lab_nf. cbn [obind]. reflexivity.
  - unfold alpha_set, base_alpha_set, with_alpha. cbn [cls ty comps m_alpha rgb_space]. split; [reflexivity|]. split; [|split; [|reflexivity]].
    + do 2 eexists. rewrite c100R by lra. split; [reflexivity|]. rewrite !cut_clamp by lra.
      pose proof (COS_bound (hue * PI / 180)). pose proof (SIN_bound (hue * PI / 180)).
      rewrite !cut_id; [split; [lra|]; split; [lra|]; split; reflexivity|destruct (polar_bound ch (sin (hue * PI / 180)) 100)|destruct (polar_bound ch (cos (hue * PI / 180)) 100)]; lra.
    + rewrite (alpha_std c _ W eq_refl). apply cut_clamp. lra.
Qed.
Lemma from_lch_uv (h : heap R) p c l ch hue : at_addr h p c -> wf_color LCH_UV c -> comps c = [l; ch; hue] ->
  yields to_cieluv h p (fun m => ty m = CIELUV /\ (exists a b, comps m = [l; a; b] /\ polar a b ch hue) /\
    m_alpha m = cut 0 1 (m_alpha c) /\ rgb_space m = rgb_space c).
Proof.
  intros Hp W Ec. pose proof (range3 c _ l ch hue W Ec) as [Bl [Bc Bh]]. cbn [comp_range fst snd] in Bl, Bc, Bh.
  eapply (yields_leaf to_cieluv LCH_UV lch_uv_to_cieluv_f h p c); [disp|exact Hp|exact W| |].
  - unfold lch_uv_to_cieluv_f, with3. rewrite Ec. cbn [fcos fsin fradians RArith]. rn. rewrite cieluv_nf. cbn [obind]. reflexivity.
  - unfold alpha_set, base_alpha_set, with_alpha. cbn [cls ty comps m_alpha rgb_space]. split; [reflexivity|]. split; [|split; [|reflexivity]].
    + do 2 eexists. rewrite c100R by lra. split; [reflexivity|]. rewrite !cut_clamp by lra.
      pose proof (COS_bound (hue * PI / 180)). pose proof (SIN_bound (hue * PI / 180)).
      rewrite !cut_id; [split; [lra|]; split; [lra|]; split; reflexivity|destruct (polar_bound ch (sin (hue * PI / 180)) 100)|destruct (polar_bound ch (cos (hue * PI / 180)) 100)]; lra.
    + rewrite (alpha_std c _ W eq_refl). apply cut_clamp. lra.
Qed.
