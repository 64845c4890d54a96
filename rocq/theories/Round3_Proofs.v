(** * Round trips through XYZ, in exact arithmetic (C45 - C48, C50) *)
From Coq Require Import ZArith QArith Qreals Reals Lra Lia List Bool.
From Verif Require Import Arith Outcome ColorModel GammaModel MatrixModel SpaceModel Heap Converter RArith
  Spec Laws NormalForms Alpha8 Core_Proofs Core2_Proofs Spec_Matrix Spec_Space Gamma2_Proofs Matrix_Proofs Invert_Proofs Space_Proofs
  Spec_Conv Spec_Round Conv_Proofs Conv2_Proofs Run_Proofs HueR_Proofs Round_Proofs.
Import ListNotations.
Local Open Scope R_scope.

Lemma white_load (h : heap R) c w : white_of h c w -> load_white c h = (Ok w, h).
Proof. intros [i [s [a [E [Hs Hw]]]]]. unfold load_white, bind, load_space. rewrite E, Hs, Hw. reflexivity. Qed.

Lemma range3 (c : color R) X x y z : wf_color X c -> comps c = [x; y; z] ->
  (IZR (fst (comp_range X 0)) <= x <= IZR (snd (comp_range X 0))) /\ (IZR (fst (comp_range X 1)) <= y <= IZR (snd (comp_range X 1))) /\
  (IZR (fst (comp_range X 2)) <= z <= IZR (snd (comp_range X 2))).
Proof.
  intros W E. pose proof (wf_range _ _ W) as H. rewrite E in H.
  pose proof (H 0%nat x eq_refl) as H0. pose proof (H 1%nat y eq_refl) as H1. pose proof (H 2%nat z eq_refl) as H2.
  rewrite withinR in *. auto.
Qed.
Lemma xyz_range (c : color R) x y z : wf_color XYZ c -> comps c = [x; y; z] -> 0 <= x <= 100 /\ 0 <= y <= 100 /\ 0 <= z <= 100.
Proof. intros W E. exact (range3 c _ x y z W E). Qed.

Lemma same_xyz (c : color R) x y z a : wf_color XYZ c -> comps c = [x; y; z] -> a = m_alpha c ->
  same_colour c (Color XYZ XYZ [x; y; z] a 100 0 (rgb_space c)).
Proof. intros W E ->. repeat split. - symmetry. apply (wf_ty _ _ W). - symmetry. exact E. Qed.

Lemma xyz_eq (x y z x' y' z' a : R) sp : 0 <= x <= 100 -> 0 <= y <= 100 -> 0 <= z <= 100 -> x' = x -> y' = y -> z' = z ->
  xyz (AF := RArith) x' y' z' a sp = Ok (Color XYZ XYZ [x; y; z] a 100 0 sp).
Proof. intros Hr Hg Hb -> -> ->. rewrite xyz_nf. rewrite !c100R by assumption. rewrite !fzR. reflexivity. Qed.

(** ** xyY *)
Lemma xyy_round (h : heap R) p c x y z : at_addr h p c -> wf_color XYZ c -> comps c = [x; y; z] -> 0 < y ->
  via to_xyy to_xyz h p (fun m d => ty m = XYY /\ comps m = [x / (x + y + z); y / (x + y + z); y] /\ same_colour c d).
Proof.
  intros Hp W Ec Py. destruct (xyz_range c x y z W Ec) as [Bx [By Bz]].
  set (s := x + y + z). assert (Ps : 0 < s) by (unfold s; lra).
  assert (D1 : 0 <= x / s <= 1) by (apply div_bounds; unfold s; lra).
  assert (D2 : 0 <= y / s <= 1) by (apply div_bounds; unfold s; lra).
  assert (P2 : 0 < y / s) by (apply Rdiv_lt_0_compat; lra).
  pose (m := Color XYY XYY [x / s; y / s; y] (m_alpha c) 100 0 (rgb_space c)).
  assert (Hm : at_addr (pushed h m) (length (colors h)) m) by apply at_new.
  assert (Wm : wf_color XYY m).
  { destruct (xyy_made (AF := RArith) (x / s) (y / s) y (m_alpha c) (rgb_space c)) as [m' [E [Wm _]]].
    rewrite xyy_nf in E. rewrite !c100R in E by lra. rewrite !fzR in E. injection E as <-. exact Wm. }
  exists (length (colors h)), (length (colors (pushed h m))), m, (Color XYZ XYZ [x; y; z] (m_alpha c) 100 0 (rgb_space c)), (pushed h m),
    (pushed (pushed h m) (Color XYZ XYZ [x; y; z] (m_alpha c) 100 0 (rgb_space c))).
  split.
  { assert (D : dispatches to_xyy XYZ xyz_to_xyy) by disp. rewrite (D h p c Hp (wf_ty _ _ W)).
    unfold xyz_to_xyy, bind. rewrite (load_as_ok h p c XYZ Hp W). rewrite Ec. rn.
    rewrite (Reqb_ne y 0) by lra. rewrite andb_false_r. cbn [andb]. fold s. rewrite xyy_nf. unfold lift.
    rewrite !c100R by lra. rewrite !fzR. rewrite (alpha_std c _ W eq_refl). reflexivity. }
  split; [exact Hm|]. split.
  { assert (D : dispatches to_xyz XYY (leaf XYY xyy_to_xyz_f)) by disp. rewrite (D _ _ _ Hm eq_refl).
    apply (leaf_run XYY xyy_to_xyz_f _ _ m _ Hm Wm).
    unfold xyy_to_xyz_f, with3, m. cbn [comps]. rn. rewrite Reqb_ne by lra.
    apply xyz_eq; try assumption; unfold s in *; field; lra. }
  split; [apply at_new|]. split; [reflexivity|]. split; [reflexivity|]. apply same_xyz; auto.
Qed.

Lemma xyy_black (h : heap R) p c w : at_addr h p c -> wf_color XYZ c -> comps c = [0; 0; 0] ->
  white_of h c w -> 0 <= cx w <= 1 -> 0 <= cy w <= 1 ->
  via to_xyy to_xyz h p (fun m d => ty m = XYY /\ comps m = [cx w; cy w; 0] /\ same_colour c d).
Proof.
  intros Hp W Ec Hw Bx By.
  pose (m := Color XYY XYY [cx w; cy w; 0] (m_alpha c) 100 0 (rgb_space c)).
  assert (Hm : at_addr (pushed h m) (length (colors h)) m) by apply at_new.
  assert (Wm : wf_color XYY m).
  { destruct (xyy_made (AF := RArith) (cx w) (cy w) 0 (m_alpha c) (rgb_space c)) as [m' [E [Wm _]]].
    rewrite xyy_nf in E. rewrite !c100R in E by lra. rewrite !fzR in E. injection E as <-. exact Wm. }
  exists (length (colors h)), (length (colors (pushed h m))), m, (Color XYZ XYZ [0; 0; 0] (m_alpha c) 100 0 (rgb_space c)), (pushed h m),
    (pushed (pushed h m) (Color XYZ XYZ [0; 0; 0] (m_alpha c) 100 0 (rgb_space c))).
  split.
  { assert (D : dispatches to_xyy XYZ xyz_to_xyy) by disp. rewrite (D h p c Hp (wf_ty _ _ W)).
    unfold xyz_to_xyy, bind. rewrite (load_as_ok h p c XYZ Hp W). rewrite Ec. rn.
    rewrite (Reqb_eq 0 0) by lra. cbn [andb]. rewrite (white_load h c w Hw). rewrite xyy_nf. unfold lift.
    rewrite !c100R by lra. rewrite !fzR. rewrite (alpha_std c _ W eq_refl). reflexivity. }
  split; [exact Hm|]. split.
  { assert (D : dispatches to_xyz XYY (leaf XYY xyy_to_xyz_f)) by disp. rewrite (D _ _ _ Hm eq_refl).
    apply (leaf_run XYY xyy_to_xyz_f _ _ m _ Hm Wm).
    unfold xyy_to_xyz_f, with3, m. cbn [comps]. rn.
    destruct (Req_EM_T (cy w) 0) as [Z|Z]; [rewrite Reqb_eq by exact Z|rewrite Reqb_ne by exact Z].
    - apply xyz_eq; lra.
    - apply xyz_eq; try lra; field; exact Z. }
  split; [apply at_new|]. split; [reflexivity|]. split; [reflexivity|]. apply same_xyz; auto.
Qed.

(** ** Lab *)
Lemma via_white go back X Y f g (h : heap R) p c w m r (P : color R -> color R -> Prop) :
  dispatches go X (leaf_white X f) -> dispatches back Y (leaf_white Y g) ->
  at_addr h p c -> wf_color X c -> white_of h c w -> leaf_white_ok X Y f -> f c w = Ok m -> rgb_space m = rgb_space c -> g m w = Ok r -> P m r ->
  via go back h p P.
Proof.
  intros D1 D2 Hp W Hw L E1 Es E2 H.
  assert (Wm : wf_color Y m) by (destruct (L w c W) as [m' [E [Wm _]]]; congruence).
  assert (Hm : at_addr (pushed h m) (length (colors h)) m) by apply at_new.
  assert (Hw' : white_of (pushed h m) m w) by (destruct Hw as [i [s [a [A1 A2]]]]; exists i, s, a; rewrite Es; auto).
  exists (length (colors h)), (length (colors (pushed h m))), m, r, (pushed h m), (pushed (pushed h m) r).
  split; [rewrite (D1 h p c Hp (wf_ty _ _ W)); apply (leaf_white_run X f h p c w m Hp W (white_load _ _ _ Hw) E1)|]. split; [exact Hm|].
  split; [rewrite (D2 _ _ _ Hm (wf_ty _ _ Wm)); apply (leaf_white_run Y g _ _ m w r Hm Wm (white_load _ _ _ Hw') E2)|]. split; [apply at_new|exact H].
Qed.

Lemma pow3 x : Rpow_c x 3 = x * x * x.
Proof. unfold Rpow_c. destruct (Req_EM_T 3 2); [lra|]. destruct (Req_EM_T 3 3); [reflexivity|lra]. Qed.

Lemma root3_gt t e : 0 < e -> e * e * e < t -> e < Rpower t (1 / 3).
Proof.
  intros Pe L. replace (1 / 3) with (INR 1 / INR 3) by (simpl; lra).
  apply Rpower_frac_gt; [|lra|discriminate|simpl; lra]. assert (0 < e * e) by (apply Rmult_lt_0_compat; lra). assert (0 < e * e * e) by (apply Rmult_lt_0_compat; lra). lra.
Qed.
Lemma root3_cube t : 0 < t -> Rpower t (1 / 3) * Rpower t (1 / 3) * Rpower t (1 / 3) = t.
Proof.
  intros P. replace (1 / 3) with (INR 1 / INR 3) by (simpl; lra). pose proof (Rpower_frac t 1 3 P ltac:(discriminate)) as H. simpl in *. lra.
Qed.

Lemma helper_cie t : 0 <= t -> xyz_to_lab_helper (AF := RArith) t = cie_f t.
Proof.
  intros P. unfold xyz_to_lab_helper, cie_f, n_root3, lab_epsilon, lab_kappa. rn.
  destruct (Rlt_dec (216 / 24389) t) as [L|L]; [rewrite Rltb_lt by exact L|rewrite Rltb_ge by lra; reflexivity].
  apply Rpow_c_pos; lra.
Qed.

Lemma cie_f_lo t : 0 <= t -> 16 / 116 <= cie_f t.
Proof.
  intros P. unfold cie_f. destruct (Rlt_dec _ _) as [L|L]; [|lra].
  left. apply Rle_lt_trans with (6 / 29); [lra|]. apply root3_gt; lra.
Qed.

Lemma cie_f_back t : 0 <= t -> lab_to_xyz_helper (AF := RArith) (cie_f t) false = t /\ lab_to_xyz_helper (AF := RArith) (116 * cie_f t - 16) true = t.
Proof.
  intros P. unfold lab_to_xyz_helper, lab_epsilon, lab_kappa, cie_f. rn. rewrite !pow3.
  destruct (Rlt_dec (216 / 24389) t) as [L|L].
  - pose proof (root3_cube t ltac:(lra)) as C. pose proof (root3_gt t (6 / 29) ltac:(lra) ltac:(lra)) as G.
    set (u := Rpower t (1 / 3)) in *. split.
    + rewrite C. rewrite Rltb_lt by exact L. reflexivity.
    + rewrite Rltb_lt by lra. replace ((116 * u - 16 + 16) / 116) with u by lra. exact C.
  - set (u := (24389 / 27 * t + 16) / 116). assert (Bu : 0 <= u <= 6 / 29) by (unfold u; lra). split.
    + rewrite Rltb_ge; [unfold u; field|].
      assert (A1 : u * u <= 6 / 29 * (6 / 29)) by (apply Rmult_le_compat; lra).
      assert (A0 : 0 <= u * u) by (apply Rmult_le_pos; lra).
      assert (A2 : u * u * u <= 6 / 29 * (6 / 29) * (6 / 29)) by (apply Rmult_le_compat; lra). lra.
    + rewrite Rltb_ge by (unfold u; lra). unfold u. field.
Qed.

Lemma clamp_idR x lo hi : IZR lo <= x <= IZR hi -> clamp (AF := RArith) x (fz hi) (fz lo) = x.
Proof. intros H. rewrite !fzR. apply clampR_id, H. Qed.

Lemma lab_round (h : heap R) p c w x y z : at_addr h p c -> wf_color XYZ c -> comps c = [x; y; z] -> white_of h c w ->
  0 < tx w -> 0 < ty_ w -> 0 < tz w -> 0 <= m_alpha c <= 1 ->
  cie_L w y <= 100 -> -128 <= cie_a w x y <= 128 -> -128 <= cie_b w y z <= 128 ->
  via to_lab to_xyz h p (fun m d => ty m = LAB /\ comps m = [cie_L w y; cie_a w x y; cie_b w y z] /\ same_colour c d).
Proof.
  intros Hp W Ec Hw PX PY PZ Ha BL Ba Bb. destruct (xyz_range c x y z W Ec) as [Bx [By Bz]].
  assert (Dx : 0 <= x / tx w) by (apply Rmult_le_pos; [lra|left; apply Rinv_0_lt_compat; lra]).
  assert (Dy : 0 <= y / ty_ w) by (apply Rmult_le_pos; [lra|left; apply Rinv_0_lt_compat; lra]).
  assert (Dz : 0 <= z / tz w) by (apply Rmult_le_pos; [lra|left; apply Rinv_0_lt_compat; lra]).
  assert (BL0 : 0 <= cie_L w y) by (unfold cie_L; pose proof (cie_f_lo (y / ty_ w) Dy); lra).
  eapply (via_white to_lab to_xyz XYZ LAB xyz_to_lab_f lab_to_xyz_f h p c w);
    [disp|disp|exact Hp|exact W|exact Hw|apply xyz_to_lab_ok| | | |].
  - unfold xyz_to_lab_f, with3. rewrite Ec. rn. rewrite !helper_cie by assumption.
    fold (cie_L w y) (cie_a w x y) (cie_b w y z). rewrite lab_nf. cbn [obind]. unfold alpha_set, base_alpha_set, with_alpha. cbn [cls ty comps m_max m_min rgb_space].
    rewrite (c100R (cie_L w y)) by lra. rewrite !clamp_idR by lra. rewrite (alpha_std c _ W eq_refl). rewrite clamp_idR by lra. reflexivity.
  - reflexivity.
  - instantiate (1 := Color XYZ XYZ [x; y; z] (m_alpha c) 100 0 (rgb_space c)).
    unfold lab_to_xyz_f, with3. cbn [comps]. rn.
    replace ((cie_L w y + 16) / 116) with (cie_f (y / ty_ w)) by (unfold cie_L; lra).
    replace (cie_a w x y / 500 + cie_f (y / ty_ w)) with (cie_f (x / tx w)) by (unfold cie_a; lra).
    replace (cie_f (y / ty_ w) - cie_b w y z / 200) with (cie_f (z / tz w)) by (unfold cie_b; lra).
    destruct (cie_f_back (x / tx w) Dx) as [-> _]. destruct (cie_f_back (z / tz w) Dz) as [-> _].
    unfold cie_L. destruct (cie_f_back (y / ty_ w) Dy) as [_ ->].
    replace (x / tx w * tx w) with x by (field; lra). replace (y / ty_ w * ty_ w) with y by (field; lra). replace (z / tz w * tz w) with z by (field; lra).
    rewrite (xyz_eq x y z x y z) by (assumption || reflexivity). cbn [obind]. unfold alpha_set, base_alpha_set, with_alpha, alpha, base_alpha.
    cbn [cls ty comps m_alpha m_max m_min rgb_space]. rewrite clamp_idR by lra. reflexivity.
  - split; [reflexivity|]. split; [reflexivity|]. apply same_xyz; auto.
Qed.

(** ** CIELUV: the lightness is computed from X *)
Lemma luv_round (h : heap R) p c w x y z : at_addr h p c -> wf_color XYZ c -> comps c = [x; y; z] -> white_of h c w ->
  0 < ty_ w -> (x / ty_ w <= 0.008856 \/ 0.0089 <= x / ty_ w <= 1) ->
  via to_cieluv to_xyz h p (fun m d => ty m = CIELUV /\ nth_error (comps d) 1 = Some (x / ty_ w)).
Proof.
  intros Hp W Ec Hw PY C. destruct (xyz_range c x y z W Ec) as [Bx [By Bz]].
  assert (Dx : 0 <= x / ty_ w) by (apply Rmult_le_pos; [lra|left; apply Rinv_0_lt_compat; lra]).
  set (t := x / ty_ w) in *.
  assert (L1 : @lit R RArith (8856 # 1000000) = 0.008856) by (cbn; unfold Q2R; cbn; lra).
  assert (L2 : @lit R RArith (9033 # 10) = 903.3) by (cbn; unfold Q2R; cbn; lra).
  pose (L := if Rltb 0.008856 t then 116 * Rpow_c t (1 / 3) - 16 else 903.3 * t).
  assert (HL : 0 <= L <= 100 /\ (if Rltb (903.3 * 0.008856) L then Rpow_c ((L + 16) / 116) 3 else L / 903.3) = t).
  { unfold L. destruct C as [C|C].
    - rewrite (Rltb_ge 0.008856 t) by lra. rewrite Rltb_ge by lra. split; [lra|field; lra].
    - rewrite (Rltb_lt 0.008856 t) by lra. rewrite Rpow_c_pos by lra. rewrite pow3.
      pose proof (root3_cube t ltac:(lra)) as Q. pose proof (root3_gt t 0.207 ltac:(lra) ltac:(lra)) as G.
      set (u := Rpower t (1 / 3)) in *.
      assert (Gu : u <= 1).
      { destruct (Rle_lt_dec u 1) as [K|K]; [exact K|exfalso].
        assert (1 * 1 < u * u) by (apply Rmult_le_0_lt_compat; lra).
        assert (1 * 1 * 1 < u * u * u) by (apply Rmult_le_0_lt_compat; lra). lra. }
      rewrite Rltb_lt by lra. split; [lra|]. replace ((116 * u - 16 + 16) / 116) with u by lra. exact Q. }
  destruct HL as [BL HY].
  assert (Bt : 0 <= t <= 1) by lra.
  eapply (via_white to_cieluv to_xyz XYZ CIELUV xyz_to_cieluv_f cieluv_to_xyz_f h p c w);
    [disp|disp|exact Hp|exact W|exact Hw|apply xyz_to_cieluv_ok| | | |].
  - unfold xyz_to_cieluv_f, with3, n_root3, fgt. rewrite Ec. rn. rewrite L1, L2. fold t. fold L. rewrite cieluv_nf. reflexivity.
  - reflexivity.
  - unfold cieluv_to_xyz_f, with3, fgt. cbn [comps]. rn. rewrite L1, L2. rewrite (c100R L BL). rewrite HY. rewrite xyz_nf. reflexivity.
  - split; [reflexivity|]. cbn [comps nth_error]. rewrite c100R by lra. reflexivity.
Qed.

(** ** LCh(ab): the chroma is rescaled one way only *)
Lemma lch_round (h : heap R) p c l a : at_addr h p c -> wf_color LAB c -> comps c = [l; a; 0] -> 0 <= a ->
  via to_lch_ab to_lab h p (fun m d => ty m = LCH_AB /\ comps d = [l; (a + 128) * 100 / 256; 0]).
Proof.
  intros Hp W Ec Pa. pose proof (range3 c _ l a 0 W Ec) as [Bl [Ba _]]. cbn [comp_range fst snd] in Bl, Ba.
  eapply (via_leaf to_lch_ab to_lab LAB LCH_AB lab_to_lch_ab_f lch_ab_to_lab_f h p c);
    [disp|disp|exact Hp|exact W|apply lab_to_lch_ab_ok| | |].
  - unfold lab_to_lch_ab_f, with3, transform_range. rewrite Ec. rewrite (wf_min _ _ W), (wf_max _ _ W). cbn [limits fst snd fatan2 RArith]. rn.
    assert (S : sqrt (Rpow_c a 2 + Rpow_c 0 2) = a).
    { unfold Rpow_c. destruct (Req_EM_T 2 2); [|lra]. rewrite Rmult_0_r, Rplus_0_r. apply sqrt_square, Pa. }
    assert (T : Ratan2 0 a = 0).
    { unfold Ratan2. destruct (Rlt_dec 0 a); [unfold Rdiv; rewrite Rmult_0_l; apply atan_0|].
      destruct (Rlt_dec a 0); [lra|]. destruct (Rlt_dec 0 0); lra. }
    rewrite S, T. rewrite (Rltb_ge 0 0) by lra. rewrite lch_ab_nf. cbn [obind]. reflexivity.
  - unfold lch_ab_to_lab_f, with3. cbn [comps alpha_set base_alpha_set with_alpha cls fcos fsin fradians RArith]. rn.
    rewrite c100R by lra. rewrite (c100R _) by lra. rewrite (clampR_id 0 0 359) by lra.
    replace (0 * PI / 180) with 0 by lra. rewrite cos_0, sin_0. rewrite lab_nf. cbn [obind]. reflexivity.
  - split; [reflexivity|]. cbn [comps alpha_set base_alpha_set with_alpha cls].
    rewrite c100R by lra. rewrite !clamp_idR by lra. f_equal. f_equal; [lra|]. f_equal. lra.
Qed.

(** ** XYZ and RGB *)
Lemma mulvec_id (m i e : matrix R) v u : rect 3 3 m -> rect 3 3 i -> identity 3 = Ok e -> mmul i m = Ok e ->
  length v = 3%nat -> mulvec m v = Ok u -> mulvec i u = Ok v.
Proof.
  intros Rm Ri Ee Em Lv Eu. destruct (mulvec_mul 3 i m v Ri Rm Lv) as [ab [bv [r [E1 [E2 [E3 E4]]]]]].
  assert (ab = e) by congruence. assert (bv = u) by congruence. subst ab bv. rewrite E4. rewrite <- E3.
  rewrite identity_ok in Ee. injection Ee as <-. rewrite (mulvec_ok 3) by (auto; apply rect_mk).
  destruct v as [|x [|y [|z [|? ?]]]]; try discriminate Lv. f_equal.
  cbn [seq map nth]. unfold rsum. cbn. f_equal; [|f_equal; [|f_equal]]; try ring.
Qed.

Lemma xyz_round (h : heap R) p c i s gam r g b lr lg lb x y z : at_addr h p c -> wf_color RGB_DEEP c -> comps c = [r; g; b] ->
  rgb_space c = Some i -> nth_error (spaces h) i = Some s -> proper s -> s_gamma s = Some gam ->
  [lr; lg; lb] = map (inverse_gamma_correction gam) [r; g; b] ->
  0 <= lr <= 1 -> 0 <= lg <= 1 -> 0 <= lb <= 1 ->
  map (gamma_correction gam) [lr; lg; lb] = [r; g; b] ->
  mulvec (s_matrix s) [lr; lg; lb] = Ok [x; y; z] -> 0 <= x <= 100 -> 0 <= y <= 100 -> 0 <= z <= 100 ->
  via to_xyz to_rgb_deep h p (fun m d => ty m = XYZ /\ comps m = [x; y; z] /\ same_colour c d).
Proof.
  intros Hp W Ec Es Hs [wa [wp [Ew [_ MP]]]] Hg El Blr Blg Blb Eg EM Bx By Bz.
  destruct MP as [_ [_ [_ [_ [Rm [Ri [e [Ee [_ E2]]]]]]]]].
  destruct (deep_range c r g b W Ec) as [Br [Bg Bb]].
  cbn [map] in El, Eg. injection El as El1 El2 El3. injection Eg as Eg1 Eg2 Eg3.
  assert (Cc : comps (corrected (inverse_gamma_correction gam) c) = [lr; lg; lb]).
  { unfold corrected, with_comps. cbn [comps]. rewrite Ec. cbn [map]. rewrite (wf_max _ _ W), (wf_min _ _ W). cbn [limits fst snd].
    rewrite <- El1, <- El2, <- El3. rewrite !clamp_idR by assumption. reflexivity. }
  pose (m := Color XYZ XYZ [x; y; z] (m_alpha c) 100 0 (rgb_space c)).
  set (h1 := Heap (upd p (corrected (inverse_gamma_correction gam) c) (colors h) ++ [m]) (spaces h)).
  assert (Hm : at_addr h1 (length (colors h)) m).
  { unfold h1, at_addr. cbn [colors]. rewrite <- (upd_length p (corrected (inverse_gamma_correction gam) c) (colors h)).
    rewrite nth_error_app2 by lia. rewrite Nat.sub_diag. reflexivity. }
  assert (Wm : wf_color XYZ m).
  { destruct (xyz_made (AF := RArith) x y z (m_alpha c) (rgb_space c)) as [m' [E [Wm _]]].
    rewrite (xyz_eq x y z x y z) in E by (assumption || reflexivity). injection E as <-. exact Wm. }
  eexists (length (colors h)), (length (colors h1)), m, (Color RGB_DEEP RGB_DEEP [r; g; b] (m_alpha c) 1 0 (rgb_space c)), h1, _.
  split.
  { assert (D : dispatches to_xyz RGB_DEEP rgb_deep_to_xyz) by disp. rewrite (D h p c Hp (wf_ty _ _ W)).
    rewrite (rgb_deep_to_xyz_run h p c i s gam x y z Hp W Es Hs Hg); [|rewrite Cc; exact EM].
    rewrite !c100R by assumption. rewrite !fzR. reflexivity. }
  split; [exact Hm|]. split.
  { assert (D : dispatches to_rgb_deep XYZ xyz_to_rgb_deep) by disp. rewrite (D _ _ _ Hm eq_refl).
    rewrite (xyz_to_rgb_deep_run h1 _ m i s gam lr lg lb Hm Wm Es Hs Hg).
    2:{ apply (mulvec_id (s_matrix s) (s_inverse s) e [lr; lg; lb]); auto. }
    assert (X : forall v, 0 <= v <= 1 -> @c01x R RArith v = v).
    { intros v Hv. unfold c01x, clamp_float. rewrite (c01R v) by exact Hv. rn. rewrite Rmax_left, Rmin_left by lra. apply c01R, Hv. }
    rewrite !X by assumption. unfold corrected, with_comps. cbn [comps map cls ty m_alpha m_max m_min rgb_space].
    rewrite Eg1, Eg2, Eg3. rewrite !clamp_idR by assumption. rewrite !fzR. reflexivity. }
  split; [apply at_new|].
  split; [reflexivity|]. split; [reflexivity|]. apply same_deep; auto.
Qed.
