(** * RGB and XYZ by the matrix formulas; greys have no colour (C185, C186) *)
From Coq Require Import ZArith QArith Qreals Reals Lra Lia List Bool.
From Verif Require Import Arith Outcome ColorModel GammaModel MatrixModel SpaceModel Heap Converter RArith
  Spec Laws NormalForms Alpha8 Core_Proofs Core2_Proofs Spec_Matrix Matrix_Proofs Spec_Space Space_Proofs Spec_Conv Spec_Round Conv_Proofs Conv2_Proofs Run_Proofs HueR_Proofs
  Round_Proofs Round2_Proofs Round3_Proofs Spec_Formula Formula_Proofs Formula2_Proofs Formula3_Proofs Spec_Route Route_Proofs RoundEx_Proofs.
Import ListNotations.
Local Open Scope R_scope.

Lemma cut_bounds lo hi v : lo <= hi -> lo <= cut lo hi v <= hi.
Proof. intros H. unfold cut. split; [apply Rmax_l|]. apply Rmax_lub; [lra|apply Rmin_l]. Qed.
Lemma Ok_same {A} (x y : A) : Ok x = Ok y -> x = y.
Proof. intros E. injection E as E. exact E. Qed.
Lemma c01x_cut v : @c01x R RArith v = cut 0 1 v.
Proof.
  unfold c01x, clamp_float. rewrite (c01_cut v). assert (B : 0 <= cut 0 1 v <= 1) by (apply cut_bounds; lra).
  rn. rewrite Rmax_left, Rmin_left by lra. apply c01R, B.
Qed.

Section One.
Variables (h : heap R) (p : nat) (c : color R) (i : nat) (s : space_def R) (gam : gamma R).
Hypothesis Hp : at_addr h p c.
Hypothesis Es : rgb_space c = Some i.
Hypothesis Hs : nth_error (spaces h) i = Some s.
Hypothesis Hg : s_gamma s = Some gam.

Lemma deep_xyz_run r g b x y z : wf_color RGB_DEEP c -> comps c = [r; g; b] ->
  mulvec (s_matrix s) (map (fun v => cut 0 1 (inverse_gamma_correction gam v)) [r; g; b]) = Ok [x; y; z] ->
  exists h1, to_xyz (Some p) h = (Ok (Some (length (colors h))), h1) /\ spaces h1 = spaces h /\
    at_addr h1 (length (colors h)) (Color XYZ XYZ [cut 0 100 x; cut 0 100 y; cut 0 100 z] (m_alpha c) 100 0 (rgb_space c)).
Proof.
  intros W Ec EM.
  assert (K : comps (corrected (inverse_gamma_correction gam) c) = map (fun v => cut 0 1 (inverse_gamma_correction gam v)) [r; g; b]).
  { unfold corrected, with_comps. cbn [comps]. rewrite Ec. rewrite (wf_max _ _ W), (wf_min _ _ W). cbn [limits fst snd map].
    rewrite !cut_clamp by lra. reflexivity. }
  assert (D : dispatches to_xyz RGB_DEEP rgb_deep_to_xyz) by disp.
  rewrite (D h p c Hp (wf_ty _ _ W)).
  rewrite (rgb_deep_to_xyz_run h p c i s gam x y z Hp W Es Hs Hg) by (rewrite K; exact EM).
  eexists. split; [reflexivity|]. split; [reflexivity|].
  unfold at_addr. cbn [colors]. rewrite <- (upd_length p (corrected (inverse_gamma_correction gam) c) (colors h)) at 1.
  rewrite nth_error_app2 by apply le_n. rewrite Nat.sub_diag. cbn [nth_error]. rewrite !c100_cut, !fzR. reflexivity.
Qed.

Lemma xyz_wf x y z : wf_color XYZ (Color XYZ XYZ [cut 0 100 x; cut 0 100 y; cut 0 100 z] (m_alpha c) 100 0 (rgb_space c)).
Proof.
  destruct (xyz_made (AF := RArith) x y z (m_alpha c) (rgb_space c)) as [m' [E [Wm _]]].
  rewrite xyz_nf in E. apply Ok_same in E. rewrite <- E in Wm. rewrite !c100_cut, !fzR in Wm. exact Wm.
Qed.

(** RGB to XYZ *)
Lemma rgb_xyz_formula r g b m11 m12 m13 m21 m22 m23 m31 m32 m33 lr lg lb : wf_color RGB_DEEP c -> comps c = [r; g; b] ->
  s_matrix s = Mat 3 3 [[m11; m12; m13]; [m21; m22; m23]; [m31; m32; m33]] ->
  lr = cut 0 1 (inverse_gamma_correction gam r) -> lg = cut 0 1 (inverse_gamma_correction gam g) -> lb = cut 0 1 (inverse_gamma_correction gam b) ->
  yields to_xyz h p (fun m => ty m = XYZ /\
    comps m = [cut 0 100 (m11 * lr + m12 * lg + m13 * lb); cut 0 100 (m21 * lr + m22 * lg + m23 * lb); cut 0 100 (m31 * lr + m32 * lg + m33 * lb)] /\
    m_alpha m = m_alpha c /\ rgb_space m = rgb_space c).
Proof.
  intros W Ec EM -> -> ->.
  edestruct (deep_xyz_run r g b) as [h1 [E [_ A]]]; [exact W|exact Ec|rewrite EM; cbn [map]; apply mulvec33|].
  do 3 eexists. split; [exact E|]. split; [exact A|]. cbn. auto.
Qed.

(** XYZ to RGB *)
Lemma xyz_rgb_formula x y z m11 m12 m13 m21 m22 m23 m31 m32 m33 : wf_color XYZ c -> comps c = [x; y; z] ->
  s_inverse s = Mat 3 3 [[m11; m12; m13]; [m21; m22; m23]; [m31; m32; m33]] ->
  yields to_rgb_deep h p (fun m => ty m = RGB_DEEP /\
    comps m = map (fun l => cut 0 1 (gamma_correction gam (cut 0 1 l)))
      [m11 * x + m12 * y + m13 * z; m21 * x + m22 * y + m23 * z; m31 * x + m32 * y + m33 * z] /\
    m_alpha m = m_alpha c /\ rgb_space m = rgb_space c).
Proof.
  intros W Ec EM. assert (D : dispatches to_rgb_deep XYZ xyz_to_rgb_deep) by disp.
  unfold yields. rewrite (D h p c Hp (wf_ty _ _ W)).
  erewrite (xyz_to_rgb_deep_run h p c i s gam _ _ _ Hp W Es Hs Hg); [|rewrite EM, Ec; apply mulvec33].
  do 3 eexists. split; [reflexivity|]. split; [apply at_new|].
  unfold corrected, with_comps. cbn [comps ty m_alpha rgb_space m_max m_min map]. rewrite !cut_clamp by lra. rewrite !c01x_cut. auto.
Qed.

(** *** Greys *)
Hypothesis Pr : proper s.
Variables (a : nat) (w : white_point R) (v l : R).
Hypothesis Ew : s_white s = Some (a, w).
Hypothesis W : wf_color RGB_DEEP c.
Hypothesis Ec : comps c = [v; v; v].
Hypothesis El : l = cut 0 1 (inverse_gamma_correction gam v).

Lemma grey_run : exists h1, to_xyz (Some p) h = (Ok (Some (length (colors h))), h1) /\ spaces h1 = spaces h /\
    at_addr h1 (length (colors h)) (Color XYZ XYZ [cut 0 100 (l * tx w); cut 0 100 (l * ty_ w); cut 0 100 (l * tz w)] (m_alpha c) 100 0 (rgb_space c)).
Proof.
  destruct Pr as [a' [w' [Ew' [_ [MW [_ [_ [_ [Rm _]]]]]]]]]. rewrite Ew in Ew'. injection Ew' as <- <-.
  apply (deep_xyz_run v v v); [exact W|exact Ec|]. cbn [map]. rewrite <- El.
  destruct (rect33_inv _ Rm) as [m1 [m2 [m3 [m4 [m5 [m6 [m7 [m8 [m9 E]]]]]]]]]. rewrite E in *. rewrite mulvec33 in *.
  injection MW as E1 E2 E3. rewrite <- E1, <- E2, <- E3. f_equal. f_equal; [ring|]. f_equal; [ring|]. f_equal. ring.
Qed.
Lemma grey_white h1 : spaces h1 = spaces h -> forall k t l a mx mn, white_of h1 (Color k t l a mx mn (rgb_space c)) w.
Proof. intros E k t l' a' mx mn. exists i, s, a. rewrite E. repeat split; auto. Qed.
Lemma grey_space : has_space h c.
Proof.
  exists i, s. split; [exact Es|]. split; [exact Hs|]. destruct Pr as [a' [w' [Ew' [G [_ [_ [_ [_ [Rm [Ri _]]]]]]]]]].
  repeat split; try assumption; try (rewrite Ew'; discriminate); try apply Rm; try apply Ri.
Qed.

Lemma grey_to_xyz : yields to_xyz h p (fun m => ty m = XYZ /\ comps m = map (cut 0 100) [l * tx w; l * ty_ w; l * tz w] /\
  m_alpha m = m_alpha c /\ rgb_space m = rgb_space c).
Proof. destruct grey_run as [h1 [E [_ A]]]. do 3 eexists. split; [exact E|]. split; [exact A|]. cbn. auto. Qed.

Hypothesis Bx : 0 < tx w <= 100.
Hypothesis By : 0 < ty_ w <= 100.
Hypothesis Bz : 0 < tz w <= 100.

Lemma l_unit : 0 <= l <= 1.
Proof. rewrite El. apply cut_bounds. lra. Qed.
Lemma scaled t : 0 < t <= 100 -> cut 0 100 (l * t) = l * t.
Proof. intros B. pose proof l_unit. apply cut_id. split; [apply Rmult_le_pos; lra|]. assert (l * t <= 1 * t) by (apply Rmult_le_compat_r; lra). lra. Qed.

Lemma grey_to_lab : yields to_lab h p (fun m => ty m = LAB /\ comps m = [cut 0 100 (116 * cie_f l - 16); 0; 0] /\
  m_alpha m = cut 0 1 (m_alpha c) /\ rgb_space m = rgb_space c).
Proof.
  destruct grey_run as [h1 [E [Sp A]]]. rewrite !scaled in A by assumption.
  assert (Q : to_lab (Some p) h = bind (to_xyz (Some p)) to_lab h).
  { assert (N : RGB_DEEP <> UNDEFINED /\ LAB <> UNDEFINED /\ RGB_DEEP <> XYZ /\ XYZ <> LAB /\ RGB_DEEP <> LAB) by (repeat split; discriminate).
    destruct N as [N1 [N2 [N3 [N4 N5]]]]. exact (route_same_exact RGB_DEEP XYZ LAB eq_refl N1 N2 N3 N4 N5 h p c Hp W (fun _ => grey_space)). }
  pose proof (xyz_wf (l * tx w) (l * ty_ w) (l * tz w)) as Wm. rewrite !scaled in Wm by assumption.
  destruct (to_lab_cut h1 _ _ w (l * tx w) (l * ty_ w) (l * tz w) A Wm eq_refl (grey_white h1 Sp _ _ _ _ _ _) (proj1 Bx) (proj1 By) (proj1 Bz))
    as [q [m [h2 [E2 [A2 [T [C [Al S]]]]]]]].
  exists q, m, h2. split; [rewrite Q; unfold bind; rewrite E; exact E2|]. split; [exact A2|]. split; [exact T|].
  cbn [m_alpha rgb_space] in Al, S. split; [|auto]. rewrite C. unfold cie_L, cie_a, cie_b.
  replace (l * tx w / tx w) with l by (field; lra). replace (l * ty_ w / ty_ w) with l by (field; lra). replace (l * tz w / tz w) with l by (field; lra).
  rewrite Rminus_eq_0, !Rmult_0_r. rewrite !(cut_id (-128) 128) by lra. reflexivity.
Qed.

Lemma grey_to_luv : 0 < l -> yields to_cieluv h p (fun m => exists lu u v', comps m = [lu; u; v'] /\ u = 0 /\ 0 < v').
Proof.
  intros Pl0. destruct grey_run as [h1 [E [Sp A]]]. rewrite !scaled in A by assumption.
  assert (Q : to_cieluv (Some p) h = bind (to_xyz (Some p)) to_cieluv h).
  { assert (N : RGB_DEEP <> UNDEFINED /\ CIELUV <> UNDEFINED /\ RGB_DEEP <> XYZ /\ XYZ <> CIELUV /\ RGB_DEEP <> CIELUV) by (repeat split; discriminate).
    destruct N as [N1 [N2 [N3 [N4 N5]]]]. exact (route_same_exact RGB_DEEP XYZ CIELUV eq_refl N1 N2 N3 N4 N5 h p c Hp W (fun _ => grey_space)). }
  pose proof (xyz_wf (l * tx w) (l * ty_ w) (l * tz w)) as Wm. rewrite !scaled in Wm by assumption.
  destruct (luv_code h1 _ _ w (l * tx w) (l * ty_ w) (l * tz w) A Wm eq_refl (grey_white h1 Sp _ _ _ _ _ _) (proj1 By))
    as [q [m [h2 [E2 [A2 [T [C [Al S]]]]]]]].
  exists q, m, h2. split; [rewrite Q; unfold bind; rewrite E; exact E2|]. split; [exact A2|].
  specialize (C _ eq_refl). do 3 eexists. split; [exact C|].
  assert (U : ucs_u (l * tx w) (l * ty_ w) (l * tz w) = ucs_u (tx w) (ty_ w) (tz w)) by (unfold ucs_u; replace (l * tx w + 15 * (l * ty_ w) + 3 * (l * tz w)) with (l * (tx w + 15 * ty_ w + 3 * tz w)) by ring; field; split; lra).
  assert (V : ucs_v (l * tx w) (l * ty_ w) (l * tz w) = ucs_v (tx w) (ty_ w) (tz w)) by (unfold ucs_v; replace (l * tx w + 15 * (l * ty_ w) + 3 * (l * tz w)) with (l * (tx w + 15 * ty_ w + 3 * tz w)) by ring; field; split; lra).
  rewrite U, V. split; [rewrite Rminus_eq_0, Rmult_0_r; apply cut_id; lra|].
  set (t := l * tx w / ty_ w). assert (Pt : 0 < t) by (unfold t; apply Rdiv_lt_0_compat; [apply Rmult_lt_0_compat|]; lra).
  set (L := lightness t).
  assert (Pl : 0 < L).
  { unfold L, lightness. destruct (Rlt_dec _ _) as [K|K]; [|lra]. pose proof (root3_gt t 0.2 ltac:(lra) ltac:(lra)). lra. }
  assert (Pv : 0 < ucs_v (tx w) (ty_ w) (tz w)) by (unfold ucs_v; apply Rdiv_lt_0_compat; lra).
  set (v' := ucs_v (tx w) (ty_ w) (tz w)) in *. unfold cut.
  assert (0 < 13 * L * (v' - 4 / 9 * v')) by (apply Rmult_lt_0_compat; lra).
  apply Rlt_le_trans with (Rmin 100 (13 * L * (v' - 4 / 9 * v'))); [apply Rmin_glb_lt; lra|apply Rmax_r].
Qed.
End One.

(** xyY to XYZ *)
Lemma xyy_xyz_formula (h : heap R) p c x y Y : at_addr h p c -> wf_color XYY c -> comps c = [x; y; Y] ->
  yields to_xyz h p (fun m => ty m = XYZ /\
    comps m = (if Req_EM_T y 0 then [0; 0; 0] else [cut 0 100 (x * Y / y); Y; cut 0 100 ((1 - x - y) * Y / y)]) /\
    m_alpha m = m_alpha c /\ rgb_space m = rgb_space c).
Proof.
  intros Hp W Ec. assert (B : 0 <= Y <= 100) by exact (proj2 (proj2 (range3 c _ x y Y W Ec))).
  destruct (Req_EM_T y 0) as [Z|Z].
  - eapply (yields_leaf to_xyz XYY xyy_to_xyz_f h p c); [disp|exact Hp|exact W| |].
    + unfold xyy_to_xyz_f, with3. rewrite Ec. rn. rewrite Reqb_eq by exact Z. rewrite xyz_nf. reflexivity.
    + cbn [ty comps m_alpha rgb_space]. rewrite !c100R by lra. repeat split. apply (alpha_std c _ W eq_refl).
  - eapply (yields_leaf to_xyz XYY xyy_to_xyz_f h p c); [disp|exact Hp|exact W| |].
    + unfold xyy_to_xyz_f, with3. rewrite Ec. rn. rewrite Reqb_ne by exact Z. rewrite xyz_nf. reflexivity.
    + cbn [ty comps m_alpha rgb_space]. rewrite (c100R Y) by lra. rewrite !c100_cut. repeat split. apply (alpha_std c _ W eq_refl).
Qed.

(** *** Greys in the cylindrical types and CMYK *)
Section Cyl.
Variables (h : heap R) (p : nat) (c : color R) (v : R).
Hypothesis Hp : at_addr h p c.
Hypothesis W : wf_color RGB_DEEP c.
Hypothesis Ec : comps c = [v; v; v].
Definition kept (m : color R) (k : ctype) (l : list R) : Prop := ty m = k /\ comps m = l /\ m_alpha m = m_alpha c /\ rgb_space m = rgb_space c.

Lemma big3 : largest v v v = v. Proof. unfold largest. rewrite (Rmax_left v v), (Rmax_left v v); lra. Qed.
Lemma small3 : smallest v v v = v. Proof. unfold smallest. rewrite (Rmin_left v v), (Rmin_left v v); lra. Qed.
Lemma hue0 : Rmin (hexagon_hue v v v) 359 = 0.
Proof. unfold hexagon_hue. cbv zeta. rewrite big3, small3, Rminus_eq_0. destruct (Req_EM_T 0 0); [|lra]. apply Rmin_left. lra. Qed.

Lemma weaken go (P Q : color R -> Prop) : yields go h p P -> (forall m, P m -> Q m) -> yields go h p Q.
Proof. intros [q [m [h1 [E [A H]]]]] I. exists q, m, h1. auto. Qed.

Lemma grey_to_hsv : yields to_hsv h p (fun m => kept m HSV [0; 0; v]).
Proof.
  eapply weaken; [exact (hsv_published h p c v v v Hp W Ec)|]. intros m [T [C R]]. split; [exact T|]. split; [|exact R].
  rewrite C, hue0, big3, small3, Rminus_eq_0. unfold Rdiv. rewrite Rmult_0_l. destruct (Req_EM_T v 0); reflexivity.
Qed.
Lemma grey_to_hsl : yields to_hsl h p (fun m => kept m HSL [0; 0; v]).
Proof.
  eapply weaken; [exact (hsl_published h p c v v v Hp W Ec)|]. intros m [T [C R]]. split; [exact T|]. split; [|exact R].
  rewrite C, hue0, big3, small3. destruct (Req_EM_T v v); [|lra]. replace ((v + v) / 2) with v by field. reflexivity.
Qed.
Lemma grey_to_hsi : yields to_hsi h p (fun m => kept m HSI [0; 0; v]).
Proof.
  eapply weaken; [exact (hsi_published h p c v v v Hp W Ec)|]. intros m [T [C R]]. split; [exact T|]. split; [|exact R].
  rewrite C, hue0, small3. replace ((v + v + v) / 3) with v by field. destruct (Req_EM_T (v + v + v) 0); [reflexivity|].
  replace (1 - v / v) with 0 by (field; lra). reflexivity.
Qed.
Lemma grey_to_hcy : yields to_hcy h p (fun m => kept m HCY [0; 0; v]).
Proof.
  eapply weaken; [exact (hcy_published h p c v v v Hp W Ec)|]. intros m [T [C R]]. split; [exact T|]. split; [|exact R].
  rewrite C, hue0, big3, small3, Rminus_eq_0. unfold luma709. f_equal. f_equal. f_equal. lra.
Qed.
Lemma grey_to_cmyk : v <> 0 -> yields to_cmyk h p (fun m => kept m CMYK [0; 0; 0; 1 - v]).
Proof.
  intros N. eapply weaken; [exact (cmyk_published h p c v v v Hp W Ec (or_introl N))|]. intros m [T [C R]]. split; [exact T|]. split; [|exact R].
  specialize (C _ eq_refl). rewrite big3 in C. rewrite C. replace ((1 - v - (1 - v)) / (1 - (1 - v))) with 0 by (field; lra). reflexivity.
Qed.
End Cyl.

(** *** A grey in a preset space *)
Lemma grey_example (v : R) : 0 <= v <= 1 -> exists (h : heap R) c s gam a w, at_addr h 0%nat c /\ wf_color RGB_DEEP c /\ comps c = [v; v; v] /\
  rgb_space c = Some 0%nat /\ nth_error (spaces h) 0 = Some s /\ space_sRGB 0%nat = Ok s /\ proper s /\ s_gamma s = Some gam /\ s_white s = Some (a, w) /\
  0 < tx w <= 100 /\ 0 < ty_ w <= 100 /\ 0 < tz w <= 100.
Proof.
  intros V. pose (w := wp_D65_2Degree (AF := RArith)).
  assert (T1 : tx w = 0.9504) by (unfold w; cbn; unfold Q2R; cbn; lra).
  assert (T2 : ty_ w = 1) by (unfold w; cbn; unfold Q2R; cbn; lra).
  assert (T3 : tz w = 1.0888) by (unfold w; cbn; unfold Q2R; cbn; lra).
  destruct (space_ctor_ok (Q2R (16 # 25)) (Q2R (33 # 100)) (Q2R (3 # 10)) (Q2R (3 # 5)) (Q2R (3 # 20)) (Q2R (3 # 50)) 0%nat w (Some gamma_sRGB))
    as [s [E [Ew [Eg [Er [Egr [Eb M]]]]]]].
  { unfold nondegenerate, white_xyz, det_cols3. rewrite T1, T2, T3. unfold Q2R. cbn [Qnum Qden]. repeat split; lra. }
  destruct (deep_at v v v (Some 0%nat) [s]) as [h [c [A [B [C [D S]]]]]]; try assumption.
  exists h, c, s, gamma_sRGB, 0%nat, w.
  split; [exact A|]. split; [exact B|]. split; [exact C|]. split; [exact D|]. rewrite S. split; [reflexivity|]. split; [exact E|].
  split; [exists 0%nat, w; rewrite Er, Egr, Eb; split; [exact Ew|split; [rewrite Eg; discriminate|exact M]]|].
  split; [exact Eg|]. split; [exact Ew|]. rewrite T1, T2, T3. lra.
Qed.
Lemma xyy_example : exists (h : heap R) c, at_addr h 0%nat c /\ wf_color XYY c /\ comps c = [0.3; 0.6; 0.5].
Proof.
  destruct (xyy_made (AF := RArith) 0.3 0.6 0.5 1 None) as [c [E [W _]]]. exists (Heap [c] []), c.
  rewrite xyy_nf in E. apply Ok_same in E. rewrite <- E in *. rewrite !c100R in * by lra. split; [reflexivity|]. split; [exact W|reflexivity].
Qed.
