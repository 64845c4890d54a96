(** * chromatic_adaptation: binary32, and examples *)
From Coq Require Import ZArith QArith Reals Lra Lia List Bool.
From Flocq Require Import Core IEEE754.BinarySingleNaN.
From Verif Require Import Arith Outcome ColorModel GammaModel MatrixModel SpaceModel Heap Converter Calculation Adapt
  Spec F32 RArith F32Facts Hue32 Spec32 Laws NormalForms History Core_Proofs Core2_Proofs Core3_Proofs Core4_Proofs Convert_Proofs Alpha8
  Spec_Matrix Spec_Space Spec_Conv Spec_Calc Spec_Blend Spec_Adapt
  Conv_Proofs Conv2_Proofs Conv3_Proofs Gamma2_Proofs Space_Proofs Total_Proofs HueR_Proofs Calc_Proofs Blend_Proofs
  Run_Proofs Distance_Proofs Distance4_Proofs Distance5_Proofs Blend2_Proofs Adapt_Proofs Adapt2_Proofs Adapt3_Proofs.
Import ListNotations.
Local Open Scope R_scope.

(** ** The general theorem, in both arithmetics *)
Lemma adaptation_same o m (h : heap f32) p c i s : at_addr h p c -> rgb_space c = Some i -> nth_error (spaces h) i = Some s ->
  @adaptation f32 (F32 o) m (Some p) (s_white s) h = (Ok (Some p), h).
Proof. intros Hp Sc Hs. rewrite adaptation_eq. apply (adapt_same (AF := F32 o) _ h p c i s Hp Sc Hs). Qed.

Lemma adaptation_run o (m : method f32) X (h : heap f32) p c s a w0 b w : at_addr h p c -> @reachable f32 (F32 o) c -> cls c = X -> convertible X = true ->
  has_white h c s a w0 -> a <> b -> second_component m && grey X = false ->
  exists q r s' h', @adaptation f32 (F32 o) m (Some p) (Some (b, w)) h = (Ok (Some q), h') /\ fresh h q /\ at_addr h' q r /\ @wf_color f32 (F32 o) X r /\
    rgb_space r = Some (length (spaces h)) /\ rewhitened s s' b w /\ space_added h h' p s' /\ (X <> RGB_DEEP -> at_addr h' p c).
Proof.
  intros Hp Rc Cx Cv HW N G. pose proof (reachable_wf o c Rc) as W. rewrite Cx in W.
  destruct (adapt_run (AF := F32 o) m X h p c s a w0 b w Hp W Cv HW N G) as [q [r [s' [h' [E [A [Wr [Sr [_ [Rw [Sa [Fr [P _]]]]]]]]]]]]].
  exists q, r, s', h'. auto 10.
Qed.
Lemma adaptation_matrices (m : method R) X (h : heap R) p c s a w0 b w : at_addr h p c -> wf_color X c -> convertible X = true ->
  has_white h c s a w0 -> a <> b -> second_component m && grey X = false -> nondegenerate (s_red s) (s_green s) (s_blue s) (white_xyz w) ->
  exists q r s' h', adaptation m (Some p) (Some (b, w)) h = (Ok (Some q), h') /\ at_addr h' q r /\ wf_color X r /\
    rgb_space r = Some (length (spaces h)) /\ rewhitened s s' b w /\ maps_properly s' (s_red s) (s_green s) (s_blue s) w /\ space_added h h' p s'.
Proof.
  intros Hp W Cv HW N G ND.
  destruct (adapt_run m X h p c s a w0 b w Hp W Cv HW N G) as [q [r [s' [h' [E [A [Wr [Sr [Es [Rw [Sa _]]]]]]]]]]].
  exists q, r, s', h'. do 5 (split; [assumption|]). split; [|exact Sa].
  destruct (set_white_point_ok s b w ND) as [s'' [Es' [_ [_ [_ [_ [_ M]]]]]]]. rewrite Es in Es'. injection Es' as <-. exact M.
Qed.
Lemma adaptation_alpha o (m : method f32) X (h : heap f32) p c s a w0 b w : at_addr h p c -> @reachable f32 (F32 o) c -> cls c = X -> convertible X = true ->
  has_white h c s a w0 -> a <> b -> second_component m && grey X = false -> eight_bit X = false -> in_interval 0 1 (m_alpha c) -> ~ @black_hsl f32 (F32 o) c ->
  exists q r h', @adaptation f32 (F32 o) m (Some p) (Some (b, w)) h = (Ok (Some q), h') /\ at_addr h' q r /\ m_alpha r = m_alpha c.
Proof.
  intros Hp Rc Cx Cv HW N G E8 I NB. pose proof (reachable_wf o c Rc) as W. rewrite Cx in W.
  destruct (adapt_run (AF := F32 o) m X h p c s a w0 b w Hp W Cv HW N G) as [q [r [s' [h' [E [A [Wr [Sr [_ [Rw [Sa [Fr [P [Al _]]]]]]]]]]]]]].
  exists q, r, h'. split; [exact E|]. split; [exact A|]. unfold adapted_alpha in Al. rewrite Al.
  - unfold converted_alpha. rewrite E8. reflexivity.
  - apply within32; try sm. exact I.
  - intros Q. rewrite (wf_ty _ _ W), E8 in Q. discriminate Q.
  - exact NB.
Qed.

(** ** Failures *)
Lemma adaptation_grey o (m : method f32) (h : heap f32) p c s a w0 b w : at_addr h p c -> @reachable f32 (F32 o) c -> grey (cls c) = true ->
  has_white h c s a w0 -> a <> b -> second_component m = true -> fst (@adaptation f32 (F32 o) m (Some p) (Some (b, w)) h) = Undef.
Proof. intros Hp Rc G HW N S. exact (adapt_grey (AF := F32 o) m (cls c) h p c s a w0 b w Hp (reachable_wf o c Rc) HW N S G). Qed.
Lemma adaptation_lch o (m : method f32) (h : heap f32) p c s a w0 b w : at_addr h p c -> @reachable f32 (F32 o) c -> cls c = LCH_AB \/ cls c = LCH_UV ->
  has_white h c s a w0 -> a <> b -> exists h', @adaptation f32 (F32 o) m (Some p) (Some (b, w)) h = (Ok None, h').
Proof. intros Hp Rc G HW N. exact (adapt_lch (AF := F32 o) m (cls c) h p c s a w0 b w Hp (reachable_wf o c Rc) HW N G). Qed.
Lemma adaptation_null o (m : method f32) (h : heap f32) p c s a w0 : at_addr h p c -> @reachable f32 (F32 o) c ->
  has_white h c s a w0 -> fst (@adaptation f32 (F32 o) m (Some p) None h) = Undef.
Proof. intros Hp Rc HW. exact (adapt_null (AF := F32 o) m (cls c) h p c s a w0 Hp (reachable_wf o c Rc) HW). Qed.

Lemma adaptation_darkens o (m : method f32) : exists (h : heap f32) c c' b, at_addr h 0%nat c /\ @reachable f32 (F32 o) c /\ has_space h c /\
  (forall w, exists q h', @adaptation f32 (F32 o) m (Some 0%nat) (Some (b, w)) h = (Ok (Some q), h') /\ at_addr h' 0%nat c') /\
  comp_sat c 0 (fun x => is_value x (1 / 32)) /\ comp_sat c' 0 (fun x => is_finite x = true /\ (B2R x < 1 / 320)%R).
Proof.
  destruct (dark_deep o) as [s [c [U [Hg [W [Sc [Rc [C1 C2]]]]]]]]. pose (h := Heap [c] [s]).
  assert (Sw := proj1 U). destruct (s_white s) as [[a w0]|] eqn:Ew; [|congruence].
  assert (HW : has_white h c s a w0) by (exists 0%nat; auto).
  exists h, c. eexists. exists (S a). split; [reflexivity|]. split; [exact Rc|]. split; [exists 0%nat, s; auto|]. split; [|split; [exact C1|exact C2]].
  intros w. assert (N : a <> S a) by lia. assert (G : second_component m && grey RGB_DEEP = false) by (apply andb_false_r).
  assert (H0 : at_addr h 0%nat c) by reflexivity.
  destruct (adapt_run (AF := F32 o) m RGB_DEEP h 0%nat c s a w0 (S a) w H0 W eq_refl HW N G) as [q [r [s' [h' [E [_ [_ [_ [_ [_ [_ [_ [_ [_ [t [h1 [Et Old]]]]]]]]]]]]]]]]].
  destruct (deep_step (AF := F32 o) h 0%nat c 0%nat s _ eq_refl W Sc eq_refl U Hg) as [q2 [r2 [h2 [R2 [A2 _]]]]].
  exists q, h'. split; [exact E|]. apply Old. replace h1 with h2; [exact A2|].
  revert Et. unfold to_xyz, bind at 1. unfold load. cbn [colors h nth_error]. rewrite (wf_ty _ _ W). intros Et. rewrite R2 in Et. congruence.
Qed.

(** ** A second component of zero *)
Definition nonfin (x : f32) : Prop := is_finite x = false.
Lemma div_zero (x : f32) s : nonfin (Bdiv mode_NE x (B754_zero s)).
Proof. destruct x; reflexivity. Qed.
Lemma nonfin_div (x y : f32) : nonfin x -> nonfin (Bdiv mode_NE x y).
Proof. unfold nonfin. destruct x; try discriminate; destruct y; reflexivity. Qed.
Lemma mul_nonfin (x y : f32) : nonfin y -> nonfin (Bmult mode_NE x y).
Proof. unfold nonfin. destruct y; try discriminate; destruct x; reflexivity. Qed.
Lemma nonfin_mul (x y : f32) : nonfin x -> nonfin (Bmult mode_NE x y).
Proof. unfold nonfin. destruct x; try discriminate; destruct y; reflexivity. Qed.
Lemma nonfin_mul_zero (x : f32) s : nonfin x -> Bmult mode_NE x (B754_zero s) = B754_nan.
Proof. unfold nonfin. destruct x; try discriminate; reflexivity. Qed.
Lemma zero_mul_nonfin (x : f32) s : nonfin x -> Bmult mode_NE (B754_zero s) x = B754_nan.
Proof. unfold nonfin. destruct x; try discriminate; reflexivity. Qed.

Definition nine32 (l : list f32) : Prop := exists a b c d e f g h i, l = [a; b; c; d; e; f; g; h; i].
Lemma apply_nan o l y z : nine32 l -> @apply_static f32 (F32 o) l [B754_nan; y; z] = Ok (B754_nan, B754_nan, B754_nan).
Proof.
  intros [l1 [l2 [l3 [l4 [l5 [l6 [l7 [l8 [l9 ->]]]]]]]]]. unfold apply_static. rewrite data3_total. cbn [obind].
  unfold mulvec, sum_to. cbn. rewrite !mul_nan. repeat rewrite ?add_nan, ?nan_add. reflexivity.
Qed.

Lemma second_zero_value o (m : method f32) w0 w (x c : color f32) s : second_component m = true -> @wf_color f32 (F32 o) XYZ x ->
  nth_error (comps c) 1 = Some (B754_zero s) -> @method_f f32 (F32 o) m w0 w x c = Ok (B754_nan, B754_nan, B754_nan).
Proof.
  intros S Wx En. pose proof (wf_len _ _ Wx) as L. cbn [arity] in L. destruct (comps x) as [|x0 [|x1 [|x2 [|]]]] eqn:Cx; try discriminate L.
  assert (Er : raw_comp c 1 = Ok (B754_zero s)) by (unfold raw_comp; rewrite En; reflexivity).
  destruct m; try discriminate S; cbn [method_f]; [unfold bradford_f|unfold cmccat97_f]; unfold normalized_white; rewrite Cx.
  - destruct (apply_static_total (AF := F32 o) (@m_bradford f32 (F32 o)) x0 x1 x2) as [r0 [r1 [r2 E]]]; [unfold nine; repeat eexists; reflexivity|]. rewrite E. cbn [obind]. rewrite Er. cbn [obind].
    match goal with |- context [apply_static _ [?x; ?y; ?z]] => destruct (apply_static_total (AF := F32 o) (@m_bradford f32 (F32 o)) x y z) as [s0 [s1 [s2 E1]]]; [unfold nine; repeat eexists; reflexivity|]; rewrite E1 end.
    cbn [obind].
    match goal with |- context [apply_static _ [?x; ?y; ?z]] => destruct (apply_static_total (AF := F32 o) (@m_bradford f32 (F32 o)) x y z) as [d0 [d1 [d2 E2]]]; [unfold nine; repeat eexists; reflexivity|]; rewrite E2 end.
    cbn [obind]. cbn [fmul fdiv F32].
    rewrite (nonfin_mul_zero (Bmult mode_NE d0 (Bdiv mode_NE (Bdiv mode_NE r0 (B754_zero s)) s0)) s) by (apply mul_nonfin, nonfin_div, div_zero).
    apply apply_nan. unfold nine32; repeat eexists; reflexivity.
  - destruct (apply_static_total (AF := F32 o) (@m_cmccat97 f32 (F32 o)) x0 x1 x2) as [r0 [r1 [r2 E]]]; [unfold nine; repeat eexists; reflexivity|]. rewrite E. cbn [obind]. rewrite Er. cbn [obind].
    match goal with |- context [apply_static _ [?x; ?y; ?z]] => destruct (apply_static_total (AF := F32 o) (@m_cmccat97 f32 (F32 o)) x y z) as [s0 [s1 [s2 E1]]]; [unfold nine; repeat eexists; reflexivity|]; rewrite E1 end.
    cbn [obind].
    match goal with |- context [apply_static _ [?x; ?y; ?z]] => destruct (apply_static_total (AF := F32 o) (@m_cmccat97 f32 (F32 o)) x y z) as [d0 [d1 [d2 E2]]]; [unfold nine; repeat eexists; reflexivity|]; rewrite E2 end.
    cbn [obind]. cbv zeta. set (D := degree _). cbn [fmul fdiv F32].
    match goal with |- context [Bmult mode_NE (B754_zero s) (Bmult mode_NE (Bdiv mode_NE r0 (B754_zero s)) ?y)] =>
      rewrite (zero_mul_nonfin (Bmult mode_NE (Bdiv mode_NE r0 (B754_zero s)) y) s) by (apply nonfin_mul, div_zero) end.
    apply apply_nan. unfold nine32; repeat eexists; reflexivity.
Qed.
Lemma c100_nan o : @c100 f32 (F32 o) B754_nan = @fz f32 (F32 o) 100.
Proof. reflexivity. Qed.

(** If the computation gives NaNs, the result is the conversion of XYZ (100, 100, 100). *)
Definition hundred o : list f32 := [@fz f32 (F32 o) 100; @fz f32 (F32 o) 100; @fz f32 (F32 o) 100].
Lemma nan_run o (m : method f32) X (h : heap f32) p c s a w0 b w : at_addr h p c -> @wf_color f32 (F32 o) X c -> convertible X = true -> has_white h c s a w0 -> a <> b ->
  (forall x c1, @wf_color f32 (F32 o) XYZ x -> (X <> RGB_DEEP -> c1 = c) -> @method_f f32 (F32 o) m w0 w x c1 = Ok (B754_nan, B754_nan, B754_nan)) ->
  exists h2 k n, at_addr h2 k n /\ @wf_color f32 (F32 o) XYZ n /\ comps n = hundred o /\
    @adaptation f32 (F32 o) m (Some p) (Some (b, w)) h = @to_type f32 (F32 o) X (Some k) h2.
Proof.
  intros Hp W Cv HW N Em. rewrite adaptation_eq.
  destruct (adapt_prefix (AF := F32 o) (@method_f f32 (F32 o) m) X h p c s a w0 b w Hp W HW N) as [t [x [h1 [c1 [E [Ht [Wx [Hp1 [Wc1 [Al [Sc1 [I [Pu [O [L [RA Run]]]]]]]]]]]]]]]].
  destruct HW as [i [Sc [Hs [U Wh]]]]. rewrite (Em x c1 Wx (fun D => proj1 (Pu D))) in Run.
  destruct (set_white_full (AF := F32 o) s b w) as [s' [Es Rw]]; [apply U|]. rewrite Es in Run. cbv zeta in Run. rewrite Run.
  rewrite (convertTo_type X Cv). match goal with |- context [colors h1 ++ [?n]] => exists (Heap (colors h1 ++ [n]) (spaces h ++ [s'])), (length (colors h1)), n end.
  split; [apply at_new|]. split; [apply (xyz_wf_color (AF := F32 o))|]. split; reflexivity.
Qed.
Lemma zero_of_value (z : f32) : is_value z 0 -> exists sg, z = B754_zero sg.
Proof.
  intros [Fz Vz]. destruct z as [sg| | |sg mm ee Hb]; try discriminate Fz; [eauto|]. exfalso. unfold B2R in Vz. apply eq_0_F2R in Vz. destruct sg; discriminate Vz.
Qed.
Lemma second_zero o (m : method f32) X (h : heap f32) p c s a w0 b w z : at_addr h p c -> @reachable f32 (F32 o) c -> cls c = X -> X <> RGB_DEEP -> convertible X = true ->
  has_white h c s a w0 -> a <> b -> second_component m = true -> nth_error (comps c) 1 = Some z -> is_value z 0 ->
  exists h2 k n, at_addr h2 k n /\ @wf_color f32 (F32 o) XYZ n /\ comps n = hundred o /\
    @adaptation f32 (F32 o) m (Some p) (Some (b, w)) h = @to_type f32 (F32 o) X (Some k) h2.
Proof.
  intros Hp Rc Cx D Cv HW N S En Z0. pose proof (reachable_wf o c Rc) as W. rewrite Cx in W. destruct (zero_of_value z Z0) as [sg ->].
  apply (nan_run o m X h p c s a w0 b w Hp W Cv HW N). intros x c1 Wx Q. rewrite (Q D). apply (second_zero_value o m w0 w x c sg S Wx En).
Qed.

Lemma sub_nan (x : f32) : Bminus mode_NE x B754_nan = B754_nan. Proof. destruct x; reflexivity. Qed.
Lemma nan_sub (x : f32) : Bminus mode_NE B754_nan x = B754_nan. Proof. destruct x; reflexivity. Qed.
Lemma degree_nan o : @degree f32 (F32 o) B754_nan = B754_nan.
Proof. reflexivity. Qed.
Lemma dark_surround_value o f w0 w (x c : color f32) : @wf_color f32 (F32 o) XYZ x ->
  @method_f f32 (F32 o) (Cmccat2000 f (@fz f32 (F32 o) 0) (@fz f32 (F32 o) 0)) w0 w x c = Ok (B754_nan, B754_nan, B754_nan).
Proof.
  intros Wx. pose proof (wf_len _ _ Wx) as L. cbn [arity] in L. destruct (comps x) as [|x0 [|x1 [|x2 [|]]]] eqn:Cx; try discriminate L.
  cbn [method_f]. unfold cmccat2000_f, tristimulus. rewrite Cx.
  set (D := degree _). assert (Dn : D = B754_nan).
  { unfold D. replace (@fdiv f32 (F32 o) (@fsub f32 (F32 o) (@fz f32 (F32 o) 0) (@fz f32 (F32 o) 0)) (@fadd f32 (F32 o) (@fz f32 (F32 o) 0) (@fz f32 (F32 o) 0))) with (B754_nan : f32) by reflexivity.
    cbn [fmul fsub F32]. rewrite mul_nan, sub_nan, mul_nan. apply degree_nan. }
  clearbody D. subst D.
  destruct (apply_static_total (AF := F32 o) (@m_cmccat2000 f32 (F32 o)) x0 x1 x2) as [r0 [r1 [r2 E]]]; [unfold nine; repeat eexists; reflexivity|]. rewrite E. cbn [obind].
  match goal with |- context [apply_static _ [?x; ?y; ?z]] => destruct (apply_static_total (AF := F32 o) (@m_cmccat2000 f32 (F32 o)) x y z) as [s0 [s1 [s2 E1]]]; [unfold nine; repeat eexists; reflexivity|]; rewrite E1 end.
  cbn [obind].
  match goal with |- context [apply_static _ [?x; ?y; ?z]] => destruct (apply_static_total (AF := F32 o) (@m_cmccat2000 f32 (F32 o)) x y z) as [d0 [d1 [d2 E2]]]; [unfold nine; repeat eexists; reflexivity|]; rewrite E2 end.
  cbn [obind]. cbv zeta. cbn [fmul fdiv fadd fsub F32]. rewrite !sub_nan, !nan_mul. apply apply_nan. unfold nine32; repeat eexists; reflexivity.
Qed.
(** CMCCAT2000 with a dark surround: both luminances are zero. *)
Lemma dark_surround o f X (h : heap f32) p c s a w0 b w : at_addr h p c -> @reachable f32 (F32 o) c -> cls c = X -> convertible X = true ->
  has_white h c s a w0 -> a <> b ->
  exists h2 k n, at_addr h2 k n /\ @wf_color f32 (F32 o) XYZ n /\ comps n = hundred o /\
    @adaptation f32 (F32 o) (Cmccat2000 f (@fz f32 (F32 o) 0) (@fz f32 (F32 o) 0)) (Some p) (Some (b, w)) h = @to_type f32 (F32 o) X (Some k) h2.
Proof.
  intros Hp Rc Cx Cv HW N. pose proof (reachable_wf o c Rc) as W. rewrite Cx in W.
  apply (nan_run o _ X h p c s a w0 b w Hp W Cv HW N). intros x c1 Wx _. apply (dark_surround_value o f w0 w x c1 Wx).
Qed.

(** An XYZ colour without luminance. *)
Lemma black_becomes_bright o (m : method f32) (h : heap f32) p c s a w0 b w z : at_addr h p c -> @reachable f32 (F32 o) c -> cls c = XYZ ->
  has_white h c s a w0 -> a <> b -> second_component m = true -> nth_error (comps c) 1 = Some z -> is_value z 0 ->
  exists q r h', @adaptation f32 (F32 o) m (Some p) (Some (b, w)) h = (Ok (Some q), h') /\ at_addr h' q r /\ comps r = hundred o.
Proof.
  intros Hp Rc Cx HW N S En Z0. assert (D : XYZ <> RGB_DEEP) by discriminate.
  destruct (second_zero o m XYZ h p c s a w0 b w z Hp Rc Cx D eq_refl HW N S En Z0) as [h2 [k [n [A [Tn [Cn E]]]]]].
  exists k, n, h2. split; [|auto]. rewrite E. apply (to_type_same (AF := F32 o) XYZ h2 k n A Tn).
Qed.

(** ** Examples *)
Lemma adapt_example32 o X r g b' : X = XYZ \/ X = RGB_TRUE -> exists (h : heap f32) c s, at_addr h 0%nat c /\ @reachable f32 (F32 o) c /\ cls c = X /\
  has_white h c s 0%nat (@wp_D65_2Degree f32 (F32 o)) /\ @wf_color f32 (F32 o) X c /\
  comps c = map (fun n => clamp (AF := F32 o) (@fz f32 (F32 o) n) (@fz f32 (F32 o) (snd (limits X))) (@fz f32 (F32 o) 0)) [r; g; b'].
Proof.
  intros HX.
  destruct (space_ctor_usable (AF := F32 o) (lit32 (64 # 100)) (lit32 (33 # 100)) (lit32 (30 # 100)) (lit32 (60 # 100)) (lit32 (15 # 100)) (lit32 (6 # 100))
    0%nat (wp_D65_2Degree (AF := F32 o)) (gamma_sRGB (AF := F32 o))) as [s [Es [U [Hw _]]]].
  destruct HX as [-> | ->].
  - destruct (xyz_made (AF := F32 o) (AL := F32Laws o) (@fz f32 (F32 o) r) (@fz f32 (F32 o) g) (@fz f32 (F32 o) b') (@fz f32 (F32 o) 1) (Some 0%nat)) as [c [Ec [W [_ Sc]]]].
    exists (Heap [c] [s]), c, s. split; [reflexivity|]. split; [apply r_new; eapply mk_xyz; exact Ec|]. split; [apply (wf_cls _ _ W)|].
    split; [exists 0%nat; auto|]. split; [exact W|]. rewrite xyz_nf in Ec. apply Ok_inj in Ec. rewrite <- Ec. reflexivity.
  - destruct (rgb_truecolor_made (AF := F32 o) (AL := F32Laws o) (@fz f32 (F32 o) r) (@fz f32 (F32 o) g) (@fz f32 (F32 o) b') (@fz f32 (F32 o) 255) (Some 0%nat)) as [c [Ec [W [_ Sc]]]].
    exists (Heap [c] [s]), c, s. split; [reflexivity|]. split; [apply r_new; eapply mk_rgb_true; exact Ec|]. split; [apply (wf_cls _ _ W)|].
    split; [exists 0%nat; auto|]. split; [exact W|]. rewrite rgb_truecolor_nf in Ec. apply Ok_inj in Ec. rewrite <- Ec. reflexivity.
Qed.
Lemma adapt_exampleR w0 x y z : 0 <= x <= 100 -> 0 <= y <= 100 -> 0 <= z <= 100 -> exists (h : heap R) c s, at_addr h 0%nat c /\ wf_color XYZ c /\ has_white h c s 0%nat w0 /\ comps_are c (x, y, z).
Proof.
  intros Hx Hy Hz. destruct (space_ctor_usable (AF := RArith) 0.64 0.33 0.3 0.6 0.15 0.06 0%nat w0 gamma_sRGB) as [s [Es [U [Hw _]]]].
  destruct (xyz_made (AF := RArith) x y z 1 (Some 0%nat)) as [c [Ec [W [_ Sc]]]].
  exists (Heap [c] [s]), c, s. split; [reflexivity|]. split; [exact W|]. split; [exists 0%nat; auto|].
  rewrite xyz_nf in Ec. rewrite !c100R in Ec by lra. apply Ok_inj in Ec. rewrite <- Ec. reflexivity.
Qed.
Lemma white_example w0 : In w0 good_whites -> exists (h : heap R) c s, at_addr h 0%nat c /\ wf_color XYZ c /\ has_white h c s 0%nat w0 /\ comps_are c (white_vec w0).
Proof.
  intros H. destruct (presets_box w0 H) as [X [Y Zz]]. apply adapt_exampleR; [lra|rewrite Y; lra|lra].
Qed.
Lemma D65_good : In (@wp_D65_2Degree R RArith) good_whites.
Proof. unfold good_whites. cbn [In]. auto 10. Qed.
Lemma D50_good : In (@wp_D50_2Degree R RArith) good_whites.
Proof. unfold good_whites. cbn [In]. auto 10. Qed.
Lemma matrices_example : exists (h : heap R) c s, at_addr h 0%nat c /\ wf_color XYZ c /\ has_white h c s 0%nat wp_D65_2Degree /\
  nondegenerate (s_red s) (s_green s) (s_blue s) (white_xyz wp_D50_2Degree).
Proof.
  destruct (space_ctor_usable (AF := RArith) 0.64 0.33 0.3 0.6 0.15 0.06 0%nat wp_D65_2Degree gamma_sRGB) as [s [Es [U [Hw _]]]].
  destruct (xyz_made (AF := RArith) 1 1 1 1 (Some 0%nat)) as [c [Ec [W [_ Sc]]]].
  exists (Heap [c] [s]), c, s. split; [reflexivity|]. split; [exact W|]. split; [exists 0%nat; auto|].
  unfold space_ctor in Es. destruct (calculate_transformation_matrix _ _ _ _) as [m| | |]; try discriminate Es. cbn [obind] in Es.
  destruct (invert m) as [i| | |]; try discriminate Es. cbn [obind] in Es. apply Ok_inj in Es. rewrite <- Es. cbn [s_red s_green s_blue].
  unfold primary. rewrite ?fzR. cbn [fsub RArith].
  unfold nondegenerate, white_xyz, det_cols3; cbn [tx ty_ tz wp_D50_2Degree white_point5]; cbn [lit RArith]; unfold Q2R; cbn [Qnum Qden]; repeat split; lra.
Qed.
Lemma grey_example o : exists (h : heap f32) c s, at_addr h 0%nat c /\ @reachable f32 (F32 o) c /\ grey (cls c) = true /\
  has_white h c s 0%nat (@wp_D65_2Degree f32 (F32 o)).
Proof.
  destruct (space_ctor_usable (AF := F32 o) (lit32 (64 # 100)) (lit32 (33 # 100)) (lit32 (30 # 100)) (lit32 (60 # 100)) (lit32 (15 # 100)) (lit32 (6 # 100))
    0%nat (wp_D65_2Degree (AF := F32 o)) (gamma_sRGB (AF := F32 o))) as [s [Es [U [Hw _]]]].
  destruct (grey_deepcolor_made (AF := F32 o) (AL := F32Laws o) (lit32 (1 # 2)) (@fz f32 (F32 o) 1) (Some 0%nat)) as [c [Ec [W [_ Sc]]]].
  exists (Heap [c] [s]), c, s. split; [reflexivity|]. split; [apply r_new; eapply mk_grey_deep; exact Ec|]. split; [rewrite (wf_cls _ _ W); reflexivity|]. exists 0%nat; auto.
Qed.
Lemma lch_example o : exists (h : heap f32) c s, at_addr h 0%nat c /\ @reachable f32 (F32 o) c /\ cls c = LCH_AB /\
  has_white h c s 0%nat (@wp_D65_2Degree f32 (F32 o)).
Proof.
  destruct (space_ctor_usable (AF := F32 o) (lit32 (64 # 100)) (lit32 (33 # 100)) (lit32 (30 # 100)) (lit32 (60 # 100)) (lit32 (15 # 100)) (lit32 (6 # 100))
    0%nat (wp_D65_2Degree (AF := F32 o)) (gamma_sRGB (AF := F32 o))) as [s [Es [U [Hw _]]]].
  destruct (lch_ab_made (AF := F32 o) (AL := F32Laws o) (@fz f32 (F32 o) 50) (@fz f32 (F32 o) 20) (@fz f32 (F32 o) 30) (@fz f32 (F32 o) 1) (Some 0%nat)) as [c [Ec [W [_ Sc]]]].
  exists (Heap [c] [s]), c, s. split; [reflexivity|]. split; [apply r_new; eapply mk_lch_ab; exact Ec|]. split; [apply (wf_cls _ _ W)|]. exists 0%nat; auto.
Qed.
Lemma zero_clamped o : is_value (clamp (AF := F32 o) (@fz f32 (F32 o) 0) (@fz f32 (F32 o) 255) (@fz f32 (F32 o) 0)) 0.
Proof. change (clamp (AF := F32 o) (@fz f32 (F32 o) 0) (@fz f32 (F32 o) 255) (@fz f32 (F32 o) 0)) with (B754_zero false : f32). split; reflexivity. Qed.
Lemma linear_black m (h : heap R) p c s a w0 b w : simplified m = true -> at_addr h p c -> wf_color XYZ c -> has_white h c s a w0 -> a <> b ->
  comps_are c (0, 0, 0) -> exists q r h', adaptation m (Some p) (Some (b, w)) h = (Ok (Some q), h') /\ at_addr h' q r /\ comps_are r (0, 0, 0).
Proof.
  intros S Hp W HW N C. destruct (linear_formula m h p c s a w0 b w _ S Hp W HW N C) as [q [r [h' [E [A Cr]]]]].
  exists q, r, h'. split; [exact E|]. split; [exact A|].
  assert (M0 : forall l, nineR l -> mat3 l (0, 0, 0) = (0, 0, 0)).
  { intros l [l1 [l2 [l3 [l4 [l5 [l6 [l7 [l8 [l9 ->]]]]]]]]]. unfold mat3. f_equal; [f_equal|]; ring. }
  rewrite (M0 _ (matrix_nine m)) in Cr. replace (mul3 (div3 (responses m w) (responses m w0)) (0, 0, 0)) with (0, 0, 0) in Cr.
  2: { destruct (div3 _ _) as [[e0 e1] e2]. unfold mul3. f_equal; [f_equal|]; ring. }
  rewrite (M0 _ (inverse_nine m)), Adapt2_Proofs.clamp_id in Cr by (unfold bounded3; lra). exact Cr.
Qed.
Lemma degree_example : 0 < cat02_degree 1 60 < 1.
Proof.
  unfold cat02_degree, unit_clamp. set (e := exp _).
  assert (P : 0 < e < 1). { unfold e. split; [apply exp_pos|]. rewrite <- exp_0. apply exp_increasing. lra. }
  rewrite Rmin_right, Rmax_right by lra. lra.
Qed.

Lemma adapting_luminance (L p : R) : calculate_adapting_luminance L 100 = L /\ calculate_adapting_luminance L 20 = L / 5 /\
  calculate_adapting_luminance L p * 100 = L * p.
Proof. unfold calculate_adapting_luminance. rewrite !fzR. cbn [fmul fdiv RArith]. repeat split; field. Qed.
