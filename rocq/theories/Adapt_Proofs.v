(** * chromatic_adaptation: structure of all adaptation functions *)
From Coq Require Import ZArith QArith Reals Lra Lia List Bool.
From Flocq Require Import Core IEEE754.BinarySingleNaN.
From Verif Require Import Arith Outcome ColorModel GammaModel MatrixModel SpaceModel Heap Converter Calculation Adapt
  Spec F32 RArith F32Facts Spec32 Laws NormalForms History Core_Proofs Core2_Proofs Core3_Proofs Core4_Proofs Convert_Proofs Alpha8
  Spec_Matrix Spec_Conv Spec_Calc Spec_Blend Spec_Adapt
  Conv_Proofs Conv2_Proofs Conv3_Proofs Total_Proofs Calc_Proofs Blend_Proofs Run_Proofs Distance_Proofs.
Import ListNotations.

Section Structure.
Context {F : Type} {AF : Arith F} {AL : ArithLaws F} {A8 : Alpha8Laws F}.
Local Notation color := (color F).
Local Notation heap := (heap F).
Local Notation white_point := (white_point F).

Lemma white_ptr_eqb_refl (w : white_ptr F) : white_ptr_eqb w w = true.
Proof. destruct w as [[a w]|]; cbn; [apply Nat.eqb_refl|reflexivity]. Qed.

(** Every adaptation function is [adapt] of some function. *)
Definition method_f (m : method F) : white_point -> white_point -> color -> color -> outcome (F * F * F) :=
  match m with
  | VonKries => do_adaption_f m_von_kries m_inverted_von_kries
  | BradfordSimplified => do_adaption_f m_bradford m_inverted_bradford
  | XyzScale => do_adaption_f m_xyz_scale m_inverted_xyz_scale
  | Sharp => do_adaption_f m_sharp m_inverted_sharp
  | Cmccat97Simplified => do_adaption_f m_cmccat97 m_inverted_cmccat97
  | Cmccat2000Simplified => do_adaption_f m_cmccat2000 m_inverted_cmccat2000
  | Cat02Simplified => do_adaption_f m_cat02 m_inverted_cat02
  | Bradford => bradford_f
  | Cmccat97 f a => cmccat97_f f a
  | Cmccat2000 f a r => cmccat2000_f f a r
  | Cat02 f a => cat02_f f a
  end.
Lemma adaptation_eq m p w : adaptation m p w = adapt (method_f m) p w.
Proof. destruct m; reflexivity. Qed.

Lemma adapt_same f (h : heap) p c i s : at_addr h p c -> rgb_space c = Some i -> nth_error (spaces h) i = Some s ->
  adapt f (Some p) (s_white s) h = (Ok (Some p), h).
Proof.
  intros Hp Sc Hs. unfold adapt, bind at 1. unfold load. unfold at_addr in Hp. rewrite Hp. unfold bind at 1. unfold load_space. rewrite Sc, Hs.
  rewrite white_ptr_eqb_refl. reflexivity.
Qed.

(** ** Totality of the computation on tristimulus values *)
Lemma data3_total (a b c d e f g h i : F) : matrix_data 3 3 [a; b; c; d; e; f; g; h; i] = Ok (Mat 3 3 [[a; b; c]; [d; e; f]; [g; h; i]]).
Proof. reflexivity. Qed.
Lemma rect33 (a b c d e f g h i : F) : rect 3 3 (Mat 3 3 [[a; b; c]; [d; e; f]; [g; h; i]]).
Proof. unfold rect. cbn. do 3 (split; [reflexivity|]). intros row [<-|[<-|[<-|[]]]]; reflexivity. Qed.

Definition nine (l : list F) : Prop := exists a b c d e f g h i, l = [a; b; c; d; e; f; g; h; i].
Lemma apply_static_total l x y z : nine l -> exists a b c, apply_static l [x; y; z] = Ok (a, b, c).
Proof.
  intros [l1 [l2 [l3 [l4 [l5 [l6 [l7 [l8 [l9 ->]]]]]]]]]. unfold apply_static. rewrite data3_total. cbn [obind].
  destruct (mulvec3_total _ x y z (rect33 l1 l2 l3 l4 l5 l6 l7 l8 l9)) as [a [b [c E]]]. rewrite E. cbn [obind]. eauto.
Qed.
Lemma do_adaption_total l k w0 w (x c : color) x0 x1 x2 : nine l -> nine k -> comps x = [x0; x1; x2] -> exists v, do_adaption_f l k w0 w x c = Ok v.
Proof.
  intros Nl Nk Cx. unfold do_adaption_f, tristimulus.
  destruct (apply_static_total l (tx w0) (ty_ w0) (tz w0) Nl) as [s0 [s1 [s2 E1]]]. rewrite E1. cbn [obind].
  destruct (apply_static_total l (tx w) (ty_ w) (tz w) Nl) as [d0 [d1 [d2 E2]]]. rewrite E2. cbn [obind].
  destruct Nl as [l1 [l2 [l3 [l4 [l5 [l6 [l7 [l8 [l9 ->]]]]]]]]]. destruct Nk as [k1 [k2 [k3 [k4 [k5 [k6 [k7 [k8 [k9 ->]]]]]]]]].
  rewrite !data3_total. cbn [obind]. rewrite Cx.
  match goal with |- context [mmul ?a ?b] => destruct (mmul_total 3 a b (rect33 _ _ _ _ _ _ _ _ _) (rect33 _ _ _ _ _ _ _ _ _)) as [m1 [E3 R1]]; rewrite E3 end.
  cbn [obind].
  match goal with |- context [mmul m1 ?b] => destruct (mmul_total 3 m1 b R1 (rect33 _ _ _ _ _ _ _ _ _)) as [m2 [E4 R2]]; rewrite E4 end.
  cbn [obind]. destruct (mulvec3_total m2 x0 x1 x2 R2) as [a [b [e E5]]]. rewrite E5. cbn [obind]. eauto.
Qed.

Ltac nine_tac := unfold nine; repeat eexists; reflexivity.
Ltac static_step := match goal with |- context [apply_static ?l [?x; ?y; ?z]] =>
  let a := fresh "a" in let b := fresh "b" in let c := fresh "c" in let E := fresh "E" in
  destruct (apply_static_total l x y z) as [a [b [c E]]]; [nine_tac|]; rewrite E; cbn [obind] end.

Lemma method_total m w0 w (x c : color) X : wf_color XYZ x -> wf_color X c -> second_component m && grey X = false -> exists v, method_f m w0 w x c = Ok v.
Proof.
  intros Wx Wc N. pose proof (wf_len _ _ Wx) as L. cbn [arity] in L.
  destruct (comps x) as [|x0 [|x1 [|x2 [|]]]] eqn:Cx; try discriminate L. clear L.
  assert (R : second_component m = true -> exists n, raw_comp c 1 = Ok n).
  { intros Q. rewrite Q in N. cbn in N. pose proof (wf_len _ _ Wc) as L. pose proof (wf_real _ _ Wc) as U. unfold raw_comp.
    destruct (nth_error (comps c) 1) eqn:En; [eauto|]. apply nth_error_None in En. rewrite L in En.
    destruct X; try discriminate N; try (exfalso; apply U; reflexivity); cbn in En; lia. }
  destruct m; cbn [method_f]; try (eapply do_adaption_total; [nine_tac|nine_tac|exact Cx]).
  - destruct (R eq_refl) as [n En]. unfold bradford_f, normalized_white. rewrite Cx. static_step. rewrite En. cbn [obind].
    static_step. static_step. static_step. eauto.
  - destruct (R eq_refl) as [n En]. unfold cmccat97_f, normalized_white. rewrite Cx. static_step. rewrite En. cbn [obind].
    static_step. static_step. static_step. eauto.
  - unfold cmccat2000_f, tristimulus. rewrite Cx. static_step. static_step. static_step. static_step. eauto.
  - unfold cat02_f, tristimulus. rewrite Cx. static_step. static_step. static_step. static_step. eauto.
Qed.

(** ** The whole run *)
Lemma set_white_full (s : space_def F) a w : s_gamma s <> None -> exists s', set_white_point s (Some (a, w)) = Ok s' /\ rewhitened s s' a w.
Proof.
  intros G. destruct (set_white_usable s a w G) as [s' [E [U [Wh Ga]]]]. exists s'. split; [exact E|].
  unfold set_white_point in E. destruct (calculate_transformation_matrix _ _ _ _) as [m| | |]; try discriminate E. cbn [obind] in E.
  destruct (invert m) as [i| | |]; try discriminate E. cbn [obind] in E. injection E as <-. unfold rewhitened. cbn. auto 10.
Qed.

Lemma space_white_ne (s : space_def F) a w0 b w : s_white s = Some (a, w0) -> a <> b -> white_ptr_eqb (s_white s) (Some (b, w)) = false.
Proof. intros -> N. cbn. apply Nat.eqb_neq. exact N. Qed.

(** The run up to the final conversion. *)
Lemma adapt_prefix f X (h : heap) p c s a w0 b w : at_addr h p c -> wf_color X c -> has_white h c s a w0 -> a <> b ->
  exists t x h1 c1, to_xyz (Some p) h = (Ok (Some t), h1) /\ at_addr h1 t x /\ wf_color XYZ x /\ at_addr h1 p c1 /\ wf_color X c1 /\
    m_alpha c1 = m_alpha c /\ rgb_space c1 = rgb_space c /\
    (X = XYZ -> x = c) /\ (X <> RGB_DEEP -> c1 = c /\ unchanged h h1) /\ others_unchanged h h1 p /\ (length (colors h) <= length (colors h1))%nat /\
    (X <> XYZ -> rel_alpha X XYZ c x) /\
    adapt f (Some p) (Some (b, w)) h =
      match f w0 w x c1 with
      | Ok (u0, u1, u2) =>
          match set_white_point s (Some (b, w)) with
          | Ok s' => let h2 := Heap (colors h1 ++ [Color XYZ XYZ [c100 u0; c100 u1; c100 u2] (m_alpha x) (fz 100) (fz 0) (Some (length (spaces h)))]) (spaces h ++ [s']) in
                     convertTo (Some (length (colors h1))) X h2
          | Throw e => (Throw e, h1)
          | Undef => (Undef, h1)
          | Diverge => (Diverge, h1)
          end
      | Throw e => (Throw e, h1)
      | Undef => (Undef, h1)
          | Diverge => (Diverge, h1)
      end.
Proof.
  intros Hp W [i [Sc [Hs [U Wh]]]] N.
  assert (Sp : has_space h c) by (exists i, s; auto).
  assert (P : exists t x h1 c1, to_xyz (Some p) h = (Ok (Some t), h1) /\ at_addr h1 t x /\ wf_color XYZ x /\ at_addr h1 p c1 /\ wf_color X c1 /\
    m_alpha c1 = m_alpha c /\ rgb_space c1 = rgb_space c /\
    (X = XYZ -> x = c) /\ (X <> RGB_DEEP -> c1 = c /\ unchanged h h1) /\ others_unchanged h h1 p /\ (length (colors h) <= length (colors h1))%nat /\ (X <> XYZ -> rel_alpha X XYZ c x)).
  { destruct (ctype_eq_dec X XYZ) as [->|D].
    - exists p, c, h, c. split; [apply (to_type_same XYZ h p c Hp W)|]. do 2 (split; [assumption|]). split; [exact Hp|]. split; [exact W|].
      do 3 (split; [reflexivity|]). split; [intros _; split; [reflexivity|apply unchanged_refl]|]. split; [split; auto|]. split; [lia|congruence].
    - destruct (to_type_cv X XYZ (wf_real _ _ W) ltac:(discriminate) D h p c Hp W (fun _ => Sp)) as [q [r [h' [c' [E [Fq [Hq [Wr [S [O [P' [Wc' [Al [Sc' [Pu RA]]]]]]]]]]]]]]].
      exists q, r, h', c'. split; [exact E|]. do 2 (split; [assumption|]). split; [exact P'|]. split; [exact Wc'|]. split; [exact Al|]. split; [exact Sc'|].
      split; [congruence|]. split. { intros Nd.
        assert (c' = c) as -> by (apply Pu; unfold changes_source; destruct X; try reflexivity; congruence).
        split; [reflexivity|]. destruct O as [O1 O2]. split; [exact O1|]. intros j cj Hj. destruct (Nat.eq_dec j p) as [->|Nj]; [|auto]. unfold at_addr in *. congruence. }
      split; [exact O|]. split; [|intros _; exact RA].
      pose proof (at_addr_lt _ _ _ Hq) as L. unfold fresh in Fq. lia. }
  destruct P as [t [x [h1 [c1 [E [Ht [Wx [Hp1 [Wc1 [Al [Sc1 [I [Pu [O [L RA]]]]]]]]]]]]]]].
  exists t, x, h1, c1. do 12 (split; [assumption|]).
  unfold adapt, bind at 1. unfold load at 1. unfold at_addr in Hp. rewrite Hp. unfold bind at 1. unfold load_space at 1. rewrite Sc, Hs.
  rewrite (space_white_ne s a w0 b w Wh N). unfold bind at 1. rewrite E. unfold bind at 1. rewrite (load_as_ok h1 t x XYZ Ht Wx).
  unfold bind at 1. unfold load. unfold at_addr in Hp1. rewrite Hp1. unfold bind at 1. unfold load_space. rewrite Sc1, Sc, (proj1 O), Hs.
  unfold bind at 1. unfold lift at 1. rewrite Wh. cbn [deref_white]. unfold bind at 1. unfold lift at 1. unfold bind at 1. unfold lift at 1.
  destruct (f w0 w x c1) as [[[u0 u1] u2]| | |]; [|reflexivity..].
  unfold bind at 1. unfold lift at 1. unfold space_copy. destruct (set_white_point s (Some (b, w))) as [s'| | |]; [|reflexivity..].
  unfold bind at 1. unfold alloc_space. unfold bind at 1. rewrite xyz_nf. unfold lift. unfold bind. rewrite alloc_at. cbn [colors spaces].
  rewrite (wf_ty _ _ Wc1), (proj1 O). unfold alpha. rewrite (wf_cls _ _ Wx). reflexivity.
Qed.

Lemma xyz_wf_color u0 u1 u2 al sp : wf_color XYZ (Color XYZ XYZ [c100 u0; c100 u1; c100 u2] al (fz 100) (fz 0) sp).
Proof. destruct (xyz_made u0 u1 u2 al sp) as [r [E [W _]]]. rewrite xyz_nf in E. injection E as <-. exact W. Qed.

Definition adapted_alpha (X : ctype) (c r : color) : Prop :=
  alpha_ok c -> alpha_form c -> ~ black_hsl c -> m_alpha r = converted_alpha XYZ X (m_alpha c).

Lemma adapt_run m X (h : heap) p c s a w0 b w : at_addr h p c -> wf_color X c -> convertible X = true -> has_white h c s a w0 -> a <> b ->
  second_component m && grey X = false ->
  exists q r s' h', adaptation m (Some p) (Some (b, w)) h = (Ok (Some q), h') /\ at_addr h' q r /\ wf_color X r /\
    rgb_space r = Some (length (spaces h)) /\ set_white_point s (Some (b, w)) = Ok s' /\ rewhitened s s' b w /\ space_added h h' p s' /\ fresh h q /\
    (X <> RGB_DEEP -> at_addr h' p c) /\ adapted_alpha X c r /\ (exists t h1, to_xyz (Some p) h = (Ok (Some t), h1) /\ forall j cj, at_addr h1 j cj -> at_addr h' j cj).
Proof.
  intros Hp W C HW N G. rewrite adaptation_eq.
  destruct (adapt_prefix (method_f m) X h p c s a w0 b w Hp W HW N) as [t [x [h1 [c1 [E [Ht [Wx [Hp1 [Wc1 [Al [Sc1 [I [Pu [O [L [RA Run]]]]]]]]]]]]]]]].
  destruct HW as [i [Sc [Hs [U Wh]]]].
  rewrite Run. clear Run. destruct (method_total m w0 w x c1 X Wx Wc1 G) as [[[u0 u1] u2] Ef]. rewrite Ef.
  destruct (set_white_full s b w) as [s' [Es Rw]]; [apply U|]. rewrite Es. cbv zeta. set (n := Color XYZ XYZ _ _ _ _ _).
  set (h2 := Heap (colors h1 ++ [n]) (spaces h ++ [s'])). set (k := length (colors h1)).
  assert (Wn : wf_color XYZ n) by apply xyz_wf_color.
  assert (Hn : at_addr h2 k n) by apply at_new.
  assert (Sn : has_space h2 n).
  { exists (length (spaces h)), s'. split; [reflexivity|]. split; [|apply Rw]. unfold h2. cbn [spaces]. rewrite nth_error_app2 by lia. rewrite Nat.sub_diag. reflexivity. }
  assert (UX : X <> UNDEFINED) by (intros ->; discriminate C).
  assert (UZ : XYZ <> UNDEFINED) by discriminate. assert (DZ : XYZ <> RGB_DEEP) by discriminate.
  destruct (to_pure XYZ X UZ UX (or_introl DZ) h2 k n Hn Wn (fun _ => Sn)) as [q [r [h' [Eq [Hq [Wr [Sr [[U1 U2] [Fr [Rl Id]]]]]]]]]].
  rewrite (convertTo_type X C). exists q, r, s', h'. split; [exact Eq|]. split; [exact Hq|]. split; [exact Wr|]. split; [exact Sr|]. split; [reflexivity|]. split; [exact Rw|].
  assert (Old : forall j cj, at_addr h1 j cj -> at_addr h' j cj). { intros j cj Hj. apply U2. apply at_old. exact Hj. }
  split. { split; [rewrite U1; reflexivity|]. intros j cj Nj Hj. apply Old. apply O; assumption. }
  split. { unfold fresh in *. destruct (ctype_eq_dec XYZ X) as [Q|Q]; [destruct (Id Q) as [-> _]; unfold k; lia|].
    specialize (Fr Q). unfold h2 in Fr. cbn [colors] in Fr. rewrite app_length in Fr. lia. }
  split. { intros Nd. destruct (Pu Nd) as [-> _]. apply Old. exact Hp1. }
  split; [|exists t, h1; auto].
  intros A1 A2 A3. destruct (ctype_eq_dec XYZ X) as [<-|Q].
  - destruct (Id eq_refl) as [_ ->]. unfold n. cbn [m_alpha]. rewrite (I eq_refl). reflexivity.
  - destruct (RA (not_eq_sym Q) A1 A2 A3) as [B1 [B2 B3]].
    assert (Mx : m_alpha n = m_alpha c) by (unfold n; cbn [m_alpha]; rewrite B3; reflexivity).
    destruct (Rl Q) as [_ [_ D]].
    + unfold alpha_ok. rewrite Mx. exact A1.
    + intros V. discriminate V.
    + intros V. unfold black_hsl in V. unfold n in V. cbn in V. destruct V as [V _]. discriminate V.
    + rewrite D, Mx. reflexivity.
Qed.

(** ** The failures *)
Lemma adapt_grey m X (h : heap) p c s a w0 b w : at_addr h p c -> wf_color X c -> has_white h c s a w0 -> a <> b ->
  second_component m = true -> grey X = true -> fst (adaptation m (Some p) (Some (b, w)) h) = Undef.
Proof.
  intros Hp W HW N G GX. rewrite adaptation_eq.
  destruct (adapt_prefix (method_f m) X h p c s a w0 b w Hp W HW N) as [t [x [h1 [c1 [E [Ht [Wx [Hp1 [Wc1 [_ [_ [_ [_ [_ [_ [_ Run]]]]]]]]]]]]]]]].
  rewrite Run. clear Run. pose proof (wf_len _ _ Wx) as L. cbn [arity] in L. destruct (comps x) as [|x0 [|x1 [|x2 [|]]]] eqn:Cx; try discriminate L.
  assert (R : raw_comp c1 1 = Undef).
  { unfold raw_comp. assert (Q : nth_error (comps c1) 1 = None) by (apply nth_error_None; rewrite (wf_len _ _ Wc1); destruct X; try discriminate GX; cbn; lia). rewrite Q. reflexivity. }
  assert (Z0 : method_f m w0 w x c1 = Undef).
  { destruct m; try discriminate G; cbn [method_f]; [unfold bradford_f|unfold cmccat97_f]; rewrite Cx; static_step; rewrite R; reflexivity. }
  rewrite Z0. reflexivity.
Qed.

Lemma adapt_lch m X (h : heap) p c s a w0 b w : at_addr h p c -> wf_color X c -> has_white h c s a w0 -> a <> b ->
  X = LCH_AB \/ X = LCH_UV -> exists h', adaptation m (Some p) (Some (b, w)) h = (Ok None, h').
Proof.
  intros Hp W HW N GX. rewrite adaptation_eq.
  destruct (adapt_prefix (method_f m) X h p c s a w0 b w Hp W HW N) as [t [x [h1 [c1 [E [Ht [Wx [Hp1 [Wc1 [_ [_ [_ [_ [_ [_ [_ Run]]]]]]]]]]]]]]]].
  rewrite Run. clear Run. destruct HW as [i [Sc [Hs [U Wh]]]].
  destruct (method_total m w0 w x c1 X Wx Wc1) as [[[u0 u1] u2] Ef]. { destruct GX as [-> | ->]; cbn; apply andb_false_r. }
  rewrite Ef. destruct (set_white_full s b w) as [s' [Es _]]; [apply U|]. rewrite Es. cbv zeta.
  destruct GX as [-> | ->]; cbn [convertTo]; unfold ret; eauto.
Qed.

Lemma adapt_null m X (h : heap) p c s a w0 : at_addr h p c -> wf_color X c -> has_white h c s a w0 -> fst (adaptation m (Some p) None h) = Undef.
Proof.
  intros Hp W [i [Sc [Hs [U Wh]]]]. rewrite adaptation_eq. assert (Sp : has_space h c) by (exists i, s; auto).
  destruct (to_step X XYZ h p c ltac:(discriminate) Hp W (fun _ => Sp)) as [q [r [h' [E [Hq [Wr [Sr [[O1 O2] [Fr [Id Pu]]]]]]]]]].
  unfold adapt, bind at 1. unfold load at 1. unfold at_addr in Hp. rewrite Hp. unfold bind at 1. unfold load_space at 1. rewrite Sc, Hs, Wh. cbn [white_ptr_eqb].
  unfold bind at 1. change (to_xyz (Some p) h) with (to_type XYZ (Some p) h). rewrite E. unfold bind at 1. rewrite (load_as_ok h' q r XYZ Hq Wr). unfold bind at 1.
  destruct (load (Some p) h') as [[cc| | |] hh] eqn:El; try reflexivity.
  2, 3: unfold load in El; destruct (nth_error (colors h') p); discriminate El.
  unfold bind at 1. destruct (load_space (rgb_space cc) hh) as [[ss| | |] h3] eqn:El2; try reflexivity.
  2, 3: unfold load_space in El2; destruct (rgb_space cc); [destruct (nth_error (spaces hh) n)|]; discriminate El2.
  unfold bind at 1. destruct (s_white ss) as [[a' w']|] eqn:Ew; [|reflexivity]. cbn [deref_white]. unfold lift at 1. reflexivity.
Qed.

End Structure.
