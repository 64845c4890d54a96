(** * Conversions: the four functions with effects of their own, and composition *)
From Coq Require Import ZArith QArith List Bool Lia.
From Verif Require Import Arith Outcome ColorModel GammaModel MatrixModel SpaceModel Heap Converter
  Spec F32Facts Laws NormalForms Core_Proofs Core2_Proofs Alpha8 Spec_Matrix Spec_Conv Conv_Proofs.
Import ListNotations.
Local Open Scope Z_scope.

Section Conv.
Context {F : Type} {AF : Arith F} {AL : ArithLaws F} {A8 : Alpha8Laws F}.
Local Notation color := (color F).
Local Notation heap := (heap F).
Local Notation M := (M F).

(** ** rgb_true_to_grey_deep *)

Lemma rgb_true_to_grey_deep_conv : conv (F := F) true false RGB_TRUE GREY_DEEP rgb_true_to_grey_deep.
Proof.
  intros h p c Hp W _.
  destruct (comps3 _ c W eq_refl) as [x [y [z E]]].
  pose (v := fdiv (fadd (fadd x y) z) (fz 3)).
  destruct (grey_truecolor_made v (alpha c) (rgb_space c)) as [g0 [E0 [W0 [A0 S0]]]].
  destruct (comps1 _ g0 W0 eq_refl) as [t Et].
  pose (gt := copy_ctor GREY_TRUE g0).
  destruct (copy_ctor_fields GREY_TRUE g0) as [C1 [C2 [C3 [C4 [C5 C6]]]]]. fold gt in C1, C2, C3, C4, C5, C6.
  destruct (grey_deepcolor_made (fdiv t (fz 255)) (fdiv (alpha gt) (fz 255)) (rgb_space c)) as [r [Er [Wr [Ar Sr]]]].
  pose (h1 := Heap (colors h ++ [g0]) (spaces h)).
  exists (length (colors h1)), r, (Heap (colors h1 ++ [r]) (spaces h)), c.
  assert (H1 : at_addr h1 p c) by apply (at_old _ _ _ _ _ Hp).
  assert (H0 : at_addr h1 (length (colors h)) g0) by apply at_new.
  split.
  { unfold rgb_true_to_grey_deep, rgb_true_to_grey_true, leaf, bind. rewrite (load_as_ok h p c _ Hp W).
    unfold lift, rgb_true_to_grey_true_f, with3. rewrite E. fold v. rewrite E0. rewrite alloc_at. fold h1.
    rewrite (load_as_ok h1 _ g0 _ H0 W0). rewrite (load_as_ok h1 p c _ H1 W).
    fold gt. unfold with1. replace (comps gt) with [t] by (symmetry; rewrite <- Et; assumption).
    rewrite Er. reflexivity. }
  split; [unfold fresh; cbn [colors h1]; rewrite app_length; lia|].
  split; [apply (at_new h1)|]. split; [exact Wr|]. split; [exact Sr|].
  split. { split; [reflexivity|]. intros i c0 _ H. apply (at_old h1), (at_old h), H. }
  split; [apply (at_old h1), H1|]. repeat (split; [reflexivity || exact W|]).
  intros O Fm NB.
  assert (EG : m_alpha g0 = m_alpha c).
  { destruct (rel_eight RGB_TRUE GREY_TRUE c g0 W W0 eq_refl eq_refl A0 O Fm NB) as [_ [_ H]]. exact H. }
  assert (EC : m_alpha gt = m_alpha c).
  { unfold gt, copy_ctor, alpha_set. cbn [cls with_comps with_type color_base_ctor m_alpha base_alpha_set with_alpha].
    rewrite (alpha_eight g0 _ W0 eq_refl), EG.
    destruct Fm as [a Ha]; [rewrite (wf_ty _ _ W); reflexivity|].
    rewrite Ha, alpha8_scale, <- Ha. apply clamp_id; try sm. exact O. }
  assert (ER : m_alpha r = m_alpha c).
  { rewrite Ar. unfold alpha. rewrite C1. unfold base_alpha. rewrite EC.
    destruct Fm as [a Ha]; [rewrite (wf_ty _ _ W); reflexivity|]. rewrite Ha. apply alpha8_scale. }
  split; [unfold alpha_ok; rewrite ER; exact O|]. split.
  - intros K. rewrite (wf_ty _ _ Wr) in K. discriminate K.
  - exact ER.
Qed.

(** ** rgb_deep_to_xyz and xyz_to_rgb_deep *)

Lemma mulvec33_ok (m : matrix F) x y z : rect 3 3 m -> exists a b c, mulvec m [x; y; z] = Ok [a; b; c].
Proof.
  intros [R [C [L Row]]]. destruct m as [nr nc vs]. cbn [m_rows m_cols m_values] in *. subst nr nc.
  destruct vs as [|r1 [|r2 [|r3 [|]]]]; try discriminate L.
  assert (D : forall row, In row [r1; r2; r3] -> exists a b c, row = [a; b; c]).
  { intros row H. specialize (Row row H). destruct row as [|a [|b [|c [|]]]]; try discriminate Row. eauto. }
  destruct (D r1) as [a1 [b1 [c1 ->]]]; [simpl; auto|].
  destruct (D r2) as [a2 [b2 [c2 ->]]]; [simpl; auto|].
  destruct (D r3) as [a3 [b3 [c3 ->]]]; [simpl; auto|].
  eexists _, _, _. reflexivity.
Qed.

Lemma correct_ok (h : heap) curve c X : wf_color X c -> has_space h c ->
  (forall i, (i < arity X)%nat -> comp_range X i = limits X) ->
  exists c', correct_with curve c h = (Ok c', h) /\ wf_color X c' /\ m_alpha c' = m_alpha c /\ rgb_space c' = rgb_space c.
Proof.
  intros W [i [s [E [Hs [_ [Hg _]]]]]] LM. unfold correct_with.
  destruct (comps c) as [|v l] eqn:Ec.
  { exists c. split; [reflexivity|]. auto. }
  rewrite <- Ec. clear v l Ec.
  unfold load_gamma, bind, load_space. rewrite E, Hs. destruct (s_gamma s) as [g|]; [|congruence].
  eexists. split; [reflexivity|]. split; [|split; [reflexivity|exact E]].
  destruct W as [W0 W1 W2 W3 W4 W5 W6]. constructor; auto.
  - cbn [comps with_comps]. rewrite map_length. exact W3.
  - cbn [comps with_comps]. intros j x Hj. rewrite nth_error_map in Hj.
    destruct (nth_error (comps c) j) as [y|] eqn:Ej; [|discriminate Hj].
    injection Hj as <-. rewrite W4, W5. rewrite LM.
    + destruct (small_limits X) as [A [B C]]. apply clamp_within; auto.
    + rewrite <- W3. apply nth_error_Some. congruence.
Qed.

Lemma store_ok (h : heap) p c c' : at_addr h p c -> store (Some p) c' h = (Ok tt, Heap (upd p c' (colors h)) (spaces h)).
Proof.
  intros H. apply at_addr_lt in H. unfold store. apply Nat.ltb_lt in H. rewrite H. reflexivity.
Qed.

Lemma rgb_deep_to_xyz_conv : conv (F := F) false true RGB_DEEP XYZ rgb_deep_to_xyz.
Proof.
  intros h p c Hp W N. specialize (N eq_refl).
  destruct (correct_ok h inverse_gamma_correction c RGB_DEEP W N) as [c' [E [W' [A' S']]]]; [reflexivity|].
  destruct N as [i [s [Es [Hs [Hw [Hg [RM RI]]]]]]].
  destruct (comps3 _ c' W' eq_refl) as [x [y [z Ec]]].
  destruct (mulvec33_ok (s_matrix s) x y z RM) as [X [Y [Z EM]]].
  destruct (xyz_made X Y Z (alpha c') (rgb_space c')) as [r [Er [Wr [Ar Sr]]]].
  pose (h1 := Heap (upd p c' (colors h)) (spaces h)).
  exists (length (colors h)), r, (Heap (colors h1 ++ [r]) (spaces h)), c'.
  assert (L1 : length (colors h1) = length (colors h)) by apply upd_length.
  assert (H1 : at_addr h1 p c') by (apply upd_nth_same, (at_addr_lt _ _ _ Hp)).
  split.
  { unfold rgb_deep_to_xyz, bind. rewrite (load_as_ok h p c _ Hp W). unfold do_inverse_gamma_correction.
    rewrite E. rewrite (store_ok h p c c' Hp). unfold load_space. rewrite S', Es. cbn [spaces]. rewrite Hs.
    unfold lift. rewrite Ec, EM. rewrite S' in Er. rewrite Es in Er. rewrite Er. rewrite alloc_at.
    cbn [colors]. rewrite upd_length. reflexivity. }
  split; [unfold fresh; lia|]. split; [rewrite <- L1; apply (at_new h1)|]. split; [exact Wr|].
  split; [congruence|]. split.
  { split; [reflexivity|]. intros j c0 Nj H. apply (at_old h1). unfold at_addr. cbn [colors h1].
    rewrite upd_nth_other by congruence. exact H. }
  split; [apply (at_old h1), H1|]. split; [exact W'|]. split; [exact A'|]. split; [exact S'|].
  split; [discriminate|].
  apply rel_same; auto. rewrite Ar. rewrite (alpha_std c' _ W' eq_refl), (alpha_std c _ W eq_refl). exact A'.
Qed.

Lemma named_set_ok k (c : color) v i : wf_color k c -> (i < arity k)%nat ->
  exists c', named_set k c v i = Ok c' /\ wf_color k c' /\ m_alpha c' = m_alpha c /\ rgb_space c' = rgb_space c.
Proof.
  intros W Hi. destruct (named_set_wf k c v i W Hi) as [c' [E [W' [A S]]]]. eauto.
Qed.

Lemma has_space_eq (h : heap) (c r : color) : rgb_space r = rgb_space c -> has_space h c -> has_space h r.
Proof. intros E [i [s [H H']]]. exists i, s. rewrite E. auto. Qed.

Lemma xyz_to_rgb_deep_conv : conv (F := F) true true XYZ RGB_DEEP xyz_to_rgb_deep.
Proof.
  intros h p c Hp W N. specialize (N eq_refl). pose proof N as HS.
  destruct N as [i [s [Es [Hs [Hw [Hg [RM RI]]]]]]].
  destruct (comps3 _ c W eq_refl) as [x [y [z Ec]]].
  destruct (mulvec33_ok (s_inverse s) x y z RI) as [R [G [B EM]]].
  destruct (rgb_deepcolor_made R G B (alpha c) (rgb_space c)) as [d0 [E0 [W0 [A0 S0]]]].
  pose (h1 := Heap (colors h ++ [d0]) (spaces h)).
  destruct (comps3 _ d0 W0 eq_refl) as [x0 [y0 [z0 Ec0]]].
  destruct (named_set_ok RGB_DEEP d0 (clamp_float x0 (fz 0) (fz 1)) 0 W0) as [d1 [E1 [W1 [A1 S1]]]]; [simpl; lia|].
  destruct (comps3 _ d1 W1 eq_refl) as [x1 [y1 [z1 Ec1]]].
  destruct (named_set_ok RGB_DEEP d1 (clamp_float y1 (fz 0) (fz 1)) 1 W1) as [d2 [E2 [W2 [A2 S2]]]]; [simpl; lia|].
  destruct (comps3 _ d2 W2 eq_refl) as [x2 [y2 [z2 Ec2]]].
  destruct (named_set_ok RGB_DEEP d2 (clamp_float z2 (fz 0) (fz 1)) 2 W2) as [d3 [E3 [W3 [A3 S3]]]]; [simpl; lia|].
  assert (HS3 : has_space h1 d3) by (apply (has_space_eq h1 c); [congruence|exact HS]).
  destruct (correct_ok h1 gamma_correction d3 RGB_DEEP W3 HS3) as [d4 [E4 [W4 [A4 S4]]]]; [reflexivity|].
  pose (q := length (colors h)).
  assert (Hq : at_addr h1 q d0) by apply at_new.
  exists q, d4, (Heap (upd q d4 (colors h1)) (spaces h)), c.
  split.
  { unfold xyz_to_rgb_deep, bind. rewrite (load_as_ok h p c _ Hp W). unfold load_space at 1. rewrite Es, Hs.
    unfold lift at 1. rewrite Ec, EM. unfold lift at 1. rewrite <- Es, E0. rewrite alloc_at. fold h1. fold q.
    unfold lift at 1, with3 at 1. rewrite Ec0, E1. unfold lift at 1, with3 at 1. rewrite Ec1, E2.
    unfold lift at 1, with3 at 1. rewrite Ec2, E3. unfold do_gamma_correction. rewrite E4.
    rewrite (store_ok h1 q d0 d4 Hq). reflexivity. }
  split; [unfold fresh, q; lia|].
  split; [apply upd_nth_same; apply (at_addr_lt _ _ _ Hq)|]. split; [exact W4|]. split; [congruence|].
  assert (OU : forall j c0, at_addr h j c0 -> at_addr (Heap (upd q d4 (colors h1)) (spaces h)) j c0).
  { intros j c0 H. pose proof (at_addr_lt _ _ _ H). unfold at_addr. cbn [colors].
    rewrite upd_nth_other by (unfold q; lia). apply (at_old _ _ _ _ (spaces h) H). }
  split. { split; [reflexivity|]. intros j c0 _ H. apply OU, H. }
  split; [apply OU, Hp|]. split; [exact W|]. do 3 (split; [reflexivity|]).
  apply rel_same; auto. congruence.
Qed.

(** ** xyz_to_xyy *)

Lemma xyz_to_xyy_conv : conv (F := F) true true XYZ XYY xyz_to_xyy.
Proof.
  intros h p c Hp W N. specialize (N eq_refl).
  destruct (comps3 _ c W eq_refl) as [x [y [z Ec]]].
  destruct (load_white_ok h c N) as [w Hw].
  assert (RES : exists r, xyz_to_xyy (Some p) h = alloc r h /\ wf_color XYY r /\ m_alpha r = alpha c /\ rgb_space r = rgb_space c).
  { unfold xyz_to_xyy, bind at 1. rewrite (load_as_ok h p c _ Hp W). rewrite Ec.
    destruct (feq x (fz 0) && feq y (fz 0) && feq z (fz 0)).
    - destruct (xyy_made (cx w) (cy w) y (alpha c) (rgb_space c)) as [r [Er [Wr [Ar Sr]]]].
      exists r. split; auto. unfold bind. rewrite Hw. unfold lift. rewrite Er. reflexivity.
    - destruct (xyy_made (fdiv x (fadd (fadd x y) z)) (fdiv y (fadd (fadd x y) z)) y (alpha c) (rgb_space c)) as [r [Er [Wr [Ar Sr]]]].
      exists r. split; auto. unfold bind, lift. rewrite Er. reflexivity. }
  destruct RES as [r [E [Wr [Ar Sr]]]].
  exists (length (colors h)), r, (Heap (colors h ++ [r]) (spaces h)), c.
  split; [rewrite E; reflexivity|].
  split; [unfold fresh; lia|]. split; [apply at_new|]. split; [exact Wr|]. split; [exact Sr|].
  split. { split; [reflexivity|]. intros i c0 _ H. apply at_old, H. }
  split; [apply at_old, Hp|]. repeat (split; [reflexivity || exact W|]).
  apply rel_same; auto.
Qed.

(** ** Composition *)

Definition compat (X Z Y : ctype) : bool :=
  negb (ctype_eqb Z HSL) &&
  (if eight_bit Z then eight_bit Y else negb (eight_bit X && eight_bit Y)).

Lemma converted_compat X Z Y (a : F) : compat X Z Y = true ->
  converted_alpha Z Y (converted_alpha X Z a) = converted_alpha X Y a.
Proof.
  unfold compat, converted_alpha. intros H. apply andb_prop in H. destruct H as [_ H].
  destruct (eight_bit X), (eight_bit Y), (eight_bit Z); try discriminate H; reflexivity.
Qed.

Lemma conv_compose p1 n1 p2 n2 X Z Y f g :
  conv (F := F) p1 n1 X Z f -> conv (F := F) p2 n2 Z Y g -> compat X Z Y = true ->
  conv (F := F) p1 (n1 || n2) X Y (fun p => bind (f p) g).
Proof.
  intros Cf Cg K h p c Hp W N.
  destruct (Cf h p c Hp W) as [q [m [h1 [c1 [E1 [F1 [H1 [W1 [S1 [[SP1 U1] [P1 [WP1 [AP1 [SPP1 [PU1 R1]]]]]]]]]]]]]]].
  { intros H. apply N. rewrite H. reflexivity. }
  destruct (Cg h1 q m H1 W1) as [t [r [h2 [m' [E2 [F2 [H2 [W2 [S2 [[SP2 U2] [P2 [WP2 [AP2 [SPP2 [PU2 R2]]]]]]]]]]]]]]].
  { intros H. destruct (N ltac:(rewrite H; apply orb_true_r)) as [i [s [Es [Hs Us]]]].
    exists i, s. rewrite S1, SP1. auto. }
  assert (LQ : forall i c0, at_addr h i c0 -> i <> q).
  { intros i c0 H. apply at_addr_lt in H. unfold fresh in F1. lia. }
  exists t, r, h2, c1.
  split. { unfold bind. rewrite E1. exact E2. }
  split. { unfold fresh in *. apply at_addr_lt in H1. lia. }
  split; [exact H2|]. split; [exact W2|]. split; [congruence|].
  split. { split; [congruence|]. intros i c0 Ni H. apply U2; [apply (LQ _ _ H)|]. apply U1; auto. }
  split. { apply U2; [apply (LQ _ _ Hp)|]. exact P1. }
  do 4 (split; [assumption|]).
  intros O Fm NB. destruct (R1 O Fm NB) as [O1 [F1' A1]].
  assert (NB1 : ~ black_hsl m).
  { intros [T _]. rewrite (wf_ty _ _ W1) in T. subst Z. unfold compat in K.
    discriminate K. }
  destruct (R2 O1 F1' NB1) as [O2 [F2' A2]]. split; [exact O2|]. split; [exact F2'|].
  rewrite A2, A1. apply converted_compat, K.
Qed.

Lemma conv_weaken p n p' n' X Y f : conv (F := F) p n X Y f -> (n = true -> n' = true) -> (p' = true -> p = true) ->
  conv (F := F) p' n' X Y f.
Proof.
  intros C Hn Hp h q c H W N.
  destruct (C h q c H W) as [t [r [h' [c' [E1 [F1 [H1 [W1 [S1 [U1 [P1 [WP1 [AP1 [SPP1 [PU1 R1]]]]]]]]]]]]]]].
  { intros H'. apply N, Hn, H'. }
  exists t, r, h', c'. do 10 (split; [assumption|]). split; [|exact R1]. intros H'. apply PU1, Hp, H'.
Qed.

(** What is claimed of the conversion from [X] to [Y]. *)
Definition changes_source (X Y : ctype) : bool := ctype_eqb X RGB_DEEP && cie Y.
Definition cv (X Y : ctype) (f : ptr -> M ptr) : Prop :=
  conv (F := F) (negb (changes_source X Y)) (needs_space X Y) X Y f.

Lemma cv_compose X Z Y f g : cv X Z f -> cv Z Y g -> compat X Z Y = true ->
  implb (needs_space X Z || needs_space Z Y) (needs_space X Y) = true ->
  implb (negb (changes_source X Y)) (negb (changes_source X Z)) = true ->
  cv X Y (fun p => bind (f p) g).
Proof.
  intros C1 C2 K I1 I2. eapply conv_weaken; [eapply conv_compose; [exact C1|exact C2|exact K]| |].
  - intros H. rewrite H in I1. exact I1.
  - intros H. rewrite H in I2. exact I2.
Qed.

Lemma cv_leaf X Y f : leaf_ok (F := F) X Y f -> cv X Y (leaf X f).
Proof. intros L. eapply conv_weaken; [apply leaf_conv, L|discriminate|reflexivity]. Qed.
Lemma cv_leaf_white X Y f : leaf_white_ok (F := F) X Y f -> needs_space X Y = true -> cv X Y (leaf_white X f).
Proof. intros L N. eapply conv_weaken; [apply leaf_white_conv, L|intros _; exact N|reflexivity]. Qed.

End Conv.
