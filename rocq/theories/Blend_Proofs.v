(** * Blending: what every operator and blend mode guarantees *)
From Coq Require Import ZArith QArith Lia List Bool.
From Verif Require Import Arith Outcome ColorModel GammaModel MatrixModel SpaceModel Heap Converter Calculation Blend
  Spec F32Facts Laws NormalForms Core_Proofs Core2_Proofs Alpha8 Spec_Matrix Spec_Conv Spec_Calc Spec_Blend
  Conv_Proofs Conv2_Proofs Conv3_Proofs Calc_Proofs.
Import ListNotations.
Local Open Scope Z_scope.

Section Blend.
Context {F : Type} {AF : Arith F} {AL : ArithLaws F} {A8 : Alpha8Laws F} {A9 : Alpha8Wide F}.
Local Notation color := (color F).
Local Notation heap := (heap F).
Local Notation M := (M F).

(** ** Deep colours whose components may be out of range *)

(** A deep RGB colour, whatever its components. *)
Record deep_shape (c : color) : Prop := {
  ds_cls : cls c = RGB_DEEP; ds_ty : ty c = RGB_DEEP; ds_len : length (comps c) = 3%nat;
  ds_max : m_max c = fz 1; ds_min : m_min c = fz 0
}.
Lemma wf_shape (c : color) : wf_color RGB_DEEP c -> deep_shape c.
Proof. intros [W0 W1 W2 W3 W4 W5 W6]. constructor; assumption. Qed.
Lemma shape_comps (c : color) : deep_shape c -> exists x y z, comps c = [x; y; z].
Proof.
  intros D. pose proof (ds_len c D) as L. destruct (comps c) as [|x [|y [|z [|]]]]; try discriminate L. eauto.
Qed.
Lemma load_shape (h : heap) p c : at_addr h p c -> deep_shape c -> load_as RGB_DEEP (Some p) h = (Ok c, h).
Proof.
  intros H D. unfold load_as, bind, load. unfold at_addr in H. rewrite H.
  destruct (ctype_eq_dec (cls c) RGB_DEEP) as [E|N]; [reflexivity|]. destruct N. apply (ds_cls c D).
Qed.

(** [f] turns any deep colour into a well-formed colour of type [Y], changing no other object. *)
Definition deep_to (need : bool) (Y : ctype) (f : ptr -> M ptr) : Prop :=
  forall (h : heap) p c, at_addr h p c -> deep_shape c -> (need = true -> has_space h c) ->
  exists q r h', f (Some p) h = (Ok (Some q), h') /\ fresh h q /\ at_addr h' q r /\ wf_color Y r /\
    rgb_space r = rgb_space c /\ others_unchanged h h' p.

Definition deep_leaf (Y : ctype) (f : color -> outcome color) : Prop :=
  forall c, deep_shape c -> exists a, made Y a (rgb_space c) (f c).

Lemma deep_leaf_to Y f : deep_leaf Y f -> deep_to false Y (leaf RGB_DEEP f).
Proof.
  intros L h p c Hp D _. destruct (L c D) as [a [r [E [Wr [_ S]]]]].
  exists (length (colors h)), r, (Heap (colors h ++ [r]) (spaces h)).
  split. { unfold leaf, bind. rewrite (load_shape h p c Hp D). unfold lift. rewrite E. reflexivity. }
  split; [unfold fresh; lia|]. split; [apply at_new|]. split; [exact Wr|]. split; [exact S|].
  split; [reflexivity|]. intros i c0 _ H. apply at_old, H.
Qed.

Lemma deep_weaken n Y f : deep_to false Y f -> deep_to n Y f.
Proof. intros D h p c Hp S _. apply (D h p c Hp S). discriminate. Qed.

Lemma deep_compose n1 n2 Z Y f g : deep_to n1 Z f -> conv (F := F) true n2 Z Y g -> deep_to (n1 || n2) Y (fun p => bind (f p) g).
Proof.
  intros Df Cg h p c Hp D N.
  destruct (Df h p c Hp D) as [q [m [h1 [E1 [F1 [H1 [W1 [S1 [SP1 U1]]]]]]]]].
  { intros H. apply N. rewrite H. reflexivity. }
  destruct (Cg h1 q m H1 W1) as [t [r [h2 [m' [E2 [F2 [H2 [W2 [S2 [[SP2 U2] _]]]]]]]]]].
  { intros H. destruct (N ltac:(rewrite H; apply orb_true_r)) as [i [s [Es [Hs Us]]]]. exists i, s. rewrite S1, SP1. auto. }
  exists t, r, h2. split; [unfold bind; rewrite E1; exact E2|].
  split. { unfold fresh in *. apply at_addr_lt in H1. lia. }
  split; [exact H2|]. split; [exact W2|]. split; [congruence|]. split; [congruence|].
  intros i c0 Ni H. apply U2; [|apply U1; auto]. apply at_addr_lt in H. unfold fresh in F1. lia.
Qed.

Ltac made :=
  match goal with
  | |- made _ _ _ (rgb_truecolor _ _ _ _ _) => apply rgb_truecolor_made
  | |- made _ _ _ (grey_deepcolor _ _ _) => apply grey_deepcolor_made
  | |- made _ _ _ (cmyk _ _ _ _ _ _) => apply cmyk_made
  | |- made _ _ _ (hsi _ _ _ _ _) => apply hsi_made
  | |- made _ _ _ (hsv _ _ _ _ _) => apply hsv_made
  | |- made _ _ _ (hsl _ _ _ _ _) => apply hsl_made
  | |- made _ _ _ (hcy _ _ _ _ _) => apply hcy_made
  end.
Tactic Notation "start" reference(f) :=
  intros c D; unfold f; destruct (shape_comps c D) as [x [y [z E]]]; unfold with3; rewrite E; cbv zeta.

Lemma deep_rgb_true : deep_leaf RGB_TRUE rgb_deep_to_rgb_true_f.
Proof. start rgb_deep_to_rgb_true_f. eexists. made. Qed.
Lemma deep_grey_deep : deep_leaf GREY_DEEP rgb_deep_to_grey_deep_f.
Proof. start rgb_deep_to_grey_deep_f. eexists. made. Qed.
Lemma deep_cmyk : deep_leaf CMYK rgb_deep_to_cmyk_f.
Proof. start rgb_deep_to_cmyk_f. eexists. made. Qed.
Lemma deep_hsi : deep_leaf HSI rgb_deep_to_hsi_f.
Proof. start rgb_deep_to_hsi_f. destruct (feq _ _); eexists; made. Qed.
Lemma deep_hsv : deep_leaf HSV rgb_deep_to_hsv_f.
Proof. start rgb_deep_to_hsv_f. destruct (feq _ _); eexists; made. Qed.
Lemma deep_hsl : deep_leaf HSL rgb_deep_to_hsl_f.
Proof. start rgb_deep_to_hsl_f. destruct (feq (fmax _ _) _); eexists; made. Qed.
Lemma deep_hcy : deep_leaf HCY rgb_deep_to_hcy_f.
Proof. start rgb_deep_to_hcy_f. destruct (feq _ _); eexists; made. Qed.

Lemma correct_shape (h : heap) curve c : deep_shape c -> has_space h c ->
  exists c', correct_with curve c h = (Ok c', h) /\ wf_color RGB_DEEP c' /\ rgb_space c' = rgb_space c.
Proof.
  intros D [i [s [E [Hs [_ [Hg _]]]]]]. unfold correct_with.
  destruct (shape_comps c D) as [x [y [z Ec]]]. rewrite Ec.
  unfold load_gamma, bind, load_space. rewrite E, Hs. destruct (s_gamma s) as [g|]; [|congruence].
  eexists. split; [reflexivity|]. split; [|exact E].
  destruct D as [D1 D2 D3 D4 D5]. constructor; try assumption.
  - discriminate.
  - reflexivity.
  - intros j v Hj. cbn [comps with_comps map] in Hj. rewrite D4, D5 in Hj.
    destruct j as [|[|[|j]]]; cbn in Hj; try (destruct j; discriminate Hj); injection Hj as <-; apply clamp_within; try sm; discriminate.
Qed.

Lemma deep_xyz : deep_to true XYZ rgb_deep_to_xyz.
Proof.
  intros h p c Hp D N. specialize (N eq_refl).
  destruct (correct_shape h inverse_gamma_correction c D N) as [c' [E [W' S']]].
  destruct N as [i [s [Es [Hs [Hw [Hg [RM RI]]]]]]].
  destruct (comps3 _ c' W' eq_refl) as [x [y [z Ec]]].
  destruct (mulvec33_ok (s_matrix s) x y z RM) as [X [Y [Z EM]]].
  destruct (xyz_made X Y Z (alpha c') (rgb_space c')) as [r [Er [Wr [Ar Sr]]]].
  pose (h1 := Heap (upd p c' (colors h)) (spaces h)).
  exists (length (colors h)), r, (Heap (colors h1 ++ [r]) (spaces h)).
  assert (L1 : length (colors h1) = length (colors h)) by apply upd_length.
  split.
  { unfold rgb_deep_to_xyz, bind. rewrite (load_shape h p c Hp D). unfold do_inverse_gamma_correction.
    rewrite E. rewrite (store_ok h p c c' Hp). unfold load_space. rewrite S', Es. cbn [spaces]. rewrite Hs.
    unfold lift. rewrite Ec, EM. rewrite S' in Er. rewrite Es in Er. rewrite Er. rewrite alloc_at.
    cbn [colors]. rewrite upd_length. reflexivity. }
  split; [unfold fresh; lia|]. split; [rewrite <- L1; apply (at_new h1)|]. split; [exact Wr|].
  split; [congruence|]. split; [reflexivity|]. intros j c0 Nj H. apply (at_old h1). unfold at_addr. cbn [colors h1].
  rewrite upd_nth_other by congruence. exact H.
Qed.

Ltac disp := intros h p c Hp Tc; cbn [to_type];
  unfold to_rgb_true, to_grey_true, to_grey_deep, to_cmyk, to_hsi, to_hsv, to_hsl, to_hcy, to_xyz, to_xyy, to_cieluv, to_lab, to_lch_ab, to_lch_uv;
  unfold bind at 1, load at 1; unfold at_addr in Hp; rewrite Hp, Tc; reflexivity.
Lemma deep_to_type Y : Y <> UNDEFINED -> Y <> RGB_DEEP -> deep_to (cie Y) Y (to_type Y).
Proof.
  intros UY DY.
  assert (L : deep_to true LAB rgb_deep_to_lab) by (apply (deep_compose true true XYZ); [apply deep_xyz|apply leaf_white_conv, xyz_to_lab_ok]).
  assert (U : deep_to true CIELUV rgb_deep_to_cieluv) by (apply (deep_compose true true XYZ); [apply deep_xyz|apply leaf_white_conv, xyz_to_cieluv_ok]).
  assert (R : forall f, deep_to (cie Y) Y f ->
    (forall (h : heap) p c, at_addr h p c -> ty c = RGB_DEEP -> to_type Y (Some p) h = f (Some p) h) -> deep_to (cie Y) Y (to_type Y)).
  { intros f Df Ef h p c Hp D N. rewrite (Ef h p c Hp (ds_ty c D)). apply Df; auto. }
  destruct Y; try contradiction.
  - apply (R rgb_deep_to_rgb_true); [apply deep_leaf_to, deep_rgb_true|]. disp.
  - apply (R rgb_deep_to_grey_true); [apply (deep_compose false false RGB_TRUE); [apply deep_leaf_to, deep_rgb_true|apply leaf_conv, rgb_true_to_grey_true_ok]|].
    disp.
  - apply (R rgb_deep_to_grey_deep); [apply deep_leaf_to, deep_grey_deep|]. disp.
  - apply (R rgb_deep_to_cmyk); [apply deep_leaf_to, deep_cmyk|]. disp.
  - apply (R rgb_deep_to_hsi); [apply deep_leaf_to, deep_hsi|]. disp.
  - apply (R rgb_deep_to_hsv); [apply deep_leaf_to, deep_hsv|]. disp.
  - apply (R rgb_deep_to_hsl); [apply deep_leaf_to, deep_hsl|]. disp.
  - apply (R rgb_deep_to_hcy); [apply deep_leaf_to, deep_hcy|]. disp.
  - apply (R rgb_deep_to_xyz); [apply deep_xyz|]. disp.
  - apply (R rgb_deep_to_xyy); [apply (deep_compose true true XYZ); [apply deep_xyz|apply xyz_to_xyy_conv]|].
    disp.
  - apply (R rgb_deep_to_cieluv); [apply U|]. disp.
  - apply (R rgb_deep_to_lab); [apply L|]. disp.
  - apply (R rgb_deep_to_lch_ab); [apply (deep_compose true false LAB); [apply L|apply leaf_conv, lab_to_lch_ab_ok]|].
    disp.
  - apply (R rgb_deep_to_lch_uv); [apply (deep_compose true false CIELUV); [apply U|apply leaf_conv, cieluv_to_lch_uv_ok]|].
    disp.
Qed.

(** ** The blended deep colour *)

(** The value of one component before the division by alpha. *)
Definition blend_sum (us ud : bool) (sa da s d b : F) : F :=
  fadd (fadd (fmul (fmul sa (fsub (fz 1) da)) (if us then s else fz 0)) (fmul (fmul da (fsub (fz 1) sa)) (if ud then d else fz 0)))
       (fmul (fmul sa da) b).
Definition blend_alpha (us ud ub : bool) (sa da : F) : F := blend_sum us ud sa da (fz 1) (fz 1) (if ub then fz 1 else fz 0).

Lemma blend_f_nf us ud ub f (cs cd : color) s0 s1 s2 d0 d1 d2 : comps cs = [s0; s1; s2] -> comps cd = [d0; d1; d2] ->
  blend_f us ud ub f cs cd = Ok (alpha_divide (Color RGB_DEEP RGB_DEEP
    [c01 (blend_sum us ud (alpha cs) (alpha cd) s0 d0 (f 0%nat s0 d0));
     c01 (blend_sum us ud (alpha cs) (alpha cd) s1 d1 (f 1%nat s1 d1));
     c01 (blend_sum us ud (alpha cs) (alpha cd) s2 d2 (f 2%nat s2 d2))]
    (blend_alpha us ud ub (alpha cs) (alpha cd)) (fz 1) (fz 0) (rgb_space cs))).
Proof.
  intros Es Ed. unfold blend_f. rewrite rgb_deepcolor1_nf. cbn [obind comps length seq blend_loop].
  unfold raw_comp. rewrite Es, Ed. destruct us, ud, ub; reflexivity.
Qed.

Lemma divide_shape (c : color) : deep_shape c -> deep_shape (alpha_divide c).
Proof.
  intros [D1 D2 D3 D4 D5]. unfold alpha_divide. destruct (feq _ _); constructor; try assumption.
  cbn [comps with_comps]. rewrite map_length. exact D3.
Qed.
Lemma blend_shape us ud ub f (cs cd : color) : length (comps cs) = 3%nat -> length (comps cd) = 3%nat ->
  exists r, blend_f us ud ub f cs cd = Ok r /\ deep_shape r /\ rgb_space r = rgb_space cs.
Proof.
  intros Ls Ld. destruct (comps cs) as [|s0 [|s1 [|s2 [|]]]] eqn:Es; try discriminate Ls.
  destruct (comps cd) as [|d0 [|d1 [|d2 [|]]]] eqn:Ed; try discriminate Ld.
  rewrite (blend_f_nf us ud ub f cs cd _ _ _ _ _ _ Es Ed). eexists. split; [reflexivity|]. split.
  - apply divide_shape. constructor; reflexivity.
  - unfold alpha_divide. destruct (feq _ _); reflexivity.
Qed.

(** ** Argument checks *)

Lemma checked_null us ud ub f (h : heap) p : rejects (checked_blend us ud ub f None p) h /\ rejects (checked_blend us ud ub f p None) h.
Proof. split; unfold rejects, checked_blend; [|destruct p]; reflexivity. Qed.

Lemma ptr_neq a b : a <> b -> space_ptr_eqb a b = false.
Proof.
  destruct a as [a|], b as [b|]; intros H; simpl; try reflexivity; try (exfalso; apply H; reflexivity).
  apply Nat.eqb_neq. congruence.
Qed.
Lemma ptr_same a : space_ptr_eqb a a = true.
Proof. destruct a; simpl; [apply Nat.eqb_refl|reflexivity]. Qed.

Lemma checked_spaces us ud ub f (h : heap) p1 c1 p2 c2 : at_addr h p1 c1 -> at_addr h p2 c2 -> rgb_space c1 <> rgb_space c2 ->
  rejects (checked_blend us ud ub f (Some p1) (Some p2)) h.
Proof.
  intros H1 H2 N. unfold rejects, checked_blend, bind, load. unfold at_addr in H1, H2. rewrite H1, H2.
  rewrite (ptr_neq _ _ N). reflexivity.
Qed.

(** ** Every blend of two well-formed colours of one RGB space *)

(** Up to the conversion of the blended colour. *)
Lemma checked_deep us ud ub f (h : heap) X1 X2 p1 c1 p2 c2 : at_addr h p1 c1 -> at_addr h p2 c2 -> wf_color X1 c1 -> wf_color X2 c2 ->
  rgb_space c1 = rgb_space c2 -> (cie X1 || cie X2 = true -> has_space h c1) ->
  exists s d r h1 q, blend_f us ud ub (f c1 c2) s d = Ok r /\ wf_color RGB_DEEP s /\ wf_color RGB_DEEP d /\
    (X1 = RGB_DEEP -> s = c1) /\ (X2 = RGB_DEEP -> d = c2) /\
    (X1 <> RGB_DEEP -> rel_alpha X1 RGB_DEEP c1 s) /\ (X2 <> RGB_DEEP -> rel_alpha X2 RGB_DEEP c2 d) /\
    deep_shape r /\ rgb_space r = rgb_space c1 /\ unchanged h h1 /\ fresh h q /\ at_addr h1 q r /\
    checked_blend us ud ub f (Some p1) (Some p2) h = convertTo (Some q) X1 h1.
Proof.
  intros H1 H2 W1 W2 SP N.
  destruct (to_pure X1 RGB_DEEP (wf_real _ _ W1) ltac:(discriminate) (or_intror eq_refl) h p1 c1 H1 W1)
    as [a [s [ha [Ea [Aa [Ws [Ss [Ua [_ [Rs Is]]]]]]]]]].
  { unfold needs_space. rewrite orb_false_r. intros K. apply N. rewrite K. reflexivity. }
  destruct (to_pure X2 RGB_DEEP (wf_real _ _ W2) ltac:(discriminate) (or_intror eq_refl) ha p2 c2 (proj2 Ua _ _ H2) W2)
    as [b [d [hb [Eb [Ab [Wd [Sd [Ub [_ [Rd Id]]]]]]]]]].
  { unfold needs_space. rewrite orb_false_r. intros K. apply (unchanged_space h ha c1 c2 Ua); [congruence|]. apply N. rewrite K. apply orb_true_r. }
  destruct (blend_shape us ud ub (f c1 c2) s d (wf_len _ _ Ws) (wf_len _ _ Wd)) as [r [Er [Dr Sr]]].
  exists s, d, r, (Heap (colors hb ++ [r]) (spaces hb)), (length (colors hb)).
  assert (U : unchanged h hb) by (apply (unchanged_trans _ ha); assumption).
  split; [exact Er|]. split; [exact Ws|]. split; [exact Wd|]. split; [intros K; apply Is, K|]. split; [intros K; apply Id, K|].
  split; [exact Rs|]. split; [exact Rd|].
  split; [exact Dr|]. split; [congruence|]. split; [apply (unchanged_trans _ hb); [exact U|apply unchanged_new]|].
  split; [apply (unchanged_len _ _ U)|]. split; [apply at_new|].
  unfold checked_blend. unfold bind at 1, load at 1. unfold at_addr in H1. rewrite H1.
  unfold bind at 1, load at 1. pose proof H2 as H2'. unfold at_addr in H2'. rewrite H2'.
  rewrite SP, ptr_same. cbn [negb]. rewrite (wf_ty _ _ W1). change (to_type RGB_DEEP) with (to_rgb_deep (F := F)) in Ea, Eb.
  unfold bind at 1. rewrite Ea. unfold bind at 1. rewrite Eb. unfold bind at 1.
  unfold general_porter_duff. unfold bind at 1. rewrite (load_as_ok hb a s RGB_DEEP (proj2 Ub _ _ Aa) Ws).
  unfold bind at 1. rewrite (load_as_ok hb b d RGB_DEEP Ab Wd). rewrite Ss, Sd, SP, ptr_same. cbn [negb].
  unfold bind at 1, lift at 1. rewrite Er. reflexivity.
Qed.

Lemma convertTo_type X : convertible X = true -> forall p, convertTo (F := F) p X = to_type X p.
Proof. intros C p. destruct X; try discriminate C; reflexivity. Qed.

Lemma checked_total us ud ub f (h : heap) X1 X2 p1 c1 p2 c2 : at_addr h p1 c1 -> at_addr h p2 c2 -> wf_color X1 c1 -> wf_color X2 c2 ->
  rgb_space c1 = rgb_space c2 -> (cie X1 || cie X2 = true -> has_space h c1) -> convertible X1 = true ->
  exists q r h', checked_blend us ud ub f (Some p1) (Some p2) h = (Ok (Some q), h') /\ fresh h q /\ at_addr h' q r /\
    cls r = X1 /\ ty r = X1 /\ length (comps r) = arity X1 /\ (X1 <> RGB_DEEP -> wf_color X1 r) /\
    rgb_space r = rgb_space c1 /\ unchanged h h'.
Proof.
  intros H1 H2 W1 W2 SP N C.
  destruct (checked_deep us ud ub f h X1 X2 p1 c1 p2 c2 H1 H2 W1 W2 SP N)
    as [s [d [r [h1 [q [Er [Ws [Wd [_ [_ [_ [_ [Dr [Sr [U [Fq [Aq E]]]]]]]]]]]]]]]]].
  rewrite (convertTo_type X1 C) in E.
  destruct (ctype_eq_dec X1 RGB_DEEP) as [->|NX].
  - exists q, r, h1. split.
    { rewrite E. cbn [to_type]. unfold to_rgb_deep, bind, load. unfold at_addr in Aq. rewrite Aq, (ds_ty r Dr).
      unfold cast, bind. rewrite (load_shape h1 q r Aq Dr). reflexivity. }
    split; [exact Fq|]. split; [exact Aq|]. split; [apply (ds_cls r Dr)|]. split; [apply (ds_ty r Dr)|]. split; [apply (ds_len r Dr)|].
    split; [congruence|]. split; assumption.
  - destruct (deep_to_type X1 (wf_real _ _ W1) NX h1 q r Aq Dr) as [t [r' [h2 [E2 [F2 [A2 [W2' [S2 [SP2 U2]]]]]]]]].
    { intros K. apply (unchanged_space h h1 c1 r U Sr). apply N. rewrite K. reflexivity. }
    exists t, r', h2. split; [rewrite E; exact E2|].
    split. { pose proof (unchanged_len _ _ U). unfold fresh in *. lia. }
    split; [exact A2|]. split; [apply (wf_cls _ _ W2')|]. split; [apply (wf_ty _ _ W2')|]. split; [apply (wf_len _ _ W2')|].
    split; [intros _; exact W2'|]. split; [congruence|]. split; [rewrite SP2; apply U|].
    intros i c0 H. apply U2; [|apply U, H]. apply at_addr_lt in H. unfold fresh in Fq. lia.
Qed.

Lemma checked_lch us ud ub f (h : heap) X1 X2 p1 c1 p2 c2 : at_addr h p1 c1 -> at_addr h p2 c2 -> wf_color X1 c1 -> wf_color X2 c2 ->
  rgb_space c1 = rgb_space c2 -> has_space h c1 -> convertible X1 = false ->
  exists h', checked_blend us ud ub f (Some p1) (Some p2) h = (Ok None, h').
Proof.
  intros H1 H2 W1 W2 SP N C.
  destruct (checked_deep us ud ub f h X1 X2 p1 c1 p2 c2 H1 H2 W1 W2 SP (fun _ => N))
    as [s [d [r [h1 [q [Er [Ws [Wd [_ [_ [_ [_ [Dr [Sr [U [Fq [Aq E]]]]]]]]]]]]]]]]].
  exists h1. rewrite E. destruct X1; try discriminate C; reflexivity.
Qed.

(** Two deep colours. *)
Lemma checked_deep_run us ud ub f (h : heap) p1 c1 p2 c2 : at_addr h p1 c1 -> at_addr h p2 c2 -> wf_color RGB_DEEP c1 -> wf_color RGB_DEEP c2 ->
  rgb_space c1 = rgb_space c2 ->
  exists q r h', checked_blend us ud ub f (Some p1) (Some p2) h = (Ok (Some q), h') /\ at_addr h' q r /\
    blend_f us ud ub (f c1 c2) c1 c2 = Ok r.
Proof.
  intros H1 H2 W1 W2 SP.
  destruct (checked_deep us ud ub f h RGB_DEEP RGB_DEEP p1 c1 p2 c2 H1 H2 W1 W2 SP ltac:(discriminate))
    as [s [d [r [h1 [q [Er [Ws [Wd [E1 [E2 [_ [_ [Dr [Sr [U [Fq [Aq E]]]]]]]]]]]]]]]]].
  rewrite (E1 eq_refl), (E2 eq_refl) in Er.
  exists q, r, h1. split; [|split; assumption].
  rewrite E. cbn [convertTo]. unfold to_rgb_deep, bind, load. unfold at_addr in Aq. rewrite Aq, (ds_ty r Dr).
  unfold cast, bind. rewrite (load_shape h1 q r Aq Dr). reflexivity.
Qed.

(** Every operator and every component-wise mode is such a blend. *)
Definition op_s (p : operator) : bool := match p with Src | DestAtop | Over | DestOver | Out | Xor => true | _ => false end.
Definition op_d (p : operator) : bool := match p with Dest | Atop | Over | DestOver | DestOut | Xor => true | _ => false end.
Definition op_b (p : operator) : bool := match p with Out | DestOut | Xor | Clear => false | _ => true end.
Definition op_f (p : operator) : color -> color -> nat -> F -> F -> F :=
  match p with
  | Src | Atop | Over | In_ => fun _ _ _ s _ => s
  | Dest | DestAtop | DestOver | DestIn => fun _ _ _ _ d => d
  | _ => fun _ _ _ _ _ => fz 0
  end.
Lemma composite_checked p : composite (F := F) p = checked_blend (op_s p) (op_d p) (op_b p) (op_f p).
Proof. destruct p; reflexivity. Qed.
Lemma blend_checked m s d us ud : blend m s d us ud = checked_blend (F := F) us ud true (blend_function m) s d.
Proof. destruct m; reflexivity. Qed.

End Blend.
