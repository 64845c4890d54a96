(** * Conversions: what every conversion function guarantees *)
From Coq Require Import ZArith QArith List Bool Lia.
From Verif Require Import Arith Outcome ColorModel GammaModel MatrixModel SpaceModel Heap Converter
  Spec F32Facts Laws NormalForms Core_Proofs Core2_Proofs Alpha8 Spec_Matrix Spec_Conv.
Import ListNotations.
Local Open Scope Z_scope.

Section Conv.
Context {F : Type} {AF : Arith F} {AL : ArithLaws F} {A8 : Alpha8Laws F}.
Local Notation color := (color F).
Local Notation heap := (heap F).
Local Notation M := (M F).

(** The alpha of an 8-bit colour was computed from an alpha on the 0..255 scale. *)
Definition alpha_form (c : color) : Prop := eight_bit (ty c) = true -> exists a, m_alpha c = alpha8 a.

Definition rel_alpha (X Y : ctype) (c r : color) : Prop :=
  alpha_ok c -> alpha_form c -> ~ black_hsl c ->
  alpha_ok r /\ alpha_form r /\ m_alpha r = converted_alpha X Y (m_alpha c).

(** [conv pure need X Y f]: applied to a pointer to a well-formed colour of type [X]
    (with a usable RGB space if [need]), [f] returns a pointer to a new well-formed
    colour of type [Y] with the same RGB space; it changes no other object, and the
    argument only if [pure] is false. *)
Definition conv (pure need : bool) (X Y : ctype) (f : ptr -> M ptr) : Prop :=
  forall (h : heap) p c, at_addr h p c -> wf_color X c -> (need = true -> has_space h c) ->
  exists q r h' c', f (Some p) h = (Ok (Some q), h') /\ fresh h q /\ at_addr h' q r /\
    wf_color Y r /\ rgb_space r = rgb_space c /\ others_unchanged h h' p /\
    at_addr h' p c' /\ wf_color X c' /\ m_alpha c' = m_alpha c /\ rgb_space c' = rgb_space c /\
    (pure = true -> c' = c) /\ rel_alpha X Y c r.

Lemma load_as_ok (h : heap) p c X : at_addr h p c -> wf_color X c -> load_as X (Some p) h = (Ok c, h).
Proof.
  intros H W. unfold load_as, bind, load. rewrite H.
  destruct (ctype_eq_dec (cls c) X) as [E|N]; [reflexivity|]. destruct N. apply (wf_cls _ _ W).
Qed.

Lemma alloc_at (h : heap) (r : color) : alloc r h = (Ok (Some (length (colors h))), Heap (colors h ++ [r]) (spaces h)).
Proof. reflexivity. Qed.

Lemma at_addr_lt (h : heap) i c : at_addr h i c -> (i < length (colors h))%nat.
Proof. intros H. apply nth_error_Some. unfold at_addr in H. congruence. Qed.

Lemma at_new (h : heap) r sp : at_addr (Heap (colors h ++ [r]) sp) (length (colors h)) r.
Proof. unfold at_addr. cbn [colors]. rewrite nth_error_app2 by lia. rewrite Nat.sub_diag. reflexivity. Qed.

Lemma at_old (h : heap) i c r sp : at_addr h i c -> at_addr (Heap (colors h ++ [r]) sp) i c.
Proof.
  intros H. pose proof (at_addr_lt _ _ _ H). unfold at_addr in *. cbn [colors]. rewrite nth_error_app1; auto.
Qed.

Definition leaf_ok (X Y : ctype) (f : color -> outcome color) : Prop :=
  forall c, wf_color X c -> exists r, f c = Ok r /\ wf_color Y r /\ rgb_space r = rgb_space c /\ rel_alpha X Y c r.

Lemma leaf_conv X Y f : leaf_ok X Y f -> conv true false X Y (leaf X f).
Proof.
  intros L h p c Hp W _. destruct (L c W) as [r [E [Wr [S A]]]].
  exists (length (colors h)), r, (Heap (colors h ++ [r]) (spaces h)), c.
  split. { unfold leaf, bind. rewrite (load_as_ok h p c X Hp W). unfold lift. rewrite E. reflexivity. }
  split; [unfold fresh; lia|]. split; [apply at_new|]. split; [exact Wr|]. split; [exact S|].
  split. { split; [reflexivity|]. intros i c0 _ H. apply at_old, H. }
  split; [apply at_old, Hp|]. repeat (split; [reflexivity || exact W|]). exact A.
Qed.

Lemma load_white_ok (h : heap) c : has_space h c -> exists w, load_white c h = (Ok w, h).
Proof.
  intros [i [s [E [Hs [Hw _]]]]]. unfold load_white, bind, load_space. rewrite E, Hs.
  destruct (s_white s) as [[k w]|] eqn:Ew; [|congruence]. exists w. reflexivity.
Qed.

Definition leaf_white_ok (X Y : ctype) (f : color -> white_point F -> outcome color) : Prop :=
  forall w, leaf_ok X Y (fun c => f c w).

Lemma leaf_white_conv X Y f : leaf_white_ok X Y f -> conv true true X Y (leaf_white X f).
Proof.
  intros L h p c Hp W N. destruct (load_white_ok h c (N eq_refl)) as [w Hw].
  destruct (L w c W) as [r [E [Wr [S A]]]].
  exists (length (colors h)), r, (Heap (colors h ++ [r]) (spaces h)), c.
  split. { unfold leaf_white, bind. rewrite (load_as_ok h p c X Hp W). rewrite Hw. unfold lift. rewrite E. reflexivity. }
  split; [unfold fresh; lia|]. split; [apply at_new|]. split; [exact Wr|]. split; [exact S|].
  split. { split; [reflexivity|]. intros i c0 _ H. apply at_old, H. }
  split; [apply at_old, Hp|]. repeat (split; [reflexivity || exact W|]). exact A.
Qed.

(** ** The leaf formulas *)

Lemma alpha_std (c : color) X : wf_color X c -> eight_bit X = false -> alpha c = m_alpha c.
Proof. intros W E. unfold alpha. rewrite (wf_cls _ _ W). destruct X; try discriminate E; reflexivity. Qed.
Lemma alpha_eight (c : color) X : wf_color X c -> eight_bit X = true -> alpha c = fmul (m_alpha c) (fz 255).
Proof. intros W E. unfold alpha. rewrite (wf_cls _ _ W). destruct X; try discriminate E; reflexivity. Qed.

Lemma rel_same X Y (c r : color) : wf_color X c -> wf_color Y r ->
  eight_bit X = false -> eight_bit Y = false -> m_alpha r = alpha c -> rel_alpha X Y c r.
Proof.
  intros W Wr EX EY A O _ _. rewrite (alpha_std c X W EX) in A.
  split; [unfold alpha_ok; rewrite A; exact O|]. split.
  - intros E. rewrite (wf_ty _ _ Wr) in E. congruence.
  - unfold converted_alpha. rewrite EY. exact A.
Qed.

Lemma rel_down X Y (c r : color) : wf_color X c -> wf_color Y r ->
  eight_bit X = true -> eight_bit Y = false -> m_alpha r = fdiv (alpha c) (fz 255) -> rel_alpha X Y c r.
Proof.
  intros W Wr EX EY A O Fm _. rewrite (alpha_eight c X W EX) in A.
  destruct Fm as [a Ha]; [rewrite (wf_ty _ _ W); exact EX|]. rewrite Ha, alpha8_scale, <- Ha in A.
  split; [unfold alpha_ok; rewrite A; exact O|]. split.
  - intros E. rewrite (wf_ty _ _ Wr) in E. congruence.
  - unfold converted_alpha. rewrite EY. exact A.
Qed.

Lemma rel_eight X Y (c r : color) : wf_color X c -> wf_color Y r ->
  eight_bit X = true -> eight_bit Y = true -> m_alpha r = alpha8 (alpha c) -> rel_alpha X Y c r.
Proof.
  intros W Wr EX EY A O Fm _. rewrite (alpha_eight c X W EX) in A.
  destruct Fm as [a Ha]; [rewrite (wf_ty _ _ W); exact EX|].
  assert (E : m_alpha r = m_alpha c).
  { rewrite A. unfold alpha8 at 1. rewrite Ha, alpha8_scale, <- Ha. apply clamp_id; try sm. exact O. }
  split; [unfold alpha_ok; rewrite E; exact O|]. split.
  - intros _. exists a. congruence.
  - unfold converted_alpha. rewrite EX, EY. exact E.
Qed.

Lemma rel_up X Y (c r : color) : wf_color X c -> wf_color Y r ->
  eight_bit X = false -> eight_bit Y = true -> m_alpha r = alpha8 (fround (fmul (alpha c) (fz 255))) -> rel_alpha X Y c r.
Proof.
  intros W Wr EX EY A O Fm _. rewrite (alpha_std c X W EX) in A.
  split; [apply (alpha8_ok r _ A)|]. split.
  - intros _. eauto.
  - unfold converted_alpha. rewrite EX, EY. exact A.
Qed.

Lemma rel_set X Y (c r : color) : wf_color X c -> wf_color Y r ->
  eight_bit X = false -> eight_bit Y = false -> rel_alpha X Y c (alpha_set r (alpha c)).
Proof.
  intros W Wr EX EY O _ _. rewrite (alpha_std c X W EX).
  assert (E : m_alpha (alpha_set r (m_alpha c)) = m_alpha c).
  { unfold alpha_set. rewrite (wf_cls _ _ Wr).
    transitivity (clamp (m_alpha c) (fz 1) (fz 0)); [destruct Y; try discriminate EY; reflexivity|].
    apply clamp_id; try sm. exact O. }
  split; [unfold alpha_ok; rewrite E; exact O|]. split.
  - intros K. rewrite (wf_ty _ _ (wf_alpha_set _ _ _ Wr)) in K. congruence.
  - unfold converted_alpha. rewrite EY. exact E.
Qed.

Lemma comps3 k (c : color) : wf_color k c -> arity k = 3%nat -> exists x y z, comps c = [x; y; z].
Proof.
  intros W A. pose proof (wf_len _ _ W) as L. rewrite A in L.
  destruct (comps c) as [|x [|y [|z [|]]]]; try discriminate L. eauto.
Qed.
Lemma comps1 k (c : color) : wf_color k c -> arity k = 1%nat -> exists x, comps c = [x].
Proof.
  intros W A. pose proof (wf_len _ _ W) as L. rewrite A in L.
  destruct (comps c) as [|x [|]]; try discriminate L. eauto.
Qed.
Lemma comps4 k (c : color) : wf_color k c -> arity k = 4%nat -> exists x y z w, comps c = [x; y; z; w].
Proof.
  intros W A. pose proof (wf_len _ _ W) as L. rewrite A in L.
  destruct (comps c) as [|x [|y [|z [|w [|]]]]]; try discriminate L. eauto.
Qed.

Lemma made_finish X Y (c : color) a m : wf_color X c ->
  (forall r, wf_color Y r -> m_alpha r = a -> rel_alpha X Y c r) ->
  made Y a (rgb_space c) m ->
  exists r, m = Ok r /\ wf_color Y r /\ rgb_space r = rgb_space c /\ rel_alpha X Y c r.
Proof. intros W H [r [E [Wr [A S]]]]. exists r. auto. Qed.

Lemma made_finish_set X Y (c : color) a m : wf_color X c ->
  eight_bit X = false -> eight_bit Y = false ->
  made Y a (rgb_space c) m ->
  exists r, obind m (fun o => Ok (alpha_set o (alpha c))) = Ok r /\ wf_color Y r /\ rgb_space r = rgb_space c /\ rel_alpha X Y c r.
Proof.
  intros W EX EY [r [E [Wr [A S]]]]. rewrite E. cbn [obind]. eexists. split; [reflexivity|].
  split; [apply wf_alpha_set, Wr|]. split.
  - rewrite <- S. unfold alpha_set. destruct (cls r); reflexivity.
  - apply rel_set; auto.
Qed.

Ltac made :=
  match goal with
  | |- made _ _ _ (rgb_deepcolor _ _ _ _ _) => apply rgb_deepcolor_made
  | |- made _ _ _ (rgb_deepcolor1 _ _ _) => apply rgb_deepcolor1_made
  | |- made _ _ _ (rgb_truecolor _ _ _ _ _) => apply rgb_truecolor_made
  | |- made _ _ _ (rgb_truecolor1 _ _ _) => apply rgb_truecolor1_made
  | |- made _ _ _ (grey_truecolor _ _ _) => apply grey_truecolor_made
  | |- made _ _ _ (grey_deepcolor _ _ _) => apply grey_deepcolor_made
  | |- made _ _ _ (cmyk _ _ _ _ _ _) => apply cmyk_made
  | |- made _ _ _ (hsi _ _ _ _ _) => apply hsi_made
  | |- made _ _ _ (hsv _ _ _ _ _) => apply hsv_made
  | |- made _ _ _ (hsl _ _ _ _ _) => apply hsl_made
  | |- made _ _ _ (hcy _ _ _ _ _) => apply hcy_made
  | |- made _ _ _ (xyz _ _ _ _ _) => apply xyz_made
  | |- made _ _ _ (xyy _ _ _ _ _) => apply xyy_made
  | |- made _ _ _ (cieluv _ _ _ _ _) => apply cieluv_made
  | |- made _ _ _ (lab _ _ _ _ _) => apply lab_made
  | |- made _ _ _ (lch_ab _ _ _ _ _) => apply lch_ab_made
  | |- made _ _ _ (lch_uv _ _ _ _ _) => apply lch_uv_made
  end.
Tactic Notation "start" reference(f) :=
  intros c W; unfold f;
  let x := fresh "x" in let y := fresh "y" in let z := fresh "z" in let w := fresh "w" in let E := fresh "E" in
  (destruct (comps3 _ c W eq_refl) as [x [y [z E]]]; unfold with3; rewrite E) ||
  (destruct (comps1 _ c W eq_refl) as [x E]; unfold with1; rewrite E) ||
  (destruct (comps4 _ c W eq_refl) as [x [y [z [w E]]]]; unfold with4; rewrite E);
  cbv zeta.
Ltac fin := (eapply made_finish; [eassumption| |made]; intros;
  first [ solve [apply rel_same; (assumption || reflexivity)] | solve [apply rel_down; (assumption || reflexivity)]
    | solve [apply rel_eight; (assumption || reflexivity)] | solve [apply rel_up; (assumption || reflexivity)] ]).
Ltac fin_set := (eapply made_finish_set; [eassumption|reflexivity|reflexivity|made]).

Lemma rgb_true_to_rgb_deep_ok : leaf_ok RGB_TRUE RGB_DEEP rgb_true_to_rgb_deep_f.
Proof. start rgb_true_to_rgb_deep_f. fin. Qed.
Lemma rgb_true_to_grey_true_ok : leaf_ok RGB_TRUE GREY_TRUE rgb_true_to_grey_true_f.
Proof. start rgb_true_to_grey_true_f. fin. Qed.
Lemma rgb_deep_to_rgb_true_ok : leaf_ok RGB_DEEP RGB_TRUE rgb_deep_to_rgb_true_f.
Proof. start rgb_deep_to_rgb_true_f. fin. Qed.
Lemma rgb_deep_to_grey_deep_ok : leaf_ok RGB_DEEP GREY_DEEP rgb_deep_to_grey_deep_f.
Proof. start rgb_deep_to_grey_deep_f. fin. Qed.
Lemma rgb_deep_to_cmyk_ok : leaf_ok RGB_DEEP CMYK rgb_deep_to_cmyk_f.
Proof. start rgb_deep_to_cmyk_f. fin. Qed.
Lemma rgb_deep_to_hsi_ok : leaf_ok RGB_DEEP HSI rgb_deep_to_hsi_f.
Proof. start rgb_deep_to_hsi_f. destruct (feq _ _); fin. Qed.
Lemma rgb_deep_to_hsv_ok : leaf_ok RGB_DEEP HSV rgb_deep_to_hsv_f.
Proof. start rgb_deep_to_hsv_f. destruct (feq _ _); fin. Qed.
Lemma rgb_deep_to_hsl_ok : leaf_ok RGB_DEEP HSL rgb_deep_to_hsl_f.
Proof. start rgb_deep_to_hsl_f. destruct (feq (fmax _ _) _); fin. Qed.
Lemma rgb_deep_to_hcy_ok : leaf_ok RGB_DEEP HCY rgb_deep_to_hcy_f.
Proof. start rgb_deep_to_hcy_f. destruct (feq _ _); fin. Qed.
Lemma grey_true_to_rgb_true_ok : leaf_ok GREY_TRUE RGB_TRUE grey_true_to_rgb_true_f.
Proof. start grey_true_to_rgb_true_f. fin. Qed.
Lemma grey_true_to_rgb_deep_ok : leaf_ok GREY_TRUE RGB_DEEP grey_true_to_rgb_deep_f.
Proof. start grey_true_to_rgb_deep_f. fin. Qed.
Lemma grey_true_to_grey_deep_ok : leaf_ok GREY_TRUE GREY_DEEP grey_true_to_grey_deep_f.
Proof. start grey_true_to_grey_deep_f. fin. Qed.
Lemma grey_deep_to_rgb_true_ok : leaf_ok GREY_DEEP RGB_TRUE grey_deep_to_rgb_true_f.
Proof. start grey_deep_to_rgb_true_f. fin. Qed.
Lemma grey_deep_to_rgb_deep_ok : leaf_ok GREY_DEEP RGB_DEEP grey_deep_to_rgb_deep_f.
Proof. start grey_deep_to_rgb_deep_f. fin. Qed.
Lemma grey_deep_to_grey_true_ok : leaf_ok GREY_DEEP GREY_TRUE grey_deep_to_grey_true_f.
Proof. start grey_deep_to_grey_true_f. fin. Qed.
Lemma cmyk_to_rgb_deep_ok : leaf_ok CMYK RGB_DEEP cmyk_to_rgb_deep_f.
Proof. start cmyk_to_rgb_deep_f. fin. Qed.
Lemma hsi_to_rgb_deep_ok : leaf_ok HSI RGB_DEEP hsi_to_rgb_deep_f.
Proof.
  start hsi_to_rgb_deep_f. destruct (feq _ _); [fin|].
  destruct (hsi_sector _ _ _) as [[r g] b]. fin.
Qed.
Lemma hsv_to_rgb_deep_ok : leaf_ok HSV RGB_DEEP hsv_to_rgb_deep_f.
Proof. start hsv_to_rgb_deep_f. fin. Qed.
Lemma hsv_to_hsl_ok : leaf_ok HSV HSL hsv_to_hsl_f.
Proof. start hsv_to_hsl_f. fin. Qed.
Lemma hsl_to_rgb_deep_ok : leaf_ok HSL RGB_DEEP hsl_to_rgb_deep_f.
Proof.
  start hsl_to_rgb_deep_f. destruct (feq z (fz 0)) eqn:Z0; [|fin].
  eapply made_finish; [exact W| |made]. intros r Wr A O Fm NB. destruct NB.
  split; [apply (wf_ty _ _ W)|]. eauto 6.
Qed.
Lemma hsl_to_hsv_ok : leaf_ok HSL HSV hsl_to_hsv_f.
Proof. start hsl_to_hsv_f. fin. Qed.
Lemma hcy_to_rgb_deep_ok : leaf_ok HCY RGB_DEEP hcy_to_rgb_deep_f.
Proof. start hcy_to_rgb_deep_f. fin. Qed.
Lemma xyz_to_cieluv_ok : leaf_white_ok XYZ CIELUV xyz_to_cieluv_f.
Proof. intros wp. start xyz_to_cieluv_f. fin. Qed.
Lemma xyz_to_lab_ok : leaf_white_ok XYZ LAB xyz_to_lab_f.
Proof. intros wp. start xyz_to_lab_f. fin_set. Qed.
Lemma xyy_to_xyz_ok : leaf_ok XYY XYZ xyy_to_xyz_f.
Proof. start xyy_to_xyz_f. destruct (feq _ _); fin. Qed.
Lemma cieluv_to_xyz_ok : leaf_white_ok CIELUV XYZ cieluv_to_xyz_f.
Proof. intros wp. start cieluv_to_xyz_f. fin. Qed.
Lemma cieluv_to_lch_uv_ok : leaf_ok CIELUV LCH_UV cieluv_to_lch_uv_f.
Proof. start cieluv_to_lch_uv_f. fin_set. Qed.
Lemma lab_to_xyz_ok : leaf_white_ok LAB XYZ lab_to_xyz_f.
Proof. intros wp. start lab_to_xyz_f. fin_set. Qed.
Lemma lab_to_lch_ab_ok : leaf_ok LAB LCH_AB lab_to_lch_ab_f.
Proof. start lab_to_lch_ab_f. fin_set. Qed.
Lemma lch_ab_to_lab_ok : leaf_ok LCH_AB LAB lch_ab_to_lab_f.
Proof. start lch_ab_to_lab_f. fin_set. Qed.
Lemma lch_uv_to_cieluv_ok : leaf_ok LCH_UV CIELUV lch_uv_to_cieluv_f.
Proof. start lch_uv_to_cieluv_f. fin_set. Qed.

End Conv.
