(** * The conversions from and to the grey types (exact arithmetic) *)
From Coq Require Import ZArith QArith Qreals Reals Lra Lia List Bool.
From Verif Require Import Arith Outcome ColorModel GammaModel MatrixModel SpaceModel Heap Converter RArith
  Spec Laws NormalForms Alpha8 Core_Proofs Core2_Proofs Spec_Matrix Spec_Conv Spec_Round Conv_Proofs Conv2_Proofs Run_Proofs HueR_Proofs
  Round_Proofs Round2_Proofs Round3_Proofs Spec_Formula Formula_Proofs Formula2_Proofs Error7_Proofs.
Import ListNotations.
Local Open Scope R_scope.

Lemma byte_alpha (a : R) k sp l : 0 <= a <= 1 ->
  eight_bit k = true -> nearest_byte a (alpha (Color k k l (@c01 R RArith (Rroundf (a * 255) / 255)) 255 0 sp)).
Proof.
  intros Ba E. assert (Q : alpha (Color k k l (@c01 R RArith (Rroundf (a * 255) / 255)) 255 0 sp) = @c01 R RArith (Rroundf (a * 255) / 255) * 255).
  { destruct k; try discriminate E; unfold alpha, base_alpha; cbn [cls m_alpha]; rn; reflexivity. }
  rewrite Q. destruct (roundf_near (a * 255)) as [k' [Ek [Nk Pk]]]; [lra|].
  assert (Qk : (k' <= 255)%Z). { assert (IZR k' < 256) by lra. apply lt_IZR in H. lia. }
  apply IZR_le in Pk as P'. apply IZR_le in Qk as Q'.
  rewrite Ek. rewrite c01R by lra. exists k'. split; [field|]. split; [lia|]. replace (IZR k' / 255 * 255) with (IZR k') by field. lra.
Qed.

Section Grey.
Variables (h : heap R) (p : nat) (c : color R) (v : R).
Hypothesis Hp : at_addr h p c.
Hypothesis Ec : comps c = [v].

Lemma true_alpha : wf_color GREY_TRUE c -> alpha c = m_alpha c * 255.
Proof. intros W. unfold alpha. rewrite (wf_cls _ _ W). unfold base_alpha. rn. reflexivity. Qed.

Lemma grey_true_rgb_true : wf_color GREY_TRUE c -> 0 <= m_alpha c <= 1 -> yields to_rgb_true h p (fun d =>
  ty d = RGB_TRUE /\ comps d = [v; v; v] /\ m_alpha d = m_alpha c /\ rgb_space d = rgb_space c).
Proof.
  intros W Ba. pose proof (range1 c _ v W Ec) as B. cbn [comp_range fst snd] in B.
  eapply (yields_leaf to_rgb_true GREY_TRUE grey_true_to_rgb_true_f h p c); [disp|exact Hp|exact W| |].
  - unfold grey_true_to_rgb_true_f, with1, rgb_truecolor1. rewrite Ec. rn. rewrite rgb_truecolor_nf. rewrite (true_alpha W). reflexivity.
  - cbn [ty comps m_alpha rgb_space]. rewrite !c255R by lra. split; [reflexivity|]. split; [reflexivity|]. split; [|reflexivity].
    rn. replace (m_alpha c * 255 / 255) with (m_alpha c) by field. apply c01R, Ba.
Qed.

Lemma grey_true_rgb_deep : wf_color GREY_TRUE c -> yields to_rgb_deep h p (fun d =>
  ty d = RGB_DEEP /\ comps d = [v / 255; v / 255; v / 255] /\ m_alpha d = m_alpha c /\ rgb_space d = rgb_space c).
Proof.
  intros W. pose proof (range1 c _ v W Ec) as B. cbn [comp_range fst snd] in B.
  eapply (yields_leaf to_rgb_deep GREY_TRUE grey_true_to_rgb_deep_f h p c); [disp|exact Hp|exact W| |].
  - unfold grey_true_to_rgb_deep_f, with1. rewrite Ec. rn. rewrite rgb_deepcolor1_nf. rewrite (true_alpha W). reflexivity.
  - cbn [ty comps m_alpha rgb_space]. rewrite !c01R by lra. split; [reflexivity|]. split; [reflexivity|]. split; [|reflexivity]. field.
Qed.

Lemma grey_true_grey_deep : wf_color GREY_TRUE c -> yields to_grey_deep h p (fun d =>
  ty d = GREY_DEEP /\ comps d = [v / 255] /\ m_alpha d = m_alpha c /\ rgb_space d = rgb_space c).
Proof.
  intros W. pose proof (range1 c _ v W Ec) as B. cbn [comp_range fst snd] in B.
  eapply (yields_leaf to_grey_deep GREY_TRUE grey_true_to_grey_deep_f h p c); [disp|exact Hp|exact W| |].
  - unfold grey_true_to_grey_deep_f, with1. rewrite Ec. rn. rewrite grey_deepcolor_nf. rewrite (true_alpha W). reflexivity.
  - cbn [ty comps m_alpha rgb_space]. rewrite !c01R by lra. split; [reflexivity|]. split; [reflexivity|]. split; [|reflexivity]. field.
Qed.

Lemma grey_deep_rgb_deep : wf_color GREY_DEEP c -> yields to_rgb_deep h p (fun d =>
  ty d = RGB_DEEP /\ comps d = [v; v; v] /\ m_alpha d = m_alpha c /\ rgb_space d = rgb_space c).
Proof.
  intros W. pose proof (range1 c _ v W Ec) as B. cbn [comp_range fst snd] in B.
  eapply (yields_leaf to_rgb_deep GREY_DEEP grey_deep_to_rgb_deep_f h p c); [disp|exact Hp|exact W| |].
  - unfold grey_deep_to_rgb_deep_f, with1. rewrite Ec. rewrite rgb_deepcolor1_nf. rewrite (alpha_std c _ W eq_refl). reflexivity.
  - cbn [ty comps m_alpha rgb_space]. rewrite !c01R by lra. auto.
Qed.

Lemma grey_deep_rgb_true : wf_color GREY_DEEP c -> 0 <= m_alpha c <= 1 -> yields to_rgb_true h p (fun d =>
  ty d = RGB_TRUE /\ (exists n, comps d = [n; n; n] /\ nearest_byte v n) /\ nearest_byte (m_alpha c) (alpha d) /\ rgb_space d = rgb_space c).
Proof.
  intros W Ba. pose proof (range1 c _ v W Ec) as B. cbn [comp_range fst snd] in B.
  eapply (yields_leaf to_rgb_true GREY_DEEP grey_deep_to_rgb_true_f h p c); [disp|exact Hp|exact W| |].
  - unfold grey_deep_to_rgb_true_f, with1, rgb_truecolor1. rewrite Ec. rn. rewrite rgb_truecolor_nf. rewrite (alpha_std c _ W eq_refl). rn. reflexivity.
  - cbn [ty comps rgb_space]. split; [reflexivity|]. split; [|split; [|reflexivity]].
    + eexists. split; [reflexivity|]. apply byte_near, B.
    + apply byte_alpha; [exact Ba|reflexivity].
Qed.

Lemma grey_deep_grey_true : wf_color GREY_DEEP c -> 0 <= m_alpha c <= 1 -> yields to_grey_true h p (fun d =>
  ty d = GREY_TRUE /\ (exists n, comps d = [n] /\ nearest_byte v n) /\ nearest_byte (m_alpha c) (alpha d) /\ rgb_space d = rgb_space c).
Proof.
  intros W Ba. pose proof (range1 c _ v W Ec) as B. cbn [comp_range fst snd] in B.
  eapply (yields_leaf to_grey_true GREY_DEEP grey_deep_to_grey_true_f h p c); [disp|exact Hp|exact W| |].
  - unfold grey_deep_to_grey_true_f, with1. rewrite Ec. rn. rewrite grey_truecolor_nf. rewrite (alpha_std c _ W eq_refl). rn. reflexivity.
  - cbn [ty comps rgb_space]. split; [reflexivity|]. split; [|split; [|reflexivity]].
    + eexists. split; [reflexivity|]. apply byte_near, B.
    + apply byte_alpha; [exact Ba|reflexivity].
Qed.
End Grey.

Section Rgb.
Variables (h : heap R) (p : nat) (c : color R) (r g b : R).
Hypothesis Hp : at_addr h p c.
Hypothesis Ec : comps c = [r; g; b].
Hypothesis Ba : 0 <= m_alpha c <= 1.

Lemma rgb_true_grey_deep : wf_color RGB_TRUE c -> yields to_grey_deep h p (fun d =>
  ty d = GREY_DEEP /\ comps d = [(r + g + b) / 3 / 255] /\ m_alpha d = m_alpha c /\ rgb_space d = rgb_space c).
Proof.
  intros W. pose proof (range3 c _ r g b W Ec) as [Br [Bg Bb]]. cbn [comp_range fst snd] in Br, Bg, Bb.
  assert (D : dispatches to_grey_deep RGB_TRUE rgb_true_to_grey_deep) by disp.
  assert (Ea : alpha c = m_alpha c * 255) by (unfold alpha; rewrite (wf_cls _ _ W); unfold base_alpha; rn; reflexivity).
  pose (g0 := Color GREY_TRUE GREY_TRUE [(r + g + b) / 3] (m_alpha c) 255 0 (rgb_space c)).
  assert (E0 : rgb_true_to_grey_true_f c = Ok g0).
  { unfold rgb_true_to_grey_true_f, with3. rewrite Ec, Ea. rn. rewrite grey_truecolor_nf. unfold g0.
    rewrite c255R by lra. rn. replace (m_alpha c * 255 / 255) with (m_alpha c) by field. rewrite c01R by exact Ba. reflexivity. }
  assert (W0 : wf_color GREY_TRUE g0).
  { destruct (rgb_true_to_grey_true_ok (AF := RArith) c W) as [g1 [E1 [W1 _]]]. congruence. }
  assert (Ag : @alpha R RArith (copy_ctor GREY_TRUE g0) = m_alpha c * 255).
  { pose proof (copy_alpha_same_R g0) as K. cbn [cls g0] in K. fold g0 in K.
    assert (O : alpha_ok (AF := RArith) g0) by (unfold alpha_ok; cbn [g0 m_alpha]; rewrite withinR; exact Ba).
    specialize (K O). unfold alpha. destruct (copy_ctor_fields GREY_TRUE g0) as [C1 _]. rewrite C1. unfold base_alpha. rn.
    rewrite K. reflexivity. }
  pose (d := Color GREY_DEEP GREY_DEEP [(r + g + b) / 3 / 255] (m_alpha c) 1 0 (rgb_space c)).
  exists (length (colors (pushed h g0))), d, (pushed (pushed h g0) d).
  assert (H0 : at_addr (pushed h g0) (length (colors h)) g0) by apply at_new.
  assert (H1 : at_addr (pushed h g0) p c) by apply (at_old _ _ _ _ _ Hp).
  split; [|split; [apply at_new|unfold d; auto]].
  rewrite (D h p c Hp (wf_ty _ _ W)).
  unfold rgb_true_to_grey_deep, rgb_true_to_grey_true, bind. rewrite (leaf_run RGB_TRUE _ h p c g0 Hp W E0).
  rewrite (load_as_ok _ _ g0 _ H0 W0). rewrite (load_as_ok _ p c _ H1 W). unfold with1, lift.
  destruct (copy_ctor_fields GREY_TRUE g0) as [_ [_ [C3 _]]]. rewrite C3. cbn [comps g0]. rewrite Ag.
  rewrite grey_deepcolor_nf. rn. rewrite c01R by lra. replace (m_alpha c * 255 / 255) with (m_alpha c) by field. reflexivity.
Qed.

Lemma rgb_deep_grey_true : wf_color RGB_DEEP c -> yields to_grey_true h p (fun d =>
  ty d = GREY_TRUE /\ (exists r' g' b', comps d = [(r' + g' + b') / 3] /\ nearest_byte r r' /\ nearest_byte g g' /\ nearest_byte b b') /\
  nearest_byte (m_alpha c) (alpha d) /\ rgb_space d = rgb_space c).
Proof.
  intros W. destruct (deep_range c r g b W Ec) as [Br [Bg Bb]].
  pose (m := Color RGB_TRUE RGB_TRUE [@c255 R RArith (Rroundf (r * 255)); @c255 R RArith (Rroundf (g * 255)); @c255 R RArith (Rroundf (b * 255))]
    (@c01 R RArith (Rroundf (m_alpha c * 255) / 255)) 255 0 (rgb_space c)).
  assert (E1 : rgb_deep_to_rgb_true_f c = Ok m).
  { unfold rgb_deep_to_rgb_true_f, with3. rewrite Ec. rn. rewrite rgb_truecolor_nf. rewrite (alpha_std c _ W eq_refl). rn. reflexivity. }
  pose (q := Color GREY_TRUE GREY_TRUE [@c255 R RArith ((@c255 R RArith (Rroundf (r * 255)) + @c255 R RArith (Rroundf (g * 255)) + @c255 R RArith (Rroundf (b * 255))) / 3)]
    (@c01 R RArith (@c01 R RArith (Rroundf (m_alpha c * 255) / 255) * 255 / 255)) 255 0 (rgb_space c)).
  assert (E2 : rgb_true_to_grey_true_f m = Ok q).
  { unfold rgb_true_to_grey_true_f, with3, m. cbn [comps]. rn. rewrite grey_truecolor_nf.
    unfold alpha, base_alpha. cbn [cls m_alpha rgb_space]. rn. reflexivity. }
  exists (length (colors (pushed h m))), q, (pushed (pushed h m) q).
  assert (D : dispatches to_grey_true RGB_DEEP (two RGB_DEEP rgb_deep_to_rgb_true_f RGB_TRUE rgb_true_to_grey_true_f)) by disp.
  split; [rewrite (D h p c Hp (wf_ty _ _ W)); apply (two_run RGB_DEEP rgb_deep_to_rgb_true_f RGB_TRUE rgb_true_to_grey_true_f h p c m q Hp W)|].
  - intros x Wx. apply rgb_deep_to_rgb_true_ok, Wx.
  - exact E1.
  - exact E2.
  - split; [apply at_new|]. unfold q at 1 2 4. cbn [ty comps rgb_space]. split; [reflexivity|].
    destruct (byte_near r Br) as [n1 [F1 [I1 N1]]]. destruct (byte_near g Bg) as [n2 [F2 [I2 N2]]]. destruct (byte_near b Bb) as [n3 [F3 [I3 N3]]].
    split; [|split; [|reflexivity]].
    + rewrite F1, F2, F3. exists (IZR n1), (IZR n2), (IZR n3).
      assert (J : forall n, (0 <= n <= 255)%Z -> 0 <= IZR n <= 255) by (intros n Hn; split; apply IZR_le; lia).
      pose proof (J _ I1). pose proof (J _ I2). pose proof (J _ I3). rewrite c255R by lra.
      split; [reflexivity|].
      split; [|split]; [rewrite <- F1|rewrite <- F2|rewrite <- F3]; [exists n1|exists n2|exists n3]; auto.
    + unfold q. destruct (roundf_near (m_alpha c * 255)) as [k [Ek [Nk Pk]]]; [lra|].
      assert (Qk : (k <= 255)%Z). { assert (IZR k < 256) by lra. apply lt_IZR in H. lia. }
      apply IZR_le in Pk as P'. apply IZR_le in Qk as Q'.
      replace (@c01 R RArith (Rroundf (m_alpha c * 255) / 255) * 255 / 255) with (Rroundf (m_alpha c * 255) / 255).
      * apply byte_alpha; [exact Ba|reflexivity].
      * rewrite Ek. rewrite c01R by lra. field.
Qed.
End Rgb.

Lemma grey_deep_example : exists (h : heap R) c, at_addr h 0%nat c /\ wf_color GREY_DEEP c /\ comps c = [1 / 4] /\ 0 <= m_alpha c <= 1.
Proof.
  destruct (grey_deepcolor_made (AF := RArith) (1 / 4) (1 / 2) None) as [c [E [W _]]]. exists (Heap [c] []), c.
  rewrite grey_deepcolor_nf in E. rewrite c01R in E by lra. injection E as E.
  split; [reflexivity|]. split; [exact W|]. rewrite <- E. cbn [comps m_alpha]. split; [reflexivity|lra].
Qed.
Lemma grey_true_example : exists (h : heap R) c, at_addr h 0%nat c /\ wf_color GREY_TRUE c /\ comps c = [100] /\ 0 <= m_alpha c <= 1.
Proof.
  destruct (grey_truecolor_made (AF := RArith) 100 51 None) as [c [E [W _]]]. exists (Heap [c] []), c.
  rewrite grey_truecolor_nf in E. rewrite c255R in E by lra. rewrite fzR in E. cbn [fdiv RArith] in E. rewrite c01R in E by lra. injection E as E.
  split; [reflexivity|]. split; [exact W|]. rewrite <- E. cbn [comps m_alpha]. split; [reflexivity|lra].
Qed.
