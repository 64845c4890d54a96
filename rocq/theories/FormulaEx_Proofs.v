(** * Colours that satisfy the hypotheses of the formula theorems *)
From Coq Require Import ZArith QArith Qreals Reals Lra Lia List Bool.
From Verif Require Import Arith Outcome ColorModel GammaModel MatrixModel SpaceModel Heap Converter RArith
  Spec Laws NormalForms Core_Proofs Core2_Proofs Spec_Matrix Spec_Space Gamma2_Proofs Space_Proofs
  Spec_Conv Spec_Round HueR_Proofs Round_Proofs Round3_Proofs Spec_Formula Formula_Proofs.
Import ListNotations.
Local Open Scope R_scope.

Lemma put X l f : made (AF := RArith) X 1 None f -> (forall c, f = Ok c -> comps c = l) ->
  exists (h : heap R) c, at_addr h 0%nat c /\ wf_color X c /\ comps c = l /\ 0 <= m_alpha c <= 1.
Proof.
  intros [c [E [W [A _]]]] H. exists (Heap [c] []), c. split; [reflexivity|]. split; [exact W|]. split; [apply H, E|]. rewrite A. lra.
Qed.

Lemma hue_example X : has_hue X = true ->
  exists (h : heap R) c, at_addr h 0%nat c /\ wf_color X c /\ comps c = [200; 1 / 2; 3 / 4] /\ 0 <= m_alpha c <= 1.
Proof.
  intros K. destruct X; try discriminate K.
  - apply (put _ _ (hsi 200 (1 / 2) (3 / 4) 1 None)); [apply hsi_made|]. intros c E. rewrite hsi_nf in E. rewrite hue_norm_id, !c01R in E by lra. injection E as <-. reflexivity.
  - apply (put _ _ (hsv 200 (1 / 2) (3 / 4) 1 None)); [apply hsv_made|]. intros c E. rewrite hsv_nf in E. rewrite hue_norm_id, !c01R in E by lra. injection E as <-. reflexivity.
  - apply (put _ _ (hsl 200 (1 / 2) (3 / 4) 1 None)); [apply hsl_made|]. intros c E. rewrite hsl_nf in E. rewrite hue_norm_id, !c01R in E by lra. injection E as <-. reflexivity.
  - apply (put _ _ (hcy 200 (1 / 2) (3 / 4) 1 None)); [apply hcy_made|]. intros c E. rewrite hcy_nf in E. rewrite hue_norm_id, !c01R in E by lra. injection E as <-. reflexivity.
Qed.
Lemma cmyk_example : exists (h : heap R) c, at_addr h 0%nat c /\ wf_color CMYK c /\ comps c = [1 / 5; 2 / 5; 3 / 5; 1 / 10] /\ 0 <= m_alpha c <= 1.
Proof.
  apply (put _ _ (cmyk (1 / 5) (2 / 5) (3 / 5) (1 / 10) 1 None)); [apply cmyk_made|]. intros c E. rewrite cmyk_nf in E.
  rewrite !c01R in E by lra. injection E as <-. reflexivity.
Qed.
Lemma lab20_example : exists (h : heap R) c, at_addr h 0%nat c /\ wf_color LAB c /\ comps c = [50; 0; 20] /\ 0 <= m_alpha c <= 1.
Proof.
  apply (put _ _ (lab 50 0 20 1 None)); [apply lab_made|]. intros c E. rewrite lab_nf in E.
  rewrite c100R, !clamp_idR in E by lra. injection E as <-. reflexivity.
Qed.
Lemma luv20_example : exists (h : heap R) c, at_addr h 0%nat c /\ wf_color CIELUV c /\ comps c = [50; 0; 20] /\ 0 <= m_alpha c <= 1.
Proof.
  apply (put _ _ (cieluv 50 0 20 1 None)); [apply cieluv_made|]. intros c E. rewrite cieluv_nf in E.
  rewrite c100R, !clamp_idR in E by lra. injection E as <-. reflexivity.
Qed.
Lemma lch_example : exists (h : heap R) c, at_addr h 0%nat c /\ wf_color LCH_AB c /\ comps c = [50; 40; 90] /\ 0 <= m_alpha c <= 1.
Proof.
  apply (put _ _ (lch_ab 50 40 90 1 None)); [apply lch_ab_made|]. intros c E. rewrite lch_ab_nf in E.
  rewrite !c100R, !clamp_idR in E by lra. injection E as <-. reflexivity.
Qed.

(** Colours that refer to a space with the D65 white point *)
Lemma d65 : exists (w : white_point R) s, s_white s = Some (0%nat, w) /\ tx w = 0.9504 /\ ty_ w = 1 /\ tz w = 1.0888.
Proof.
  pose (w := wp_D65_2Degree (AF := RArith)).
  assert (T1 : tx w = 0.9504) by (unfold w; cbn; unfold Q2R; cbn; lra).
  assert (T2 : ty_ w = 1) by (unfold w; cbn; unfold Q2R; cbn; lra).
  assert (T3 : tz w = 1.0888) by (unfold w; cbn; unfold Q2R; cbn; lra).
  destruct (space_ctor_ok 0.64 0.33 0.21 0.71 0.15 0.06 0%nat w (Some gammaAdobe)) as [s [_ [Ew _]]].
  { unfold nondegenerate, white_xyz, det_cols3. rewrite T1, T2, T3. repeat split; lra. }
  exists w, s. auto.
Qed.
Lemma put_white X (w : white_point R) s l f : s_white s = Some (0%nat, w) -> made (AF := RArith) X 1 (Some 0%nat) f -> (forall c, f = Ok c -> comps c = l) ->
  exists (h : heap R) c, at_addr h 0%nat c /\ wf_color X c /\ comps c = l /\ white_of h c w /\ 0 <= m_alpha c <= 1.
Proof.
  intros Es [c [E [W [A Sp]]]] H. exists (Heap [c] [s]), c. split; [reflexivity|]. split; [exact W|]. split; [apply H, E|].
  split; [exists 0%nat, s, 0%nat; auto|]. rewrite A. lra.
Qed.
Lemma white_example : exists (h : heap R) c w, at_addr h 0%nat c /\ wf_color XYZ c /\ comps c = [tx w; ty_ w; tz w] /\ white_of h c w /\
  0 < tx w /\ 0 < ty_ w /\ 0 < tz w.
Proof.
  destruct d65 as [w [s [Es [T1 [T2 T3]]]]].
  destruct (put_white XYZ w s [tx w; ty_ w; tz w] (xyz (tx w) (ty_ w) (tz w) 1 (Some 0%nat)) Es) as [h [c [A [B [C [D _]]]]]].
  - apply xyz_made.
  - intros c E. rewrite (xyz_eq (tx w) (ty_ w) (tz w)) in E by (reflexivity || lra). injection E as <-. reflexivity.
  - exists h, c, w. split; [exact A|]. split; [exact B|]. split; [exact C|]. split; [exact D|]. lra.
Qed.
Lemma luv_example : exists (h : heap R) c w u' v', at_addr h 0%nat c /\ wf_color CIELUV c /\ comps c = [50; 0; 0] /\ white_of h c w /\
  u' = 0 / (13 * 50) + ucs_u (tx w) (ty_ w) (tz w) /\ v' = 0 / (13 * 50) + ucs_v (tx w) (ty_ w) (tz w) /\ u' <> 0 /\ v' <> 0.
Proof.
  destruct d65 as [w [s [Es [T1 [T2 T3]]]]].
  destruct (put_white CIELUV w s [50; 0; 0] (cieluv 50 0 0 1 (Some 0%nat)) Es) as [h [c [A [B [C [D _]]]]]].
  - apply cieluv_made.
  - intros c E. rewrite cieluv_nf in E. rewrite c100R, !clamp_idR in E by lra. injection E as <-. reflexivity.
  - exists h, c, w. do 2 eexists. split; [exact A|]. split; [exact B|]. split; [exact C|]. split; [exact D|].
    split; [reflexivity|]. split; [reflexivity|]. unfold ucs_u, ucs_v. rewrite T1, T2, T3. split; lra.
Qed.
Lemma lab_white_example : exists (h : heap R) c w, at_addr h 0%nat c /\ wf_color LAB c /\ comps c = [50; 0; 20] /\ white_of h c w.
Proof.
  destruct d65 as [w [s [Es _]]].
  destruct (put_white LAB w s [50; 0; 20] (lab 50 0 20 1 (Some 0%nat)) Es) as [h [c [A [B [C [D _]]]]]].
  - apply lab_made.
  - intros c E. rewrite lab_nf in E. rewrite c100R, !clamp_idR in E by lra. injection E as <-. reflexivity.
  - exists h, c, w. auto.
Qed.
