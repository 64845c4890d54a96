(** * Colours that satisfy the hypotheses of the round-trip theorems *)
From Coq Require Import ZArith QArith Qreals Reals Lra Lia List Bool.
From Verif Require Import Arith Outcome ColorModel GammaModel MatrixModel SpaceModel Heap Converter RArith
  Spec Laws NormalForms Core_Proofs Core2_Proofs Spec_Matrix Spec_Space Gamma2_Proofs Space_Proofs
  Spec_Conv Spec_Round HueR_Proofs Round_Proofs Round3_Proofs.
Import ListNotations.
Local Open Scope R_scope.

Lemma deep_at r g b sp l : 0 <= r <= 1 -> 0 <= g <= 1 -> 0 <= b <= 1 ->
  exists (h : heap R) c, at_addr h 0%nat c /\ wf_color RGB_DEEP c /\ comps c = [r; g; b] /\ rgb_space c = sp /\ spaces h = l.
Proof.
  intros Hr Hg Hb. destruct (rgb_deepcolor_made (AF := RArith) r g b 1 sp) as [c [E [W _]]].
  exists (Heap [c] l), c. rewrite (deep_eq r g b) in E by (assumption || reflexivity). injection E as <-. split; [reflexivity|]. split; [exact W|]. auto.
Qed.

Lemma rgb_example : exists (h : heap R) c, at_addr h 0%nat c /\ wf_color RGB_DEEP c /\ comps c = [1 / 2; 1 / 4; 3 / 4] /\
  ~ near_360 (1 / 2) (1 / 4) (3 / 4).
Proof. destruct (deep_at (1 / 2) (1 / 4) (3 / 4) None []) as [h [c [A [B [C _]]]]]; try lra. exists h, c. unfold near_360. split; [exact A|]. split; [exact B|]. split; [exact C|]. lra. Qed.
Lemma hsi_example : exists (h : heap R) c, at_addr h 0%nat c /\ wf_color RGB_DEEP c /\ comps c = [1 / 2; 0; 3 / 4] /\
  ~ near_360 (1 / 2) 0 (3 / 4).
Proof. destruct (deep_at (1 / 2) 0 (3 / 4) None []) as [h [c [A [B [C _]]]]]; try lra. exists h, c. unfold near_360. split; [exact A|]. split; [exact B|]. split; [exact C|]. lra. Qed.
Lemma near_example : exists (h : heap R) c, at_addr h 0%nat c /\ wf_color RGB_DEEP c /\ comps c = [1; 0; 1 / 120] /\ near_360 1 0 (1 / 120).
Proof. destruct (deep_at 1 0 (1 / 120) None []) as [h [c [A [B [C _]]]]]; try lra. exists h, c. unfold near_360. split; [exact A|]. split; [exact B|]. split; [exact C|]. lra. Qed.

Lemma hsv_example : exists (h : heap R) c, at_addr h 0%nat c /\ wf_color HSV c /\ comps c = [200; 1 / 2; 3 / 4].
Proof.
  destruct (hsv_made (AF := RArith) 200 (1 / 2) (3 / 4) 1 None) as [c [E [W _]]]. exists (Heap [c] []), c.
  rewrite hsv_nf in E. rewrite hue_norm_id, !c01R in E by lra. injection E as <-. split; [reflexivity|]. split; [exact W|]. auto.
Qed.

Lemma lab_example : exists (h : heap R) c, at_addr h 0%nat c /\ wf_color LAB c /\ comps c = [50; 0; 0].
Proof.
  destruct (lab_made (AF := RArith) 50 0 0 1 None) as [c [E [W _]]]. exists (Heap [c] []), c.
  rewrite lab_nf in E. rewrite c100R, !clamp_idR in E by lra. injection E as <-. split; [reflexivity|]. split; [exact W|]. auto.
Qed.

Lemma grey_example : exists (h : heap R) c, at_addr h 0%nat c /\ wf_color RGB_TRUE c /\ comps c = [100; 100; 100] /\ 0 <= m_alpha c <= 1.
Proof.
  destruct (rgb_truecolor_made (AF := RArith) 100 100 100 51 None) as [c [E [W _]]]. exists (Heap [c] []), c.
  rewrite rgb_truecolor_nf in E. rewrite !c255R in E by lra. rewrite fzR in E. cbn [fdiv RArith] in E. rewrite c01R in E by lra. injection E as E.
  split; [reflexivity|]. split; [exact W|]. rewrite <- E. cbn [comps m_alpha]. split; [reflexivity|lra].
Qed.

Lemma xyz_example : exists (h : heap R) c w x y z, at_addr h 0%nat c /\ wf_color XYZ c /\ comps c = [x; y; z] /\ white_of h c w /\
  0 < y /\ 0 < tx w /\ 0 < ty_ w /\ 0 < tz w /\ 0 <= m_alpha c <= 1 /\
  cie_L w y <= 100 /\ -128 <= cie_a w x y <= 128 /\ -128 <= cie_b w y z <= 128 /\ x / ty_ w <= 0.008856 /\ x / ty_ w <> y /\
  0 <= cx w <= 1 /\ 0 <= cy w <= 1.
Proof.
  pose (w := wp_D65_2Degree (AF := RArith)).
  assert (T1 : tx w = 0.9504) by (unfold w; cbn; unfold Q2R; cbn; lra).
  assert (T2 : ty_ w = 1) by (unfold w; cbn; unfold Q2R; cbn; lra).
  assert (T3 : tz w = 1.0888) by (unfold w; cbn; unfold Q2R; cbn; lra).
  assert (T4 : cx w = 0.3127) by (unfold w; cbn; unfold Q2R; cbn; lra).
  assert (T5 : cy w = 0.329) by (unfold w; cbn; unfold Q2R; cbn; lra).
  destruct (xyz_made (AF := RArith) (1 / 500) (1 / 1000) (3 / 1000) 1 (Some 0%nat)) as [c [E [W _]]].
  rewrite (xyz_eq (1 / 500) (1 / 1000) (3 / 1000)) in E by (reflexivity || lra). injection E as E.
  destruct (preset_proper 0%nat 0.64 0.33 0.21 0.71 0.15 0.06 w gammaAdobe) as [s [Es [wa [w' [Ew _]]]]].
  { unfold nondegenerate, white_xyz, det_cols3. rewrite T1, T2, T3. repeat split; lra. }
  assert (Ew' : s_white s = Some (0%nat, w)).
  { destruct (space_ctor_ok 0.64 0.33 0.21 0.71 0.15 0.06 0%nat w (Some gammaAdobe)) as [s' [E' [Ew' _]]].
    { unfold nondegenerate, white_xyz, det_cols3. rewrite T1, T2, T3. repeat split; lra. }
    congruence. }
  exists (Heap [c] [s]), c, w, (1 / 500), (1 / 1000), (3 / 1000).
  assert (L : forall t, 0 <= t <= 0.008 -> cie_f t = (24389 / 27 * t + 16) / 116).
  { intros t Ht. unfold cie_f. destruct (Rlt_dec _ _); [lra|reflexivity]. }
  unfold cie_L, cie_a, cie_b. rewrite T1, T2, T3, T4, T5. rewrite !L by lra.
  split; [reflexivity|]. split; [exact W|]. split; [rewrite <- E; reflexivity|].
  split; [exists 0%nat, s, 0%nat; split; [rewrite <- E; reflexivity|split; [reflexivity|exact Ew']]|].
  rewrite <- E. cbn [m_alpha]. repeat split; lra.
Qed.

Lemma rgb_xyz_example : exists (h : heap R) c s x y z, at_addr h 0%nat c /\ wf_color RGB_DEEP c /\ comps c = [1; 1; 1] /\
  rgb_space c = Some 0%nat /\ nth_error (spaces h) 0 = Some s /\ proper s /\ s_gamma s = Some gammaAdobe /\
  [1; 1; 1] = map (inverse_gamma_correction gammaAdobe) [1; 1; 1] /\
  map (gamma_correction gammaAdobe) [1; 1; 1] = [1; 1; 1] /\
  mulvec (s_matrix s) [1; 1; 1] = Ok [x; y; z] /\ 0 <= x <= 100 /\ 0 <= y <= 100 /\ 0 <= z <= 100.
Proof.
  pose (w := wp_D65_2Degree (AF := RArith)).
  assert (T1 : tx w = 0.9504) by (unfold w; cbn; unfold Q2R; cbn; lra).
  assert (T2 : ty_ w = 1) by (unfold w; cbn; unfold Q2R; cbn; lra).
  assert (T3 : tz w = 1.0888) by (unfold w; cbn; unfold Q2R; cbn; lra).
  assert (N : nondegenerate (0.64, 0.33, 1 - 0.64 - 0.33) (0.21, 0.71, 1 - 0.21 - 0.71) (0.15, 0.06, 1 - 0.15 - 0.06) (white_xyz w)).
  { unfold nondegenerate, white_xyz, det_cols3. rewrite T1, T2, T3. repeat split; lra. }
  destruct (space_ctor_ok 0.64 0.33 0.21 0.71 0.15 0.06 0%nat w (Some gammaAdobe) N) as [s [E [Ew [Eg [Er [Egr [Eb M]]]]]]].
  destruct (deep_at 1 1 1 (Some 0%nat) [s]) as [h [c [A [B [C [D S]]]]]]; try lra.
  exists h, c, s, (tx w), (ty_ w), (tz w).
  split; [exact A|]. split; [exact B|]. split; [exact C|]. split; [exact D|]. rewrite S. split; [reflexivity|].
  split; [exists 0%nat, w; rewrite Er, Egr, Eb; split; [exact Ew|split; [rewrite Eg; discriminate|exact M]]|].
  split; [exact Eg|].
  destruct (power_preset_monotone (219921875 # 100000000) 1 1) as [_ [_ [_ [_ [_ [P1 [_ P2]]]]]]]; [simpl; tauto|lra|lra|lra|].
  change (power_gamma (219921875 # 100000000)) with (@gammaAdobe R RArith) in *.
  cbn [map]. rewrite P1, P2. split; [reflexivity|]. split; [reflexivity|]. rewrite T1, T2, T3 in *.
  split; [destruct M as [M _]; rewrite T1, T2, T3 in M; exact M|]. lra.
Qed.
