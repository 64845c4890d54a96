(** * color_combinations: the colours of a scheme are distinct *)
From Coq Require Import ZArith QArith Reals Lra Lia List Bool.
From Flocq Require Import Core IEEE754.BinarySingleNaN.
From Verif Require Import Arith Outcome ColorModel GammaModel MatrixModel SpaceModel Heap Converter Calculation Blend Adjust Combine
  Spec F32 RArith F32Facts Hue32 Spec32 Laws NormalForms History Core_Proofs Core2_Proofs Core3_Proofs Core4_Proofs Convert_Proofs Alpha8
  Spec_Matrix Spec_Conv Spec_Calc Spec_Blend Spec_Adjust Spec_Combine
  Conv_Proofs Conv2_Proofs Conv3_Proofs Total_Proofs HueR_Proofs Round_Proofs Calc_Proofs Calc2_Proofs Calc3_Proofs Blend_Proofs Blend2_Proofs Blend3_Proofs
  Adjust_Proofs Adjust2_Proofs Combine_Proofs Combine2_Proofs Scheme2_Proofs Twice_Proofs.
Import ListNotations.
Local Open Scope R_scope.

Lemma hues_apart n x (i j : nat) w : (2 <= n <= 360)%Z -> (Z.of_nat i < n)%Z -> (Z.of_nat j < n)%Z ->
  normalised (x + INR i * (360 / IZR n)) w -> normalised (x + INR j * (360 / IZR n)) w -> i = j.
Proof.
  intros Hn Hi Hj [k [m [E [Hm ->]]]] [k' [m' [E' [Hm' Q]]]].
  assert (D : -1 < m - m' < 1).
  { unfold Rmin in Q. destruct (Rle_dec m 359), (Rle_dec m' 359); lra. }
  assert (N : 2 <= IZR n <= 360) by (split; apply IZR_le; lia).
  rewrite !INR_IZR_INZ in E, E'.
  set (t := (Z.of_nat i - Z.of_nat j - n * (k - k'))%Z).
  assert (T : IZR t * 360 = (m - m') * IZR n).
  { unfold t. rewrite !minus_IZR, mult_IZR, minus_IZR.
    assert (A : (IZR (Z.of_nat i) - IZR (Z.of_nat j)) * (360 / IZR n) = 360 * (IZR k - IZR k') + (m - m')) by lra.
    assert (B : (IZR (Z.of_nat i) - IZR (Z.of_nat j)) * 360 = (IZR (Z.of_nat i) - IZR (Z.of_nat j)) * (360 / IZR n) * IZR n) by (field; lra).
    rewrite A in B. rewrite Rmult_minus_distr_r, B. ring. }
  assert (T0 : (-1 < t < 1)%Z) by (split; apply lt_IZR; nra).
  assert (t = 0%Z) by lia. unfold t in *. assert (k = k')%Z by nia. subst k'. lia.
Qed.

Lemma scheme_hues n (h : heap R) p c x y z : (2 <= n <= 360)%Z -> at_addr h p c -> wf_color HSL c -> comps c = [x; y; z] ->
  exists qs h', create_combination (Some p) n h = (Ok (map Some (p :: qs)), h') /\ Z.of_nat (length (p :: qs)) = n /\ unchanged h h' /\
    forall k s, nth_error (p :: qs) k = Some s -> exists r w, at_addr h' s r /\ hsl_of r w y z /\ normalised (x + INR k * (360 / IZR n)) w.
Proof.
  intros Hn H W E.
  destruct (combination_ok HSL n h p c Hn H W eq_refl ltac:(discriminate)) as [b1 [b2 [b3 [b4 [b5 [b6 [qs0 [h20 [_ [_ [_ [_ [_ [E20 [_ [U2 [_ _]]]]]]]]]]]]]]]]].
  destruct (combination_hues n h HSL p c Hn H W eq_refl ltac:(discriminate)) as [a [d [g [x0 [y0 [z0 [qs [h2 [Ea [Aa [Ed [Id [E2 [L K]]]]]]]]]]]]]].
  rewrite E2 in E20. injection E20 as _ <-.
  rewrite (Id eq_refl) in Ed. destruct Ed as [T Ed]. rewrite E in Ed. injection Ed as <- <- <-.
  exists qs, h2. split; [exact E2|]. split; [cbn [length]; lia|]. split; [exact U2|].
  intros [|k] s Hs; cbn [nth_error] in Hs.
  - injection Hs as <-. exists c, x. split; [apply (proj2 U2), H|]. split; [split; [apply (wf_ty _ _ W)|exact E]|].
    destruct (hsl_ranges c x y z W E) as [Hx _]. exists 0%Z, x. split; [cbn [INR]; lra|]. split; [lra|]. rewrite Rmin_left; lra.
  - destruct (K k s Hs) as [v [w [_ [Hv [Nv Iv]]]]]. exists v, w. auto.
Qed.

Lemma scheme_distinct n (h : heap R) p c x y z : (2 <= n <= 360)%Z -> at_addr h p c -> wf_color HSL c -> comps c = [x; y; z] ->
  exists qs h', create_combination (Some p) n h = (Ok (map Some (p :: qs)), h') /\ Z.of_nat (length (p :: qs)) = n /\
    forall i j s t cs ct, nth_error (p :: qs) i = Some s -> nth_error (p :: qs) j = Some t -> at_addr h' s cs -> at_addr h' t ct -> i <> j -> comps cs <> comps ct.
Proof.
  intros Hn H W E. destruct (scheme_hues n h p c x y z Hn H W E) as (qs & h' & E1 & L & _ & K).
  exists qs, h'. split; [exact E1|]. split; [exact L|]. intros i j s t cs ct Hs Ht As At D Q. apply D.
  destruct (K i s Hs) as (r1 & w1 & A1 & [_ C1] & N1). destruct (K j t Ht) as (r2 & w2 & A2 & [_ C2] & N2).
  assert (cs = r1) as -> by (unfold at_addr in *; congruence). assert (ct = r2) as -> by (unfold at_addr in *; congruence).
  rewrite C1, C2 in Q. injection Q as <-.
  assert (I : (i < length (p :: qs))%nat) by (apply nth_error_Some; congruence).
  assert (J : (j < length (p :: qs))%nat) by (apply nth_error_Some; congruence).
  apply (hues_apart n x i j w1 Hn); [lia|lia|assumption|assumption].
Qed.
