(** * The conversions back to RGB and those between the CIE types (exact arithmetic) *)
From Coq Require Import ZArith QArith Qreals Reals Lra Lia List Bool.
From Verif Require Import Arith Outcome ColorModel GammaModel MatrixModel SpaceModel Heap Converter RArith
  Spec Laws NormalForms Alpha8 Core_Proofs Core2_Proofs Spec_Matrix Spec_Conv Spec_Round Conv_Proofs Conv2_Proofs Run_Proofs HueR_Proofs
  Round_Proofs Round2_Proofs Round3_Proofs Spec_Formula Formula_Proofs.
Import ListNotations.
Local Open Scope R_scope.

Section Hue.
Variables (h : heap R) (p : nat) (c : color R) (x s v : R).
Hypothesis Hp : at_addr h p c.
Hypothesis Ec : comps c = [x; s; v].

Lemma from_hsv : wf_color HSV c -> yields to_rgb_deep h p (fun d => ty d = RGB_DEEP /\
  comps d = lifted (hexagon_rgb x (v * s)) (v - v * s) /\ m_alpha d = m_alpha c /\ rgb_space d = rgb_space c).
Proof.
  intros W. destruct (hue_range c HSV x s v W eq_refl Ec) as [Bx [Bs Bv]].
  set (t := x / 60). assert (Bt : 0 <= t < 6) by (unfold t; lra).
  destruct (unit_bounds t) as [U1 [U2 U3]].
  assert (K : forall u, 0 <= u <= 1 -> 0 <= v - v * s * (1 - u) <= 1).
  { intros u Hu. assert (A : 0 <= s * (1 - u) <= 1) by (apply mul01; lra).
    replace (v - v * s * (1 - u)) with (v * (1 - s * (1 - u))) by ring. apply mul01; lra. }
  eapply (yields_leaf to_rgb_deep HSV hsv_to_rgb_deep_f h p c); [disp|exact Hp|exact W| |].
  - unfold hsv_to_rgb_deep_f, with3. rewrite Ec. rewrite !fzR.
    destruct (hsv_of_unit x s v Bt) as [H1 [H2 H3]]. rewrite H1, H2, H3.
    rewrite rgb_deepcolor_nf. rewrite (alpha_std c _ W eq_refl). reflexivity.
  - cbn [ty comps m_alpha rgb_space]. fold t. rewrite !c01R by (apply K; assumption).
    rewrite hexagon_unit by lra. unfold lifted. fold t. split; [reflexivity|]. split; [|auto].
    f_equal; [ring|]. f_equal; [ring|]. f_equal. ring.
Qed.

Lemma from_hsl : wf_color HSL c -> forall C, C = (1 - Rabs (2 * v - 1)) * s -> yields to_rgb_deep h p (fun d => ty d = RGB_DEEP /\
  comps d = lifted (hexagon_rgb x C) (v - C / 2) /\ (v <> 0 -> m_alpha d = m_alpha c) /\ rgb_space d = rgb_space c).
Proof.
  intros W C EC. destruct (hue_range c HSL x s v W eq_refl Ec) as [Bx [Bs Bv]].
  set (t := x / 60). assert (Bt : 0 <= t < 6) by (unfold t; lra).
  destruct (unit_bounds t) as [U1 [U2 U3]].
  rewrite min_abs in EC. rewrite hexagon_unit by lra. fold t. unfold lifted.
  eapply (yields_leaf to_rgb_deep HSL hsl_to_rgb_deep_f h p c); [disp|exact Hp|exact W| |].
  - unfold hsl_to_rgb_deep_f, with3. rewrite Ec. rn.
    destruct (hsl_of_unit x s v Bt) as [H1 [H2 H3]]. rewrite H1, H2, H3. fold t.
    rewrite rgb_deepcolor_nf, rgb_deepcolor1_nf. rewrite (alpha_std c _ W eq_refl).
    match goal with |- (if ?t then Ok ?a else Ok ?b) = _ => instantiate (1 := if t then a else b); destruct t; reflexivity end.
  - destruct (Req_EM_T v 0) as [E|E]; [rewrite Reqb_eq by exact E|rewrite Reqb_ne by exact E];
      cbn [ty comps m_alpha rgb_space]; (split; [reflexivity|]); (split; [|split; [tauto|reflexivity]]).
    + assert (C = 0) by (rewrite EC, E; rewrite Rmin_left by lra; ring). subst C. rewrite H, E. rewrite c01R by lra.
      f_equal; [lra|]. f_equal; [lra|]. f_equal. lra.
    + set (m := Rmin v (1 - v)) in *.
      assert (Bm : 0 <= m /\ m <= v /\ m <= 1 - v).
      { unfold m. split; [apply Rmin_glb; lra|]. split; [apply Rmin_l|apply Rmin_r]. }
      assert (K : forall u, 0 <= u <= 1 -> 0 <= v - s * m * (1 - 2 * u) <= 1).
      { intros u Hu. assert (A1 : 0 <= s * m <= m).
        { split; [apply Rmult_le_pos; lra|]. replace m with (1 * m) at 2 by ring. apply Rmult_le_compat_r; lra. }
        assert (A2 : - (s * m) <= s * m * (1 - 2 * u) <= s * m).
        { split.
          - replace (- (s * m)) with (s * m * (-1)) by ring. apply Rmult_le_compat_l; lra.
          - replace (s * m) with (s * m * 1) at 2 by ring. apply Rmult_le_compat_l; lra. }
        lra. }
      rewrite !c01R by (apply K; assumption). rewrite EC. f_equal; [field|]. f_equal; [field|]. f_equal. field.
Qed.

Lemma from_hcy : wf_color HCY c -> yields to_rgb_deep h p (fun d => ty d = RGB_DEEP /\
  (forall r g b, hexagon_rgb x s = (r, g, b) ->
     comps d = map (cut 0 1) (lifted (r, g, b) (v - luma709 r g b))) /\ m_alpha d = m_alpha c /\ rgb_space d = rgb_space c).
Proof.
  intros W. destruct (hue_range c HCY x s v W eq_refl Ec) as [Bx [Bs Bv]].
  assert (WR : @luma_r R RArith = 0.2126 /\ @luma_g R RArith = 0.7152 /\ @luma_b R RArith = 0.0722).
  { unfold luma_r, luma_g, luma_b. cbn. unfold Q2R. cbn. lra. }
  destruct WR as [WR [WG WB]].
  eapply (yields_leaf to_rgb_deep HCY hcy_to_rgb_deep_f h p c); [disp|exact Hp|exact W| |].
  - unfold hcy_to_rgb_deep_f, with3. rewrite Ec. rewrite WR, WG, WB. unfold clamp_float. rn.
    replace (x / 360 * 6) with (x / 60) by field.
    set (t := x / 60) in *. fold (cl (Rabs (t - 3) - 1)) (cl (2 - Rabs (t - 2))) (cl (2 - Rabs (t - 4))). fold (ur t) (ug t) (ub t).
    rewrite rgb_deepcolor_nf. rewrite (alpha_std c _ W eq_refl). reflexivity.
  - cbn [ty comps m_alpha rgb_space]. split; [reflexivity|]. split; [|auto]. intros r g b E. rewrite hexagon_unit in E by lra.
    injection E as <- <- <-. unfold lifted, luma709. cbn [map]. rewrite !c01_cut.
    f_equal; [f_equal; ring|]. f_equal; [f_equal; ring|]. f_equal. f_equal. ring.
Qed.

Lemma sum_unit : 0 <= x < 360 -> sum3 (hexagon_rgb x 1) = 1 + zz (x / 60) /\ 0 < 1 + zz (x / 60).
Proof.
  intros B. rewrite hexagon_unit by lra. unfold sum3. destruct (sector_unit (x / 60) 1) as [_ E]; [lra|]. rewrite E.
  split; [ring|]. rewrite <- E. unfold zz. assert (Rabs (Rfmod (x / 60) 2 - 1) <= 1); [|lra].
  assert (0 <= Rfmod (x / 60) 2 <= 2).
  { assert (U : x / 60 < 2 \/ 2 <= x / 60 < 4 \/ 4 <= x / 60) by lra.
    destruct U as [U|[U|U]]; [rewrite Rfmod_0 by lra|rewrite Rfmod_1 by lra|rewrite Rfmod_2 by lra]; lra. }
  apply Rabs_le. lra.
Qed.

(** HSI: the offset [v * (1 - s)] is missing *)
Lemma from_hsi : wf_color HSI c -> s <> 0 -> yields to_rgb_deep h p (fun d => ty d = RGB_DEEP /\
  comps d = map (fun y => cut 0 1 (y - v * (1 - s))) (hsi_rgb x s v) /\ m_alpha d = m_alpha c /\ rgb_space d = rgb_space c).
Proof.
  intros W NZ. destruct (hue_range c HSI x s v W eq_refl Ec) as [Bx [Bs Bv]].
  destruct (sum_unit ltac:(lra)) as [ES PS].
  eapply (yields_leaf to_rgb_deep HSI hsi_to_rgb_deep_f h p c); [disp|exact Hp|exact W| |].
  - unfold hsi_to_rgb_deep_f, with3. rewrite Ec. rn. rewrite Reqb_ne by exact NZ. fold (zz (x / 60)).
    destruct (sector_unit (x / 60) (3 * v * s / (1 + zz (x / 60)))) as [SU _]; [lra|]. rewrite SU.
    rewrite rgb_deepcolor_nf. rewrite (alpha_std c _ W eq_refl). reflexivity.
  - cbn [ty comps m_alpha rgb_space]. split; [reflexivity|]. split; [|auto].
    unfold hsi_rgb, hsi_chroma. rewrite ES. rewrite hexagon_unit by lra. unfold lifted. cbn [map]. rewrite !c01_cut.
    f_equal; [f_equal; ring|]. f_equal; [f_equal; ring|]. f_equal. f_equal. ring.
Qed.

Lemma hsi_differs : 0 <= x < 360 -> 0 <= s < 1 -> 0 < v <= 1 ->
  map (fun y => cut 0 1 (y - v * (1 - s))) (hsi_rgb x s v) <> map (cut 0 1) (hsi_rgb x s v).
Proof.
  intros Bx Bs Bv. unfold hsi_rgb. set (C := hsi_chroma x s v). rewrite hexagon_unit by lra. unfold lifted. cbn [map].
  assert (Q : 0 < v * (1 - s) <= 1).
  { split; [apply Rmult_lt_0_compat; lra|]. replace 1 with (1 * 1) by ring. apply Rmult_le_compat; lra. }
  set (m := v * (1 - s)) in *. intros E. injection E as E1 E2 E3.
  assert (K : forall u, u = 0 -> cut 0 1 (C * u + m - m) = cut 0 1 (C * u + m) -> False).
  { intros u -> K. rewrite Rmult_0_r in K. rewrite !cut_id in K by lra. lra. }
  destruct (unit_zero (x / 60)) as [U|[U|U]]; [lra| | |]; eapply K; eassumption.
Qed.
Lemma from_hsi_refuted : wf_color HSI c -> s <> 0 -> yields to_rgb_deep h p (fun d => ty d = RGB_DEEP /\
  comps d = map (fun y => cut 0 1 (y - v * (1 - s))) (hsi_rgb x s v) /\
  (s < 1 -> 0 < v -> comps d <> map (cut 0 1) (hsi_rgb x s v)) /\ m_alpha d = m_alpha c /\ rgb_space d = rgb_space c).
Proof.
  intros W NZ. destruct (hue_range c HSI x s v W eq_refl Ec) as [Bx [Bs Bv]].
  destruct (from_hsi W NZ) as [q [m [h1 [E1 [E2 [E3 [E4 E5]]]]]]]. exists q, m, h1. split; [exact E1|]. split; [exact E2|].
  split; [exact E3|]. split; [exact E4|]. split; [|exact E5]. intros L P. rewrite E4. apply hsi_differs; lra.
Qed.

Lemma from_hsi_ok : wf_color HSI c -> s = 0 \/ s = 1 \/ v = 0 -> yields to_rgb_deep h p (fun d => ty d = RGB_DEEP /\
  comps d = map (cut 0 1) (hsi_rgb x s v) /\ m_alpha d = m_alpha c /\ rgb_space d = rgb_space c).
Proof.
  intros W K. destruct (hue_range c HSI x s v W eq_refl Ec) as [Bx [Bs Bv]].
  destruct (Req_EM_T s 0) as [Z|Z].
  - eapply (yields_leaf to_rgb_deep HSI hsi_to_rgb_deep_f h p c); [disp|exact Hp|exact W| |].
    + unfold hsi_to_rgb_deep_f, with3. rewrite Ec. rn. rewrite Reqb_eq by exact Z. rewrite rgb_deepcolor1_nf.
      rewrite (alpha_std c _ W eq_refl). reflexivity.
    + cbn [ty comps m_alpha rgb_space]. split; [reflexivity|]. split; [|auto].
      unfold hsi_rgb, hsi_chroma. rewrite hexagon_unit by lra. rewrite Z. unfold Rdiv. rewrite !Rmult_0_r, !Rmult_0_l. unfold lifted. cbn [map]. rewrite !c01_cut.
      f_equal; [f_equal; ring|]. f_equal; [f_equal; ring|]. f_equal. f_equal. ring.
  - destruct (from_hsi W Z) as [q [m [h1 [E1 [E2 [E3 [E4 E5]]]]]]]. exists q, m, h1. split; [exact E1|]. split; [exact E2|].
    split; [exact E3|]. split; [|exact E5]. rewrite E4. apply map_ext. intros y. f_equal.
    destruct K as [K|[K|K]]; [contradiction| |]; rewrite K; ring.
Qed.
End Hue.

Lemma from_cmyk (h : heap R) p c cy m y k : at_addr h p c -> wf_color CMYK c -> comps c = [cy; m; y; k] ->
  yields to_rgb_deep h p (fun d => ty d = RGB_DEEP /\
    comps d = [(1 - cy) * (1 - k); (1 - m) * (1 - k); (1 - y) * (1 - k)] /\ m_alpha d = m_alpha c /\ rgb_space d = rgb_space c).
Proof.
  intros Hp W Ec.
  assert (B : forall i z, nth_error (comps c) i = Some z -> 0 <= z <= 1).
  { intros i z Hi. pose proof (wf_range _ _ W i z Hi) as H. rewrite withinR in H. exact H. }
  rewrite Ec in B. pose proof (B 0%nat cy eq_refl). pose proof (B 1%nat m eq_refl). pose proof (B 2%nat y eq_refl). pose proof (B 3%nat k eq_refl).
  eapply (yields_leaf to_rgb_deep CMYK cmyk_to_rgb_deep_f h p c); [disp|exact Hp|exact W| |].
  - unfold cmyk_to_rgb_deep_f, with4. rewrite Ec. rn. rewrite rgb_deepcolor_nf. rewrite (alpha_std c _ W eq_refl). reflexivity.
  - cbn [ty comps m_alpha rgb_space]. rewrite !c01R by (apply mul01; lra). auto.
Qed.

(** ** 8-bit and deep *)
Lemma from_true (h : heap R) p c r g b : at_addr h p c -> wf_color RGB_TRUE c -> comps c = [r; g; b] ->
  yields to_rgb_deep h p (fun d => ty d = RGB_DEEP /\ comps d = [r / 255; g / 255; b / 255] /\ m_alpha d = m_alpha c /\ rgb_space d = rgb_space c).
Proof.
  intros Hp W Ec. pose proof (range3 c _ r g b W Ec) as [Br [Bg Bb]]. cbn [comp_range fst snd] in Br, Bg, Bb.
  eapply (yields_leaf to_rgb_deep RGB_TRUE rgb_true_to_rgb_deep_f h p c); [disp|exact Hp|exact W| |].
  - unfold rgb_true_to_rgb_deep_f, with3. rewrite Ec. rn. rewrite rgb_deepcolor_nf. reflexivity.
  - cbn [ty comps m_alpha rgb_space]. rewrite !c01R by lra. split; [reflexivity|]. split; [reflexivity|]. split; [|reflexivity].
    unfold alpha. rewrite (wf_cls _ _ W). unfold base_alpha. rn. field.
Qed.

Lemma roundf_near x : 0 <= x -> exists n, Rroundf x = IZR n /\ x - 1 / 2 < IZR n <= x + 1 / 2 /\ (0 <= n)%Z.
Proof.
  intros P. unfold Rroundf. destruct (Rle_dec 0 x) as [_|K]; [|contradiction].
  exists (Int_part (x + / 2)). split; [reflexivity|].
  destruct (base_Int_part (x + / 2)) as [A B]. split; [lra|].
  assert (-1 < IZR (Int_part (x + / 2))) by lra. apply lt_IZR in H. lia.
Qed.

Lemma byte_near x : 0 <= x <= 1 -> nearest_byte x (@c255 R RArith (Rroundf (x * 255))).
Proof.
  intros B. destruct (roundf_near (x * 255)) as [n [E [N P]]]; [lra|].
  assert (Q : (n <= 255)%Z). { assert (IZR n < 256) by lra. apply lt_IZR in H. lia. }
  exists n. rewrite E. apply IZR_le in P as P'. apply IZR_le in Q as Q'. rewrite c255R by lra. split; [reflexivity|]. split; [lia|lra].
Qed.

Lemma from_deep (h : heap R) p c r g b : at_addr h p c -> wf_color RGB_DEEP c -> comps c = [r; g; b] -> 0 <= m_alpha c <= 1 ->
  yields to_rgb_true h p (fun d => ty d = RGB_TRUE /\
    (exists r' g' b', comps d = [r'; g'; b'] /\ nearest_byte r r' /\ nearest_byte g g' /\ nearest_byte b b') /\
    nearest_byte (m_alpha c) (alpha d) /\ rgb_space d = rgb_space c).
Proof.
  intros Hp W Ec Ba. destruct (deep_range c r g b W Ec) as [Br [Bg Bb]].
  eapply (yields_leaf to_rgb_true RGB_DEEP rgb_deep_to_rgb_true_f h p c); [disp|exact Hp|exact W| |].
  - unfold rgb_deep_to_rgb_true_f, with3. rewrite Ec. rn. rewrite rgb_truecolor_nf. rewrite (alpha_std c _ W eq_refl). reflexivity.
  - cbn [ty comps rgb_space]. split; [reflexivity|]. split; [|split; [|reflexivity]].
    + do 3 eexists. split; [reflexivity|]. split; [apply byte_near, Br|]. split; apply byte_near; assumption.
    + unfold alpha, base_alpha. cbn [cls m_alpha]. rn.
      destruct (byte_near (m_alpha c) Ba) as [n [E [N Q]]].
      destruct (roundf_near (m_alpha c * 255)) as [k [Ek [Nk Pk]]]; [lra|].
      assert (Qk : (k <= 255)%Z). { assert (IZR k < 256) by lra. apply lt_IZR in H. lia. }
      apply IZR_le in Pk as P'. apply IZR_le in Qk as Q'.
      rewrite Ek. rewrite c01R by lra. exists k. split; [field|]. split; [lia|]. replace (IZR k / 255 * 255) with (IZR k) by field. lra.
Qed.

Lemma grey_true_published (h : heap R) p c r g b : at_addr h p c -> wf_color RGB_TRUE c -> comps c = [r; g; b] -> 0 <= m_alpha c <= 1 ->
  yields to_grey_true h p (fun m => ty m = GREY_TRUE /\ comps m = [(r + g + b) / 3] /\ m_alpha m = m_alpha c /\ rgb_space m = rgb_space c).
Proof.
  intros Hp W Ec Ba. pose proof (range3 c _ r g b W Ec) as [Br [Bg Bb]]. cbn [comp_range fst snd] in Br, Bg, Bb.
  eapply (yields_leaf to_grey_true RGB_TRUE rgb_true_to_grey_true_f h p c); [disp|exact Hp|exact W| |].
  - unfold rgb_true_to_grey_true_f, with3. rewrite Ec. rn. rewrite grey_truecolor_nf. reflexivity.
  - cbn [ty comps m_alpha rgb_space]. rewrite c255R by lra. split; [reflexivity|]. split; [reflexivity|]. split; [|reflexivity].
    unfold alpha. rewrite (wf_cls _ _ W). unfold base_alpha. rn. replace (m_alpha c * 255 / 255) with (m_alpha c) by field. apply c01R, Ba.
Qed.
