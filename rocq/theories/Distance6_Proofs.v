(** * color_distance: what Delta E 2000 computes *)
From Coq Require Import ZArith QArith Reals Lra Lia List Bool.
From Verif Require Import Arith Outcome ColorModel GammaModel MatrixModel SpaceModel Heap Converter Distance
  Spec RArith Laws Core_Proofs NormalForms Spec_Conv Spec_Calc Spec_Distance Spec_Distance2
  Conv_Proofs HueR_Proofs Calc_Proofs Calc3_Proofs Gamma2_Proofs Distance_Proofs Distance2_Proofs Distance3_Proofs Distance4_Proofs.
Import ListNotations.
Local Open Scope R_scope.

Lemma published_choices kL kC kH v w :
  ciede2000_with hue_angle true far_mean true (-1) kL (45 / 1000) (15 / 1000) kC kH v w = ciede2000 kL kC kH v w.
Proof.
  unfold ciede2000_with, ciede2000. destruct v as [|l1 [|a1 [|b1 [|]]]]; try reflexivity.
  destruct w as [|l2 [|a2 [|b2 [|]]]]; try reflexivity. cbv zeta.
  match goal with |- context [- 2 * chroma_factor ?c * sin (radians (60 * exp (-1 * ?x)))] => replace (-1 * x) with (- x) by ring end.
  reflexivity.
Qed.

Lemma whole_hue_int b a k : hue_int (AF := RArith) b a = Ok k -> IZR k = whole_hue b a.
Proof.
  unfold hue_int, whole_hue. cbn [fatan2 RArith ftoZ]. pose proof (Rtrunc_bounds _ (to_deg_bounds b a)) as B.
  change (Ratan2 b a * (180 / PI)) with (fmul (Ratan2 b a) (fdiv 180 fpi)). replace (fmul (Ratan2 b a) (fdiv 180 fpi)) with (to_deg (AF := RArith) (Ratan2 b a)) by (unfold to_deg; rewrite fzR; reflexivity).
  set (t := Rtrunc (to_deg (Ratan2 b a))) in *. clearbody t.
  replace ((-2147483648 <=? t)%Z && (t <=? 2147483647)%Z) with true by (symmetry; apply andb_true_iff; split; apply Z.leb_le; lia).
  assert (R : Z.rem t 360 = t).
  { destruct (Z_lt_le_dec t 0); [|apply Z.rem_small; lia]. replace t with (- (- t))%Z by lia. rewrite Z.rem_opp_l by lia. rewrite Z.rem_small by lia. reflexivity. }
  rewrite R. intros Q. injection Q as <-. reflexivity.
Qed.

Lemma pow7 x : 0 <= x -> Rpow_c x 7 = x ^ 7.
Proof.
  intros [P|<-]; [rewrite Rpow_c_pos by lra; rewrite <- (Rpower_pow 7) by exact P; f_equal; cbn; ring|].
  rewrite Rpow_c_zero by lra. ring.
Qed.
Lemma chroma_factor_code x : 0 <= x -> sqrt (Rpow_c x 7 / (Rpow_c x 7 + Rpow_c 25 7)) = chroma_factor x.
Proof. intros P. unfold chroma_factor. rewrite !pow7 by lra. reflexivity. Qed.
Lemma to_rad_radians x : to_rad (AF := RArith) x = radians x.
Proof. unfold to_rad, radians. rewrite fzR. reflexivity. Qed.
Lemma pow2R' x : Rpow_c x 2 = x * x.
Proof. unfold Rpow_c. destruct (Req_EM_T 2 2); [reflexivity|lra]. Qed.

Lemma cie00_formula kL k1 k2 kC kH (c1 c2 : color R) : wf_color LAB c1 -> wf_color LAB c2 ->
  cie00_f kL k1 k2 kC kH c1 c2 =
  Ok (ciede2000_with whole_hue false (fun h1 h2 => (h1 + h2 + 360) / 2) false 1 kL k1 k2 kC kH (comps c1) (comps c2)).
Proof.
  intros W1 W2. destruct (comps3 _ c1 W1 eq_refl) as [l1 [a1 [b1 E1]]]. destruct (comps3 _ c2 W2 eq_refl) as [l2 [a2 [b2 E2]]].
  unfold cie00_f, with3. rewrite E1, E2. unfold ciede2000_with. cbv zeta. rewrite !fzR. cbn [fadd fsub fmul fdiv fneg fsqrt fpow fsin fcos fexp fofZ RArith].
  rewrite !pow2R'. set (ch1 := sqrt (a1 * a1 + b1 * b1)). set (ch2 := sqrt (a2 * a2 + b2 * b2)).
  assert (P1 : 0 <= ch1) by apply sqrt_pos. assert (P2 : 0 <= ch2) by apply sqrt_pos.
  rewrite !chroma_factor_code by lra. set (f := chroma_factor ((ch1 + ch2) / 2)).
  replace (a1 + a1 / 2 * (1 - f)) with ((1 + (1 - f) / 2) * a1) by field. replace (a2 + a2 / 2 * (1 - f)) with ((1 + (1 - f) / 2) * a2) by field.
  destruct (hue_int_ok b1 ((1 + (1 - f) / 2) * a1)) as [h1 [Eh1 _]]. destruct (hue_int_ok b2 ((1 + (1 - f) / 2) * a2)) as [h2 [Eh2 _]].
  rewrite Eh1, Eh2. cbn [obind]. rewrite <- (whole_hue_int _ _ _ Eh1), <- (whole_hue_int _ _ _ Eh2).
  rewrite !to_rad_radians, !pow2R'.
  assert (Far : (if (180 <? Z.abs (h1 - h2))%Z then (IZR (h1 + h2) + 360) / 2 else IZR (h1 + h2) / 2) =
                (if Rle_dec (Rabs (IZR h1 - IZR h2)) 180 then (IZR h1 + IZR h2) / 2 else (IZR h1 + IZR h2 + 360) / 2)).
  { rewrite plus_IZR, <- minus_IZR, <- abs_IZR. destruct (Z.ltb_spec 180 (Z.abs (h1 - h2))) as [Q|Q].
    - apply IZR_lt in Q. destruct (Rle_dec (IZR (Z.abs (h1 - h2))) 180); [lra|reflexivity].
    - apply IZR_le in Q. destruct (Rle_dec (IZR (Z.abs (h1 - h2))) 180); [reflexivity|lra]. }
  rewrite Far. set (hm := if Rle_dec (Rabs (IZR h1 - IZR h2)) 180 then (IZR h1 + IZR h2) / 2 else (IZR h1 + IZR h2 + 360) / 2).
  assert (Dh : forall x, x = (if Rle_dec (Rabs (IZR h2 - IZR h1)) 180 then IZR h2 - IZR h1
     else if Rlt_dec 180 (IZR h2 - IZR h1) then IZR h2 - IZR h1 - 360 else IZR h2 - IZR h1 + 360) ->
     IZR (if (Z.abs (h2 - h1) <=? 180)%Z then (h2 - h1)%Z else if (h2 <=? h1)%Z then (h2 - h1 + 360)%Z else (h2 - h1 - 360)%Z) = x).
  { intros x ->. rewrite <- minus_IZR, <- abs_IZR. destruct (Z.leb_spec (Z.abs (h2 - h1)) 180) as [Q|Q].
    - apply IZR_le in Q. destruct (Rle_dec (IZR (Z.abs (h2 - h1))) 180); [reflexivity|lra].
    - destruct (Rle_dec (IZR (Z.abs (h2 - h1))) 180) as [Y|Y]; [apply le_IZR in Y; lia|].
      destruct (Z.leb_spec h2 h1); destruct (Rlt_dec 180 (IZR (h2 - h1))) as [Y'|Y'];
        [apply lt_IZR in Y'; lia|rewrite plus_IZR; reflexivity|rewrite minus_IZR; reflexivity|apply Rnot_lt_le, le_IZR in Y'; lia]. }
  rewrite (Dh _ eq_refl). clear Dh Far. f_equal.
  assert (DH : forall x, 2 * sqrt (ch1 * ch2) * sin (radians (x / 2)) = 2 * sqrt (ch1 * ch2) * sin (radians ((if Req_EM_T (ch1 * ch2) 0 then 0 else x) / 2))).
  { intros x. destruct (Req_EM_T (ch1 * ch2) 0) as [Z|]; [rewrite Z, sqrt_0; ring|reflexivity]. }
  rewrite <- DH. match goal with |- context [2 * sqrt (ch1 * ch2) * sin (radians (?d / 2))] => set (dH := 2 * sqrt (ch1 * ch2) * sin (radians (d / 2))) end.
  replace (- (hm - 275) / 25 * (- (hm - 275) / 25)) with (1 * ((hm - 275) / 25 * ((hm - 275) / 25))) by field.
  cbn [lit RArith]. unfold Q2R. cbn [Qnum Qden].
  replace (17 * / 100) with (17 / 100) by reflexivity. replace (2 * / 10) with (20 / 100) by field.
  repeat f_equal; lra.
Qed.

Lemma cie00_deviates kL k1 k2 kC kH (h : heap R) p1 c1 p2 c2 : p1 <> p2 -> at_addr h p1 c1 -> at_addr h p2 c2 -> wf_color LAB c1 -> wf_color LAB c2 ->
  has_space h c1 -> has_space h c2 -> 0 < kL -> 0 <= k1 -> 0 <= k2 -> 0 < kC -> 0 < kH ->
  distance (Cie00 kL k1 k2 kC kH) (Some p1) (Some p2) h =
  (Ok (ciede2000_with whole_hue false (fun h1 h2 => (h1 + h2 + 360) / 2) false 1 kL k1 k2 kC kH (comps c1) (comps c2)), h).
Proof.
  intros NP H1 H2 W1 W2 N1 N2 _ _ _ _ _. rewrite (direct_run _ h p1 c1 p2 c2) by auto. cbn [on_components]. rewrite cie00_formula by assumption. reflexivity.
Qed.
