(** * color_distance: Delta E 2000 and CMC, statements for binary32 *)
From Coq Require Import ZArith QArith Reals Lra Lia List Bool.
From Flocq Require Import Core IEEE754.BinarySingleNaN.
From Verif Require Import Arith Outcome ColorModel GammaModel MatrixModel SpaceModel Heap Converter Calculation Blend Distance
  Spec F32 RArith F32Facts Hue32 Spec32 Laws NormalForms History Core_Proofs Core2_Proofs Core3_Proofs Core4_Proofs Convert_Proofs Alpha8
  Spec_Matrix Spec_Conv Spec_Calc Spec_Blend Spec_Distance
  Conv_Proofs Conv2_Proofs Conv3_Proofs Total_Proofs HueR_Proofs Round_Proofs Calc_Proofs Calc2_Proofs Calc3_Proofs Blend_Proofs Blend2_Proofs Blend3_Proofs
  Gamma2_Proofs Run_Proofs Distance_Proofs Distance2_Proofs.

Import ListNotations.
Local Open Scope R_scope.

(** ** Hue angles *)
Lemma Ratan2_bounds y x : - PI <= Ratan2 y x <= PI.
Proof.
  pose proof PI_RGT_0 as HP. unfold Ratan2. pose proof (atan_bound (y / x)) as B. unfold Rdiv in *.
  destruct (Rlt_dec 0 x); [lra|]. destruct (Rlt_dec x 0) as [Hx|].
  - assert (Ix : / x < 0) by (apply Rinv_lt_0_compat; exact Hx). destruct (Rle_dec 0 y) as [Hy|Hy].
    + assert (Q : y * / x <= 0) by nra. assert (A : atan (y * / x) <= 0).
      { destruct Q as [Q|Q]; [left; rewrite <- atan_0; apply atan_increasing; exact Q|rewrite Q, atan_0; lra]. } lra.
    + assert (Q : 0 < y * / x) by nra. assert (A : 0 < atan (y * / x)) by (rewrite <- atan_0; apply atan_increasing; exact Q). lra.
  - destruct (Rlt_dec 0 y); [lra|]. destruct (Rlt_dec y 0); lra.
Qed.
Lemma to_deg_bounds y x : -180 <= to_deg (Ratan2 y x) <= 180.
Proof.
  pose proof (Ratan2_bounds y x) as B. pose proof PI_RGT_0 as HP. unfold to_deg. rewrite fzR. cbn [fpi fmul fdiv RArith].
  assert (E1 : 180 = PI * (180 / PI)) by (field; lra). assert (E2 : -180 = - PI * (180 / PI)) by (field; lra).
  assert (K : 0 < 180 / PI) by (apply Rdiv_lt_0_compat; lra).
  split; [rewrite E2|rewrite E1 at 2]; apply Rmult_le_compat_r; lra.
Qed.
Lemma Int_part_bounds x a b : IZR a <= x <= IZR b -> (a <= Int_part x <= b)%Z.
Proof.
  intros H. destruct (base_Int_part x) as [B1 B2]. split; [|apply le_IZR; lra].
  assert (Q : (a - 1 < Int_part x)%Z) by (apply lt_IZR; rewrite minus_IZR; lra). lia.
Qed.
Lemma Rtrunc_bounds x : -180 <= x <= 180 -> (-180 <= Rtrunc x <= 180)%Z.
Proof.
  intros H. unfold Rtrunc. destruct (Rle_dec 0 x).
  - assert (0 <= Int_part x <= 180)%Z by (apply Int_part_bounds; lra). lia.
  - assert (0 <= Int_part (- x) <= 180)%Z by (apply Int_part_bounds; lra). lia.
Qed.
Lemma hue_int_ok b a : exists k, hue_int (AF := RArith) b a = Ok k /\ (0 <= k < 360)%Z.
Proof.
  unfold hue_int. cbn [fatan2 RArith ftoZ]. pose proof (Rtrunc_bounds _ (to_deg_bounds b a)) as B.
  set (t := Rtrunc (to_deg (Ratan2 b a))) in *. clearbody t.
  replace ((-2147483648 <=? t)%Z && (t <=? 2147483647)%Z) with true by (symmetry; apply andb_true_iff; split; apply Z.leb_le; lia).
  assert (R : Z.rem t 360 = t).
  { destruct (Z_lt_le_dec t 0); [|apply Z.rem_small; lia]. replace t with (- (- t))%Z by lia. rewrite Z.rem_opp_l by lia. rewrite Z.rem_small by lia. reflexivity. }
  rewrite R. destruct (t <? 0)%Z eqn:E; [apply Z.ltb_lt in E|apply Z.ltb_ge in E]; eexists; (split; [reflexivity|lia]).
Qed.

(** ** Delta E 2000 *)
Lemma to_rad_opp x : to_rad (AF := RArith) (- x) = - to_rad (AF := RArith) x.
Proof. unfold to_rad. cbn [fmul fdiv RArith]. ring. Qed.

(** The difference of two hues changes its sign when the hues are exchanged. *)
Definition hue_difference (h1 h2 : Z) : Z :=
  if (Z.abs (h2 - h1) <=? 180)%Z then (h2 - h1)%Z else if (h2 <=? h1)%Z then (h2 - h1 + 360)%Z else (h2 - h1 - 360)%Z.
Lemma hue_difference_opp h1 h2 : hue_difference h2 h1 = (- hue_difference h1 h2)%Z.
Proof.
  unfold hue_difference. replace (Z.abs (h1 - h2)) with (Z.abs (h2 - h1)) by lia.
  destruct (Z.leb_spec (Z.abs (h2 - h1)) 180); [lia|]. destruct (Z.leb_spec h1 h2), (Z.leb_spec h2 h1); lia.
Qed.

Lemma cie00_sym kL k1 k2 kC kH (c1 c2 : color R) : wf_color LAB c1 -> wf_color LAB c2 ->
  exists x, cie00_f kL k1 k2 kC kH c1 c2 = Ok x /\ cie00_f kL k1 k2 kC kH c2 c1 = Ok x /\ (comps c1 = comps c2 -> x = 0).
Proof.
  intros W1 W2. destruct (comps3 _ c1 W1 eq_refl) as [l1 [a1 [b1 E1]]]. destruct (comps3 _ c2 W2 eq_refl) as [l2 [a2 [b2 E2]]].
  unfold cie00_f, with3. rewrite E1, E2. rewrite !pow2R.
  set (ch1 := fsqrt (fadd (a1 * a1) (b1 * b1))). set (ch2 := fsqrt (fadd (a2 * a2) (b2 * b2))).
  replace (fadd ch2 ch1) with (fadd ch1 ch2) by apply Rplus_comm.
  replace (fadd l2 l1) with (fadd l1 l2) by apply Rplus_comm.
  set (avg := fdiv (fadd ch1 ch2) (fz 2)). set (sq := fsqrt (fdiv (fpow avg (fz 7)) (fadd (fpow avg (fz 7)) (fpow (fz 25) (fz 7))))).
  cbv zeta.
  destruct (hue_int_ok b1 (fadd a1 (fmul (fdiv a1 (fz 2)) (fsub (fz 1) sq)))) as [h1 [Eh1 B1]].
  destruct (hue_int_ok b2 (fadd a2 (fmul (fdiv a2 (fz 2)) (fsub (fz 1) sq)))) as [h2 [Eh2 B2]].
  rewrite Eh1, Eh2. cbn [obind].
  replace (Z.abs (h2 - h1)) with (Z.abs (h1 - h2)) by lia. replace (h2 + h1)%Z with (h1 + h2)%Z by lia.
  set (H := if (180 <? Z.abs (h1 - h2))%Z then fdiv (fadd (fofZ (h1 + h2)) (fz 360)) (fz 2) else fdiv (fofZ (h1 + h2)) (fz 2)).
  replace (if (Z.abs (h1 - h2) <=? 180)%Z then (h2 - h1)%Z else if (h2 <=? h1)%Z then (h2 - h1 + 360)%Z else (h2 - h1 - 360)%Z) with (hue_difference h1 h2)
    by (unfold hue_difference; replace (Z.abs (h2 - h1)) with (Z.abs (h1 - h2)) by lia; reflexivity).
  replace (if (Z.abs (h1 - h2) <=? 180)%Z then (h1 - h2)%Z else if (h1 <=? h2)%Z then (h1 - h2 + 360)%Z else (h1 - h2 - 360)%Z) with (- hue_difference h1 h2)%Z
    by (rewrite <- hue_difference_opp; reflexivity).
  rewrite !pow2R.
  match goal with |- context [fmul ?r (fdiv (fsub ch2 ch1) ?s)] => set (rt := r); set (sC := s) end.
  match goal with |- context [fdiv (fsub l2 l1) ?s] => set (sL := s) end.
  match goal with |- context [fdiv (fmul (fmul (fz 2) (fsqrt (fmul ch1 ch2))) ?z) ?s] => set (sH := s) end.
  cbn [fmul fdiv fsub fadd fsqrt fsin fofZ RArith]. rewrite !fzR. clearbody rt sC sL sH.
  replace (ch2 * ch1) with (ch1 * ch2) by ring. rewrite opp_IZR.
  replace (- IZR (hue_difference h1 h2) / 2) with (- (IZR (hue_difference h1 h2) / 2)) by field. rewrite to_rad_opp, sin_neg.
  eexists. split; [reflexivity|]. split; [f_equal; f_equal; unfold Rdiv; ring|].
  intros Q. injection Q as -> -> ->. fold ch1 in ch2. assert (h1 = h2) by congruence. subst h2.
  rewrite <- sqrt_0. f_equal. replace (hue_difference h1 h1) with 0%Z by (unfold hue_difference; rewrite Z.sub_diag; reflexivity).
  replace (0 / 2) with 0 by field. replace (to_rad (AF := RArith) 0) with 0 by (unfold to_rad; cbn [fmul RArith]; ring). rewrite sin_0. unfold ch2, Rdiv. ring.
Qed.

(** *** On the axis of the green-red component *)
Lemma powR (n : Z) x : n <> 2%Z -> n <> 3%Z -> 0 < x -> @fpow R RArith x (@fz R RArith n) = Rpower x (IZR n).
Proof. intros N2 N3 Hx. rewrite fzR. cbn [fpow RArith]. apply Rpow_c_pos; [exact Hx| |]; intros E; [apply N2|apply N3]; apply eq_IZR; exact E. Qed.
Lemma sqrt_axis a : 0 < a -> sqrt (a * a + 0 * 0) = a.
Proof. intros Ha. replace (a * a + 0 * 0) with (a * a) by ring. apply sqrt_square. lra. Qed.
Lemma Ratan2_axis a : 0 < a -> Ratan2 0 a = 0.
Proof. intros Ha. unfold Ratan2. destruct (Rlt_dec 0 a); [|lra]. unfold Rdiv. rewrite Rmult_0_l. apply atan_0. Qed.
Lemma fraction_unit p q : 0 < p -> 0 < q -> 0 <= sqrt (p / (p + q)) < 1.
Proof.
  intros Hp Hq. split; [apply sqrt_pos|]. rewrite <- sqrt_1. assert (0 < p / (p + q)) by (apply Rdiv_lt_0_compat; lra).
  apply sqrt_lt_1; [lra|lra|]. apply Rmult_lt_reg_r with (p + q); [lra|]. unfold Rdiv. rewrite Rmult_assoc, Rinv_l by lra. lra.
Qed.
Lemma hue_int_axis a : 0 < a -> hue_int (AF := RArith) 0 a = Ok 0%Z.
Proof.
  intros Ha. unfold hue_int. cbn [fatan2 RArith]. rewrite Ratan2_axis by exact Ha.
  replace (to_deg (AF := RArith) 0) with 0 by (unfold to_deg; cbn [fmul RArith]; ring).
  cbn [ftoZ RArith]. unfold Rtrunc. destruct (Rle_dec 0 0); [|lra]. replace (Int_part 0) with 0%Z by (symmetry; apply (Int_part_INR 0)).
  reflexivity.
Qed.
Lemma cie00_axis kL k1 k2 kC kH l a1 a2 (c1 c2 : color R) : comps c1 = [l; a1; 0] -> comps c2 = [l; a2; 0] -> 0 < a1 -> 0 < a2 -> 0 < kC -> 0 <= k1 ->
  cie00_f kL k1 k2 kC kH c1 c2 = Ok (Rabs (a2 - a1) / (kC * (1 + k1 * ((a1 + a2) / 2)))).
Proof.
  intros E1 E2 P1 P2 PC PK. unfold cie00_f, with3. rewrite E1, E2. rewrite !pow2R. cbn [fadd fsqrt RArith].
  rewrite (sqrt_axis a1 P1), (sqrt_axis a2 P2). rewrite !fzR. cbn [fdiv RArith].
  set (m := (a1 + a2) / 2). assert (Pm : 0 < m) by (unfold m; lra).
  assert (Q1 : 0 < Rpow_c m 7) by (apply Rpow_c_gt0; [repeat split; lra|exact Pm]).
  assert (Q2 : 0 < Rpow_c 25 7) by (apply Rpow_c_gt0; [repeat split; lra|lra]).
  pose proof (fraction_unit _ _ Q1 Q2) as Fr. cbn [fpow RArith]. set (fr := sqrt (Rpow_c m 7 / (Rpow_c m 7 + Rpow_c 25 7))) in *.
  cbv zeta. rewrite !hue_int_axis by (cbn [fadd fmul fdiv fsub RArith]; nra). cbn [obind Z.sub Z.opp Z.add Z.abs Z.ltb Z.leb Z.compare].
  cbn [fadd fsub fmul fdiv fsqrt fsin fofZ fpow RArith].
  assert (P2R : forall x, Rpow_c x 2 = x * x) by (intros x; unfold Rpow_c; destruct (Req_EM_T 2 2); [reflexivity|lra]). rewrite !P2R.
  match goal with |- context [fexp ?x] => set (ex := fexp x) end.
  assert (Z0 : to_rad (AF := RArith) (0 / 2) = 0) by (unfold to_rad; cbn [fmul RArith]; lra). rewrite Z0, sin_0.
  f_equal. assert (PD : 0 < kC * (1 + k1 * m)) by (apply Rmult_lt_0_compat; [exact PC|assert (0 <= k1 * m) by (apply Rmult_le_pos; lra); lra]). set (D := kC * (1 + k1 * m)) in *.
  replace (Rabs (a2 - a1) / D) with (Rabs ((a2 - a1) / D)) by (unfold Rdiv; rewrite Rabs_mult, (Rabs_right (/ D)); [reflexivity|apply Rle_ge; left; apply Rinv_0_lt_compat; exact PD]).
  rewrite <- sqrt_Rsqr_abs. f_equal. unfold Rsqr, Rdiv. ring.
Qed.

Lemma hue_angle_axis a : 0 < a -> hue_angle 0 a = 0.
Proof. intros Ha. unfold hue_angle. rewrite Ratan2_axis, Rmult_0_l by exact Ha. cbv zeta. destruct (Rlt_dec 0 0); lra. Qed.
Lemma ciede2000_axis l a1 a2 : 0 < a1 -> a1 < a2 ->
  exists g, 0 < g /\ ciede2000 1 1 1 [l; a1; 0] [l; a2; 0] = (1 + g) * (a2 - a1) / (1 + 45 / 1000 * ((1 + g) * ((a1 + a2) / 2))).
Proof.
  intros P1 L. assert (P2 : 0 < a2) by lra. unfold ciede2000. rewrite (sqrt_axis a1 P1), (sqrt_axis a2 P2).
  set (m := (a1 + a2) / 2). assert (Pm : 0 < m) by (unfold m; lra).
  assert (Fr : 0 <= chroma_factor m < 1) by (apply fraction_unit; apply pow_lt; lra). set (g := (1 - chroma_factor m) / 2).
  assert (Pg : 0 < g) by (unfold g; lra). exists g. split; [exact Pg|]. cbv zeta.
  assert (Q1 : 0 < (1 + g) * a1) by nra. assert (Q2 : 0 < (1 + g) * a2) by nra.
  rewrite (sqrt_axis _ Q1), (sqrt_axis _ Q2), (hue_angle_axis _ Q1), (hue_angle_axis _ Q2).
  destruct (Req_EM_T ((1 + g) * a1 * ((1 + g) * a2)) 0) as [Q|_]; [nra|].
  replace (0 - 0) with 0 by ring. rewrite Rabs_R0. destruct (Rle_dec 0 180); [|lra].
  replace (radians (0 / 2)) with 0 by (unfold radians; lra). rewrite sin_0.
  set (D := 1 + 45 / 1000 * ((1 + g) * m)). assert (PD : 0 < D) by (unfold D; nra).
  replace (1 + 45 / 1000 * (((1 + g) * a1 + (1 + g) * a2) / 2)) with D by (unfold D, m; field).
  rewrite <- (sqrt_square ((1 + g) * (a2 - a1) / D)).
  - f_equal. rewrite !Rmult_1_l, Rminus_eq_0, !Rmult_0_r. unfold Rdiv at 1 2 3 4 5 6. unfold Rdiv. ring.
  - apply Rmult_le_pos; [nra|left; apply Rinv_0_lt_compat; exact PD].
Qed.

Lemma cie00_below l a1 a2 (c1 c2 : color R) : comps c1 = [l; a1; 0] -> comps c2 = [l; a2; 0] -> 0 < a1 -> a1 < a2 ->
  exists x, cie00_f 1 (45 / 1000) (15 / 1000) 1 1 c1 c2 = Ok x /\ x < ciede2000 1 1 1 (comps c1) (comps c2).
Proof.
  intros E1 E2 P1 L. eexists. split; [apply (cie00_axis 1 (45 / 1000) (15 / 1000) 1 1 l a1 a2); try assumption; lra|].
  rewrite E1, E2. destruct (ciede2000_axis l a1 a2 P1 L) as [g [Pg ->]]. rewrite Rabs_right by lra.
  set (m := (a1 + a2) / 2). assert (Pm : 0 < m) by (unfold m; lra).
  assert (D1 : 0 < 1 * (1 + 45 / 1000 * m)) by lra. assert (D2 : 0 < 1 + 45 / 1000 * ((1 + g) * m)) by nra.
  apply Rmult_lt_reg_r with (1 * (1 + 45 / 1000 * m)); [exact D1|]. unfold Rdiv at 1. rewrite Rmult_assoc, Rinv_l by lra.
  apply Rmult_lt_reg_r with (1 + 45 / 1000 * ((1 + g) * m)); [exact D2|].
  replace ((1 + g) * (a2 - a1) / (1 + 45 / 1000 * ((1 + g) * m)) * (1 * (1 + 45 / 1000 * m)) * (1 + 45 / 1000 * ((1 + g) * m)))
    with ((1 + g) * (a2 - a1) * (1 + 45 / 1000 * m)) by (field; lra).
  assert (0 < (a2 - a1) * g) by nra. assert (0 < (a2 - a1) * g * m) by (apply Rmult_lt_0_compat; assumption). nra.
Qed.

(** ** CMC *)
Lemma to_deg_hue b a : (let t := to_deg (AF := RArith) (Ratan2 b a) in if flt t (fz 0) then fadd t (fz 360) else t) = hue_angle b a.
Proof.
  unfold hue_angle, to_deg. rewrite !fzR. cbn [flt fadd fmul fdiv fpi RArith]. cbv zeta. unfold Rltb.
  destruct (Rlt_dec (Ratan2 b a * (180 / PI)) 0); reflexivity.
Qed.
Lemma pow4R x : 0 <= x -> @fpow R RArith x (@fz R RArith 4) = x ^ 4.
Proof.
  intros [H|<-].
  - rewrite powR by (lia || lra). replace (IZR 4) with (INR 4) by (cbn; lra). apply Rpower_pow. exact H.
  - rewrite fzR. cbn [fpow RArith]. rewrite Rpow_c_zero by lra. ring.
Qed.
Lemma abs_cos x : 0 <= Rabs x. Proof. apply Rabs_pos. Qed.
Lemma hue_weight_pos h : 36 / 100 <= cmc_hue_weight h.
Proof.
  unfold cmc_hue_weight. pose proof (Rabs_pos (2 / 10 * cos (radians (h + 168)))). pose proof (Rabs_pos (4 / 10 * cos (radians (h + 35)))).
  destruct (Rle_dec 164 h); [destruct (Rle_dec h 345)|]; lra.
Qed.
Lemma cmc_formula l c (c1 c2 : color R) l1 a1 b1 : wf_color LAB c1 -> wf_color LAB c2 -> 0 < l -> 0 < c -> comps c1 = [l1; a1; b1] -> hue_angle b1 a1 <> 164 ->
  cmc_f l c c1 c2 = Ok (cmc_lc84 l c (comps c1) (comps c2)).
Proof.
  intros W1 W2 Pl Pc E1 NH. destruct (comps3 _ c2 W2 eq_refl) as [l2 [a2 [b2 E2]]].
  unfold cmc_f, with3. rewrite E1, E2. unfold cmc_lc84. rewrite !pow2R.
  cbn [fatan2 RArith]. pose proof (to_deg_hue b1 a1) as TH. cbv zeta in TH. rewrite TH.
  cbn [fadd fsqrt RArith]. pose proof (sqrt_pos (a1 * a1 + b1 * b1)) as Q1. pose proof (hue_radicand a1 b1 a2 b2) as Hr.
  set (ch1 := sqrt (a1 * a1 + b1 * b1)) in *. set (ch2 := sqrt (a2 * a2 + b2 * b2)) in *.
  rewrite pow4R by exact Q1. set (hh := hue_angle b1 a1) in *.
  assert (TW : (if (flt (fz 164) hh && fle hh (fz 345))%bool
                then fadd (lit (56 # 100)) (fabs (fmul (lit (2 # 10)) (fcos (to_rad (fadd hh (fz 168))))))
                else fadd (lit (36 # 100)) (fabs (fmul (lit (4 # 10)) (fcos (to_rad (fadd hh (fz 35))))))) = cmc_hue_weight hh).
  { unfold cmc_hue_weight, to_rad, radians. rewrite !fzR. cbn [flt fle fadd fabs fmul fcos fdiv fpi lit RArith]. unfold Rltb, Rleb.
    replace (Q2R (56 # 100)) with (56 / 100) by (unfold Q2R; cbn [Qnum Qden]; lra). replace (Q2R (36 # 100)) with (36 / 100) by (unfold Q2R; cbn [Qnum Qden]; lra).
    replace (Q2R (2 # 10)) with (2 / 10) by (unfold Q2R; cbn [Qnum Qden]; lra). replace (Q2R (4 # 10)) with (4 / 10) by (unfold Q2R; cbn [Qnum Qden]; lra).
    destruct (Rlt_dec 164 hh); destruct (Rle_dec 164 hh); try lra; destruct (Rle_dec hh 345); try reflexivity; lra. }
  cbv zeta. cbn [fadd fsqrt RArith] in TW |- *. rewrite TW. clear TW TH. rewrite !fzR. cbn [fadd fsub fmul fdiv fsqrt flt lit RArith].
  pose proof (hue_weight_pos hh) as Ph. set (w := cmc_hue_weight hh) in *.
  replace (Q2R (511 # 1000)) with (511 / 1000) by (unfold Q2R; cbn [Qnum Qden]; lra). replace (Q2R (40975 # 1000000)) with (40975 / 1000000) by (unfold Q2R; cbn [Qnum Qden]; lra).
  replace (Q2R (1765 # 100000)) with (1765 / 100000) by (unfold Q2R; cbn [Qnum Qden]; lra). replace (Q2R (638 # 10000)) with (638 / 10000) by (unfold Q2R; cbn [Qnum Qden]; lra).
  replace (Q2R (131 # 10000)) with (131 / 10000) by (unfold Q2R; cbn [Qnum Qden]; lra). replace (Q2R (638 # 1000)) with (638 / 1000) by (unfold Q2R; cbn [Qnum Qden]; lra).
  set (f := sqrt (ch1 ^ 4 / (ch1 ^ 4 + 1900))). assert (Pf : 0 <= f <= 1).
  { assert (P4 : 0 <= ch1 ^ 4) by (apply pow_le; exact Q1). split; [apply sqrt_pos|]. unfold f. rewrite <- sqrt_1. apply sqrt_le_1_alt.
    apply Rmult_le_reg_r with (ch1 ^ 4 + 1900); [lra|]. unfold Rdiv. rewrite Rmult_assoc, Rinv_l by lra. lra. }
  set (sc := 638 / 10000 * ch1 / (1 + 131 / 10000 * ch1) + 638 / 1000). assert (Psc : 638 / 1000 <= sc).
  { assert (0 <= 638 / 10000 * ch1 / (1 + 131 / 10000 * ch1)) by (apply Rmult_le_pos; [lra|left; apply Rinv_0_lt_compat; lra]). unfold sc. lra. }
  assert (Pfw : 0 < f * w + 1 - f) by nra. assert (Psh : 0 < sc * (f * w + 1 - f)) by (apply Rmult_lt_0_compat; lra). set (sh := sc * (f * w + 1 - f)) in *.
  replace (if Rltb l1 16 then 511 / 1000 else 40975 / 1000000 * l1 / (1 + 1765 / 100000 * l1))
    with (if Rlt_dec l1 16 then 511 / 1000 else 40975 / 1000000 * l1 / (1 + 1765 / 100000 * l1)) by (unfold Rltb; destruct (Rlt_dec l1 16); reflexivity).
  set (sl := if Rlt_dec l1 16 then _ else _). pose proof (sqrt_sqrt _ Hr) as S.
  set (t := sqrt ((a1 - a2) * (a1 - a2) + (b1 - b2) * (b1 - b2) - (ch1 - ch2) * (ch1 - ch2))) in *. f_equal. f_equal. f_equal. rewrite <- S. field. lra.
Qed.

(** The formula is 0 for equal colours and depends on the order of the colours. *)
Lemma cmc_zero l c (c1 c2 : color R) : wf_color LAB c1 -> wf_color LAB c2 -> comps c1 = comps c2 -> cmc_f l c c1 c2 = Ok 0.
Proof.
  intros W1 W2 E. destruct (comps3 _ c1 W1 eq_refl) as [l1 [a1 [b1 E1]]]. assert (E2 : comps c2 = [l1; a1; b1]) by (rewrite <- E; exact E1).
  unfold cmc_f, with3. rewrite E1, E2. rewrite !pow2R. cbv zeta. f_equal.
  match goal with |- context [fmul l ?s] => set (sl := s) end. match goal with |- context [fmul c ?s] => set (sc := s) end.
  match goal with |- context [fdiv (fsqrt (fsub (fadd _ _) _)) ?s] => set (sh := s) end. clearbody sl sc sh.
  cbn [fadd fsub fmul fdiv fsqrt RArith]. rewrite !Rminus_eq_0. replace (0 * 0 + 0 * 0 - 0 * 0) with 0 by ring. rewrite sqrt_0.
  etransitivity; [|apply sqrt_0]. f_equal. unfold Rdiv. ring.
Qed.
Lemma cmc_grey l c (c1 c2 : color R) L a : comps c1 = [L; 0; 0] -> comps c2 = [L; a; 0] -> 0 < a -> 0 < l -> 0 < c -> wf_color LAB c1 -> wf_color LAB c2 ->
  exists x y, cmc_f l c c1 c2 = Ok x /\ cmc_f l c c2 c1 = Ok y /\ y < x.
Proof.
  intros E1 E2 Pa Pl Pc W1 W2. assert (A0 : Ratan2 0 0 = 0) by (unfold Ratan2; destruct (Rlt_dec 0 0); [lra|reflexivity]).
  assert (H0 : hue_angle 0 0 = 0) by (unfold hue_angle; rewrite A0, Rmult_0_l; cbv zeta; destruct (Rlt_dec 0 0); lra).
  rewrite (cmc_formula l c c1 c2 L 0 0 W1 W2 Pl Pc E1) by (rewrite H0; lra).
  rewrite (cmc_formula l c c2 c1 L a 0 W2 W1 Pl Pc E2) by (rewrite hue_angle_axis by exact Pa; lra).
  do 2 eexists. split; [reflexivity|]. split; [reflexivity|]. rewrite E1, E2. unfold cmc_lc84. cbv zeta. rewrite (sqrt_axis a Pa).
  replace (sqrt (0 * 0 + 0 * 0)) with 0 by (replace (0 * 0 + 0 * 0) with 0 by ring; symmetry; apply sqrt_0). rewrite !Rminus_eq_0.
  replace ((a - 0) * (a - 0) + 0 * 0 - (a - 0) * (a - 0)) with 0 by ring. replace ((0 - a) * (0 - a) + 0 * 0 - (0 - a) * (0 - a)) with 0 by ring.
  set (s2 := 638 / 10000 * a / (1 + 131 / 10000 * a) + 638 / 1000). set (s1 := 638 / 10000 * 0 / (1 + 131 / 10000 * 0) + 638 / 1000).
  assert (P1 : s1 = 638 / 1000) by (unfold s1; lra). assert (P2 : 638 / 1000 < s2).
  { assert (0 < 638 / 10000 * a / (1 + 131 / 10000 * a)) by (apply Rdiv_lt_0_compat; lra). unfold s2. lra. }
  assert (Z : forall x y, 0 / x * (0 / x) = 0 /\ 0 / (y * y) = 0) by (intros x y; unfold Rdiv; split; ring).
  match goal with |- sqrt (0 / ?A * _ + _ + 0 / (?B * _)) < sqrt (_ + _ + 0 / (?D * _)) =>
    destruct (Z A B) as [-> ->]; destruct (Z A D) as [_ ->] end.
  rewrite !Rplus_0_l, !Rplus_0_r.
  assert (U : (a - 0) / (c * s2) * ((a - 0) / (c * s2)) = a / (c * s2) * (a / (c * s2))) by (rewrite Rminus_0_r; reflexivity).
  assert (V : (0 - a) / (c * s1) * ((0 - a) / (c * s1)) = a / (c * s1) * (a / (c * s1))) by (unfold Rdiv; ring).
  rewrite U, V. assert (Q1 : 0 < c * s1) by nra. assert (Q3 : c * s1 < c * s2) by nra.
  rewrite !sqrt_square by (left; apply Rdiv_lt_0_compat; lra). apply Rmult_lt_compat_l; [exact Pa|]. apply Rinv_lt_contravar; [nra|exact Q3].
Qed.
