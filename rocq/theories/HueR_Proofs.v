(** * The hue of an RGB colour in exact arithmetic, and the three formulas that undo it *)
From Coq Require Import ZArith QArith Qreals Reals Lra Lia List Bool.
From Verif Require Import Arith Outcome ColorModel Heap Converter RArith Laws NormalForms Spec_Round.
Import ListNotations.
Local Open Scope R_scope.

(** fmod for small quotients *)
Lemma Int_part_0 x : 0 <= x < 1 -> Int_part x = 0%Z.
Proof.
  intros H. unfold Int_part. replace (up x) with 1%Z; [reflexivity|]. apply tech_up; simpl; lra.
Qed.
Lemma Int_part_1 x : 1 <= x < 2 -> Int_part x = 1%Z.
Proof.
  intros H. unfold Int_part. replace (up x) with 2%Z; [reflexivity|]. apply tech_up; simpl; lra.
Qed.
Lemma Rfmod_0 x y : 0 < y -> - y < x < y -> Rfmod x y = x.
Proof.
  intros Hy H.
  assert (B : -1 < x / y < 1).
  { split; apply (Rmult_lt_reg_r y); auto; unfold Rdiv; rewrite Rmult_assoc, Rinv_l, Rmult_1_r by lra; lra. }
  unfold Rfmod, Rtrunc. destruct (Rle_dec 0 (x / y)).
  - rewrite Int_part_0 by lra. simpl. lra.
  - rewrite Int_part_0 by lra. simpl. lra.
Qed.
Lemma Rfmod_1 x y : 0 < y -> y <= x < 2 * y -> Rfmod x y = x - y.
Proof.
  intros Hy H.
  assert (B : 1 <= x / y < 2).
  { split; [apply (Rmult_le_reg_r y)|apply (Rmult_lt_reg_r y)]; auto; unfold Rdiv; rewrite ?Rmult_assoc, Rinv_l, Rmult_1_r by lra; lra. }
  unfold Rfmod, Rtrunc. destruct (Rle_dec 0 (x / y)); [|lra]. rewrite Int_part_1 by lra. simpl. lra.
Qed.

Lemma Int_part_2 x : 2 <= x < 3 -> Int_part x = 2%Z.
Proof.
  intros H. unfold Int_part. replace (up x) with 3%Z; [reflexivity|]. apply tech_up; simpl; lra.
Qed.
Lemma Rfmod_2 x y : 0 < y -> 2 * y <= x < 3 * y -> Rfmod x y = x - 2 * y.
Proof.
  intros Hy H.
  assert (B : 2 <= x / y < 3).
  { split; [apply (Rmult_le_reg_r y)|apply (Rmult_lt_reg_r y)]; auto; unfold Rdiv; rewrite ?Rmult_assoc, Rinv_l, Rmult_1_r by lra; lra. }
  unfold Rfmod, Rtrunc. destruct (Rle_dec 0 (x / y)); [|lra]. rewrite Int_part_2 by lra. simpl. lra.
Qed.

Lemma Rltb_lt x y : x < y -> Rltb x y = true.
Proof. intros. unfold Rltb. destruct (Rlt_dec x y); auto; lra. Qed.
Lemma Rltb_ge x y : y <= x -> Rltb x y = false.
Proof. intros. unfold Rltb. destruct (Rlt_dec x y); auto; lra. Qed.
Lemma Rleb_le x y : x <= y -> Rleb x y = true.
Proof. intros. unfold Rleb. destruct (Rle_dec x y); auto; lra. Qed.
Lemma Rleb_gt x y : y < x -> Rleb x y = false.
Proof. intros. unfold Rleb. destruct (Rle_dec x y); auto; lra. Qed.
Lemma Reqb_eq x y : x = y -> Reqb x y = true.
Proof. intros. unfold Reqb. destruct (Req_EM_T x y); auto; lra. Qed.
Lemma Reqb_ne x y : x <> y -> Reqb x y = false.
Proof. intros. unfold Reqb. destruct (Req_EM_T x y); auto; lra. Qed.

Lemma clampR x lo hi : clamp (AF := RArith) x hi lo = Rmax (Rmin x hi) lo.
Proof. reflexivity. Qed.
Lemma clampR_id x lo hi : lo <= x <= hi -> clamp (AF := RArith) x hi lo = x.
Proof. intros. rewrite clampR, Rmin_left, Rmax_left; lra. Qed.
Lemma c01R x : 0 <= x <= 1 -> @c01 R RArith x = x.
Proof. intros. unfold c01. rewrite !fzR. apply clampR_id. assumption. Qed.
Lemma c100R x : 0 <= x <= 100 -> @c100 R RArith x = x.
Proof. intros. unfold c100. rewrite !fzR. apply clampR_id. assumption. Qed.
Lemma c255R x : 0 <= x <= 255 -> @c255 R RArith x = x.
Proof. intros. unfold c255. rewrite !fzR. apply clampR_id. assumption. Qed.

Lemma hue_norm_pos h : 0 <= h < 360 -> @hue_norm R RArith h = Rmin h 359.
Proof.
  intros H. unfold hue_norm, hue_fuel. cbn [wrap_negative ffmod flt fadd RArith]. rewrite !fzR.
  rewrite Rfmod_0 by lra. rewrite Rltb_ge by lra. rewrite clampR. apply Rmax_left. apply Rmin_glb; lra.
Qed.
Lemma hue_norm_neg h : -360 < h < 0 -> @hue_norm R RArith h = Rmin (h + 360) 359.
Proof.
  intros H. unfold hue_norm, hue_fuel. cbn [wrap_negative ffmod flt fadd RArith]. rewrite !fzR.
  rewrite Rfmod_0 by lra. rewrite Rltb_lt by lra. rewrite Rltb_ge by lra. rewrite clampR. apply Rmax_left. apply Rmin_glb; lra.
Qed.
Lemma hue_norm_id h : 0 <= h <= 359 -> @hue_norm R RArith h = h.
Proof. intros H. rewrite hue_norm_pos by lra. apply Rmin_left; lra. Qed.

(** The fully saturated colour of hue [60 t]. *)
Definition cl (x : R) : R := Rmin (Rmax x 0) 1.
Definition ur (t : R) : R := cl (Rabs (t - 3) - 1).
Definition ug (t : R) : R := cl (2 - Rabs (t - 2)).
Definition ub (t : R) : R := cl (2 - Rabs (t - 4)).

Ltac absmm := unfold ur, ug, ub, cl, Rabs, Rmin, Rmax in *;
  repeat match goal with
  | |- context [Rcase_abs ?x] => destruct (Rcase_abs x)
  | |- context [Rle_dec ?x ?y] => destruct (Rle_dec x y)
  | H : context [Rcase_abs ?x] |- _ => destruct (Rcase_abs x)
  | H : context [Rle_dec ?x ?y] |- _ => destruct (Rle_dec x y)
  end.

Lemma cl_mid x : 0 <= x <= 1 -> cl x = x.
Proof. intros. unfold cl. rewrite Rmax_left, Rmin_left; lra. Qed.
Lemma cl_low x : x <= 0 -> cl x = 0.
Proof. intros. unfold cl. rewrite Rmax_right, Rmin_left; lra. Qed.
Lemma cl_high x : 1 <= x -> cl x = 1.
Proof. intros. unfold cl. rewrite Rmax_left, Rmin_right; lra. Qed.

Definition phi (k : R) : R := Rmax (Rmin k (Rmin (4 - k) 1)) 0.
Definition psi (k : R) : R := Rmax (Rmin (k - 3) (Rmin (9 - k) 1)) (-1).

Lemma phi_r t : 0 <= t < 6 -> phi (Rfmod (5 + t) 6) = 1 - ur t.
Proof.
  intros H. unfold phi. destruct (Rlt_dec t 1) as [L|L]; [rewrite Rfmod_0 by lra|rewrite Rfmod_1 by lra]; absmm; lra.
Qed.
Lemma phi_g t : 0 <= t < 6 -> phi (Rfmod (3 + t) 6) = 1 - ug t.
Proof.
  intros H. unfold phi. destruct (Rlt_dec t 3) as [L|L]; [rewrite Rfmod_0 by lra|rewrite Rfmod_1 by lra]; absmm; lra.
Qed.
Lemma phi_b t : 0 <= t < 6 -> phi (Rfmod (1 + t) 6) = 1 - ub t.
Proof.
  intros H. unfold phi. destruct (Rlt_dec t 5) as [L|L]; [rewrite Rfmod_0 by lra|rewrite Rfmod_1 by lra]; absmm; lra.
Qed.
Lemma psi_r t : 0 <= t < 6 -> psi (Rfmod (0 + 2 * t) 12) = 1 - 2 * ur t.
Proof. intros H. unfold psi. rewrite Rfmod_0 by lra. absmm; lra. Qed.
Lemma psi_g t : 0 <= t < 6 -> psi (Rfmod (8 + 2 * t) 12) = 1 - 2 * ug t.
Proof.
  intros H. unfold psi. destruct (Rlt_dec t 2) as [L|L]; [rewrite Rfmod_0 by lra|rewrite Rfmod_1 by lra]; absmm; lra.
Qed.
Lemma psi_b t : 0 <= t < 6 -> psi (Rfmod (4 + 2 * t) 12) = 1 - 2 * ub t.
Proof.
  intros H. unfold psi. destruct (Rlt_dec t 4) as [L|L]; [rewrite Rfmod_0 by lra|rewrite Rfmod_1 by lra]; absmm; lra.
Qed.

Lemma hsv_helper h s v n : hsv_to_rgb_helper (AF := RArith) h s v n = v - v * s * phi (Rfmod (n + h / 60) 6).
Proof. unfold hsv_to_rgb_helper, phi. rewrite !fzR. reflexivity. Qed.
Lemma hsl_helper h s l n : hsl_to_rgb_helper (AF := RArith) h s l n =
  l - s * Rmin l (1 - l) * psi (Rfmod (n + 2 * (h / 60)) 12).
Proof. unfold hsl_to_rgb_helper, psi. rewrite !fzR. cbn [fadd fsub fmul fdiv fmin fmax ffmod RArith]. replace (h / 30) with (2 * (h / 60)) by field. reflexivity. Qed.

(** ** The hue *)

Definition mx3 (r g b : R) : R := Rmax (Rmax r g) b.
Definition mn3 (r g b : R) : R := Rmin (Rmin r g) b.

Lemma mx3_ge r g b : r <= mx3 r g b /\ g <= mx3 r g b /\ b <= mx3 r g b.
Proof. unfold mx3. absmm; lra. Qed.
Lemma mn3_le r g b : mn3 r g b <= r /\ mn3 r g b <= g /\ mn3 r g b <= b.
Proof. unfold mn3. absmm; lra. Qed.
Lemma mx3_in r g b : mx3 r g b = r \/ mx3 r g b = g \/ mx3 r g b = b.
Proof. unfold mx3. absmm; lra. Qed.
Lemma mn3_in r g b : mn3 r g b = r \/ mn3 r g b = g \/ mn3 r g b = b.
Proof. unfold mn3. absmm; lra. Qed.

Lemma div_bounds a d lo hi : 0 < d -> lo * d <= a <= hi * d -> lo <= a / d <= hi.
Proof.
  intros Hd H. split; apply (Rmult_le_reg_r d); auto; unfold Rdiv; rewrite ?Rmult_assoc, Rinv_l, Rmult_1_r by lra; lra.
Qed.

Lemma hue_unit r g b : let mx := mx3 r g b in let mn := mn3 r g b in let d := mx - mn in
  0 < d -> ~ near_360 r g b ->
  let t := @hue_norm R RArith (hue_from_rgb_helper (AF := RArith) r g b mx mn d) / 60 in
  0 <= t < 6 /\ d * ur t = r - mn /\ d * ug t = g - mn /\ d * ub t = b - mn.
Proof.
  intros mx mn d Hd NN.
  pose proof (mx3_ge r g b) as [X1 [X2 X3]]. pose proof (mn3_le r g b) as [N1 [N2 N3]].
  pose proof (mn3_in r g b) as NI. pose proof (mx3_in r g b) as XI.
  fold mx in X1, X2, X3, XI. fold mn in N1, N2, N3, NI.
  unfold hue_from_rgb_helper. cbn [feq fmul ffmod fsub fdiv fadd RArith]. rewrite !fzR.
  destruct (Req_EM_T mx r) as [E|E]; [rewrite Reqb_eq by exact E|rewrite Reqb_ne by exact E].
  - set (q := (g - b) / d).
    assert (Hq : g - b = d * q) by (unfold q; field; lra).
    assert (Bq : -1 <= q <= 1) by (apply div_bounds; unfold d in *; lra).
    rewrite Rfmod_0 by lra.
    destruct (Rle_dec 0 q) as [P|P].
    + rewrite hue_norm_pos by lra. rewrite Rmin_left by lra. replace (60 * q / 60) with q by field.
      assert (0 <= g - b) by (rewrite Hq; apply Rmult_le_pos; lra).
      assert (mn = b) by lra.
      split; [lra|].
      unfold ur, ug, ub.
      rewrite (Rabs_left1 (q - 3)), (Rabs_left1 (q - 2)), (Rabs_left1 (q - 4)) by lra.
      rewrite (cl_high (- (q - 3) - 1)), (cl_mid (2 - - (q - 2))), (cl_low (2 - - (q - 4))) by lra.
      unfold d in *. lra.
    + assert (P' : 0 < d * - q) by (apply Rmult_lt_0_compat; lra).
      assert (mn = g) by lra.
      assert (K : ~ 60 * - q < 1).
      { intros K. apply NN. split; [lra|]. replace (r - g) with (d * 1) by (unfold d; lra).
        replace (60 * (b - g)) with (d * (60 * - q)) by lra. apply Rmult_lt_compat_l; lra. }
      rewrite hue_norm_neg by lra. rewrite Rmin_left by lra. replace ((60 * q + 360) / 60) with (q + 6) by field.
      split; [lra|].
      unfold ur, ug, ub.
      rewrite (Rabs_right (q + 6 - 3)), (Rabs_right (q + 6 - 2)), (Rabs_right (q + 6 - 4)) by lra.
      rewrite (cl_high (q + 6 - 3 - 1)), (cl_low (2 - (q + 6 - 2))), (cl_mid (2 - (q + 6 - 4))) by lra.
      unfold d in *. lra.
  - destruct (Req_EM_T mx g) as [E2|E2]; [rewrite Reqb_eq by exact E2|rewrite Reqb_ne by exact E2].
    + set (q := (b - r) / d).
      assert (Hq : b - r = d * q) by (unfold q; field; lra).
      assert (Bq : -1 <= q <= 1) by (apply div_bounds; unfold d in *; lra).
      rewrite hue_norm_pos by lra. rewrite Rmin_left by lra. replace (60 * (q + 2) / 60) with (q + 2) by field.
      split; [lra|]. unfold ur, ug, ub.
      rewrite (Rabs_left1 (q + 2 - 4)) by lra.
      replace (q + 2 - 2) with q by lra. replace (q + 2 - 3) with (q - 1) by lra. rewrite (Rabs_left1 (q - 1)) by lra.
      assert (Ug : cl (2 - Rabs q) = 1) by (apply cl_high; absmm; lra).
      rewrite Ug.
      destruct (Rle_dec 0 q) as [P|P].
      * assert (0 <= b - r) by (rewrite Hq; apply Rmult_le_pos; lra). assert (mn = r) by lra.
        rewrite (cl_low (- (q - 1) - 1)), (cl_mid (2 - - (q + 2 - 4))) by lra. unfold d in *. lra.
      * assert (0 < d * - q) by (apply Rmult_lt_0_compat; lra). assert (mn = b) by lra.
        rewrite (cl_mid (- (q - 1) - 1)), (cl_low (2 - - (q + 2 - 4))) by lra. unfold d in *. lra.
    + assert (E3 : mx = b) by lra. set (q := (r - g) / d).
      assert (Hq : r - g = d * q) by (unfold q; field; lra).
      assert (Bq : -1 <= q <= 1) by (apply div_bounds; unfold d in *; lra).
      rewrite hue_norm_pos by lra. rewrite Rmin_left by lra. replace (60 * (q + 4) / 60) with (q + 4) by field.
      split; [lra|]. unfold ur, ug, ub.
      rewrite (Rabs_right (q + 4 - 2)) by lra.
      replace (q + 4 - 4) with q by lra. replace (q + 4 - 3) with (q + 1) by lra. rewrite (Rabs_right (q + 1)) by lra.
      assert (Ug : cl (2 - Rabs q) = 1) by (apply cl_high; absmm; lra).
      rewrite Ug.
      destruct (Rle_dec 0 q) as [P|P].
      * assert (0 <= r - g) by (rewrite Hq; apply Rmult_le_pos; lra). assert (mn = g) by lra.
        rewrite (cl_mid (q + 1 - 1)), (cl_low (2 - (q + 4 - 2))) by lra. unfold d in *. lra.
      * assert (0 < d * - q) by (apply Rmult_lt_0_compat; lra). assert (mn = r) by lra.
        rewrite (cl_low (q + 1 - 1)), (cl_mid (2 - (q + 4 - 2))) by lra. unfold d in *. lra.
Qed.

(** ** The three inverse formulas *)

Lemma hsv_of_unit h s v : 0 <= h / 60 < 6 -> let t := h / 60 in
  hsv_to_rgb_helper (AF := RArith) h s v 5 = v - v * s * (1 - ur t) /\
  hsv_to_rgb_helper (AF := RArith) h s v 3 = v - v * s * (1 - ug t) /\
  hsv_to_rgb_helper (AF := RArith) h s v 1 = v - v * s * (1 - ub t).
Proof. intros H t. rewrite !hsv_helper. fold t. rewrite phi_r, phi_g, phi_b by exact H. auto. Qed.

Lemma hsl_of_unit h s l : 0 <= h / 60 < 6 -> let t := h / 60 in
  hsl_to_rgb_helper (AF := RArith) h s l 0 = l - s * Rmin l (1 - l) * (1 - 2 * ur t) /\
  hsl_to_rgb_helper (AF := RArith) h s l 8 = l - s * Rmin l (1 - l) * (1 - 2 * ug t) /\
  hsl_to_rgb_helper (AF := RArith) h s l 4 = l - s * Rmin l (1 - l) * (1 - 2 * ub t).
Proof. intros H t. rewrite !hsl_helper. fold t. rewrite psi_r, psi_g, psi_b by exact H. auto. Qed.

Lemma hue_near r g b : near_360 r g b ->
  mx3 r g b = r /\ mn3 r g b = g /\ @hue_norm R RArith (hue_from_rgb_helper (AF := RArith) r g b (mx3 r g b) (mn3 r g b) (mx3 r g b - mn3 r g b)) = 359.
Proof.
  intros [H1 H2].
  assert (E1 : mx3 r g b = r) by (unfold mx3; absmm; lra).
  assert (E2 : mn3 r g b = g) by (unfold mn3; absmm; lra).
  split; [exact E1|]. split; [exact E2|]. rewrite E1, E2.
  unfold hue_from_rgb_helper. cbn [feq fmul ffmod fsub fdiv fadd RArith]. rewrite !fzR.
  rewrite Reqb_eq by reflexivity.
  assert (B : -1 / 60 < (g - b) / (r - g) < 0).
  { split; apply (Rmult_lt_reg_r (r - g)); try lra; unfold Rdiv; rewrite ?Rmult_assoc, Rinv_l, Rmult_1_r by lra; lra. }
  rewrite Rfmod_0 by lra. rewrite hue_norm_neg by lra. apply Rmin_right. lra.
Qed.

(** ** The sector table of the HSI conversion *)
Definition zz (t : R) : R := 1 - Rabs (Rfmod t 2 - 1).

Lemma sector_unit t C : 0 <= t < 6 ->
  hsi_sector (AF := RArith) t C (C * zz t) = (C * ur t, C * ug t, C * ub t) /\ 1 + zz t = ur t + ug t + ub t.
Proof.
  intros H. unfold hsi_sector, fge, fgt, zz. cbn [fle flt RArith]. rewrite !fzR.
  assert (U : 0 <= t <= 1 \/ 1 < t < 2 \/ t = 2 \/ 2 < t <= 3 \/ 3 < t < 4 \/ t = 4 \/ 4 < t <= 5 \/ 5 < t < 6) by lra.
  destruct U as [U|[U|[U|[U|[U|[U|[U|U]]]]]]].
  - rewrite (Rleb_le 0 t), (Rleb_le t 1) by lra. cbn [andb]. rewrite Rfmod_0 by lra.
    assert (E1 : ur t = 1) by (clear - U; absmm; lra). assert (E2 : ug t = t) by (clear - U; absmm; lra). assert (E3 : ub t = 0) by (clear - U; absmm; lra).
    rewrite E1, E2, E3. rewrite Rabs_left1 by lra. split; [f_equal; [f_equal|]; lra|lra].
  - rewrite (Rleb_le 0 t), (Rleb_gt t 1), (Rltb_lt 1 t), (Rleb_le t 2) by lra. cbn [andb]. rewrite Rfmod_0 by lra.
    assert (E1 : ur t = 2 - t) by (clear - U; absmm; lra). assert (E2 : ug t = 1) by (clear - U; absmm; lra). assert (E3 : ub t = 0) by (clear - U; absmm; lra).
    rewrite E1, E2, E3. rewrite Rabs_right by lra. split; [f_equal; [f_equal|]; lra|lra].
  - subst t. rewrite (Rleb_le 0 2), (Rleb_gt 2 1), (Rltb_lt 1 2), (Rleb_le 2 2) by lra. cbn [andb]. rewrite Rfmod_1 by lra.
    assert (E1 : ur 2 = 0) by (clear; absmm; lra). assert (E2 : ug 2 = 1) by (clear; absmm; lra). assert (E3 : ub 2 = 0) by (clear; absmm; lra).
    rewrite E1, E2, E3. rewrite Rabs_left1 by lra. split; [f_equal; [f_equal|]; lra|lra].
  - rewrite (Rleb_le 0 t), (Rleb_gt t 1), (Rltb_lt 1 t), (Rleb_gt t 2), (Rltb_lt 2 t), (Rleb_le t 3) by lra. cbn [andb]. rewrite Rfmod_1 by lra.
    assert (E1 : ur t = 0) by (clear - U; absmm; lra). assert (E2 : ug t = 1) by (clear - U; absmm; lra). assert (E3 : ub t = t - 2) by (clear - U; absmm; lra).
    rewrite E1, E2, E3. rewrite Rabs_left1 by lra. split; [f_equal; [f_equal|]; lra|lra].
  - rewrite (Rleb_le 0 t), (Rleb_gt t 1), (Rltb_lt 1 t), (Rleb_gt t 2), (Rltb_lt 2 t), (Rleb_gt t 3), (Rltb_lt 3 t), (Rleb_le t 4) by lra. cbn [andb]. rewrite Rfmod_1 by lra.
    assert (E1 : ur t = 0) by (clear - U; absmm; lra). assert (E2 : ug t = 4 - t) by (clear - U; absmm; lra). assert (E3 : ub t = 1) by (clear - U; absmm; lra).
    rewrite E1, E2, E3. rewrite Rabs_right by lra. split; [f_equal; [f_equal|]; lra|lra].
  - subst t. rewrite (Rleb_le 0 4), (Rleb_gt 4 1), (Rltb_lt 1 4), (Rleb_gt 4 2), (Rltb_lt 2 4), (Rleb_gt 4 3), (Rltb_lt 3 4), (Rleb_le 4 4) by lra. cbn [andb]. rewrite Rfmod_2 by lra.
    assert (E1 : ur 4 = 0) by (clear; absmm; lra). assert (E2 : ug 4 = 0) by (clear; absmm; lra). assert (E3 : ub 4 = 1) by (clear; absmm; lra).
    rewrite E1, E2, E3. rewrite Rabs_left1 by lra. split; [f_equal; [f_equal|]; lra|lra].
  - rewrite (Rleb_le 0 t), (Rleb_gt t 1), (Rltb_lt 1 t), (Rleb_gt t 2), (Rltb_lt 2 t), (Rleb_gt t 3), (Rltb_lt 3 t), (Rleb_gt t 4), (Rltb_lt 4 t), (Rleb_le t 5) by lra. cbn [andb]. rewrite Rfmod_2 by lra.
    assert (E1 : ur t = t - 4) by (clear - U; absmm; lra). assert (E2 : ug t = 0) by (clear - U; absmm; lra). assert (E3 : ub t = 1) by (clear - U; absmm; lra).
    rewrite E1, E2, E3. rewrite Rabs_left1 by lra. split; [f_equal; [f_equal|]; lra|lra].
  - rewrite (Rleb_le 0 t), (Rleb_gt t 1), (Rltb_lt 1 t), (Rleb_gt t 2), (Rltb_lt 2 t), (Rleb_gt t 3), (Rltb_lt 3 t), (Rleb_gt t 4), (Rltb_lt 4 t), (Rleb_gt t 5), (Rltb_lt 5 t), (Rleb_le t 6) by lra. cbn [andb]. rewrite Rfmod_2 by lra.
    assert (E1 : ur t = 1) by (clear - U; absmm; lra). assert (E2 : ug t = 0) by (clear - U; absmm; lra). assert (E3 : ub t = 6 - t) by (clear - U; absmm; lra).
    rewrite E1, E2, E3. rewrite Rabs_right by lra. split; [f_equal; [f_equal|]; lra|lra].
Qed.

Lemma unit_bounds t : 0 <= ur t <= 1 /\ 0 <= ug t <= 1 /\ 0 <= ub t <= 1.
Proof. unfold ur, ug, ub. repeat split; unfold cl, Rmin, Rmax; repeat destruct (Rle_dec _ _); lra. Qed.
Lemma unit_zero t : 0 <= t < 6 -> ur t = 0 \/ ug t = 0 \/ ub t = 0.
Proof.
  intros H. assert (U : t <= 2 \/ (2 <= t <= 4) \/ 4 <= t) by lra.
  destruct U as [U|[U|U]]; [right; right|left|right; left]; absmm; lra.
Qed.
