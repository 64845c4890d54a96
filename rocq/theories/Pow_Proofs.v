(** * Power curves survive small errors (C154) *)
From Coq Require Import ZArith QArith Qreals Reals Lra Lia List Bool.
From Flocq Require Import Core IEEE754.BinarySingleNaN.
From Verif Require Import Arith Outcome ColorModel GammaModel MatrixModel SpaceModel F32 F32Facts Spec Spec32 Laws NormalForms
  Core_Proofs Core2_Proofs Core3_Proofs Core4_Proofs Spec_Error Error_Proofs Error2_Proofs Linear_Proofs Linear2_Proofs.
Import ListNotations.
Local Open Scope R_scope.
Local Notation fin x := (is_finite x = true).

(** ** Real powers *)
Lemma Rp_pos x e : 0 < Rpower x e. Proof. apply exp_pos. Qed.
Lemma Rp_1 x : 0 < x -> Rpower x 1 = x. Proof. apply Rpower_1. Qed.
Lemma Rp_le_base x y e : 0 < x <= y -> 0 <= e -> Rpower x e <= Rpower y e.
Proof. intros H He. apply Rle_Rpower_l; lra. Qed.
Lemma Rp_le_exp x a b : 0 < x <= 1 -> a <= b -> Rpower x b <= Rpower x a.
Proof.
  intros H Hab. unfold Rpower. destruct (Rle_lt_or_eq_dec _ _ Hab) as [L| ->]; [|lra].
  assert (ln x <= 0). { destruct (Rle_lt_or_eq_dec _ _ (proj2 H)) as [K| ->]; [left; rewrite <- ln_1; apply ln_increasing; lra|rewrite ln_1; lra]. }
  assert (b * ln x <= a * ln x) by nra.
  destruct (Rle_lt_or_eq_dec _ _ H1) as [K|K]; [left; apply exp_increasing, K|rewrite K; lra].
Qed.
Lemma Rp_le1 x e : 0 < x <= 1 -> 0 <= e -> Rpower x e <= 1.
Proof. intros H He. rewrite <- (Rpower_O x) by lra. apply Rp_le_exp; assumption. Qed.
Lemma Rp_inv x e : 0 < x -> 0 < e -> Rpower (Rpower x e) (/ e) = x.
Proof. intros Hx He. rewrite Rpower_mult, Rinv_r, Rp_1; lra. Qed.
Lemma Rp_inv' x e : 0 < x -> 0 < e -> Rpower (Rpower x (/ e)) e = x.
Proof. intros Hx He. rewrite Rpower_mult, Rinv_l, Rp_1; lra. Qed.
Lemma Rp_split x e : 0 < x -> Rpower x e = x * Rpower x (e - 1).
Proof. intros H. rewrite <- (Rp_1 x) at 2 by exact H. rewrite <- Rpower_plus. f_equal. ring. Qed.
Lemma Rp_step a b e : 0 < a <= b -> 1 <= e -> Rpower b (e - 1) * (b - a) <= Rpower b e - Rpower a e.
Proof.
  intros H He. rewrite (Rp_split b e), (Rp_split a e) by lra.
  assert (Rpower a (e - 1) <= Rpower b (e - 1)) by (apply Rp_le_base; lra).
  assert (a * Rpower a (e - 1) <= a * Rpower b (e - 1)) by (apply Rmult_le_compat_l; lra). lra.
Qed.
(** comparing roots *)
Lemma root_le L x e : 0 < L -> 0 < x -> 0 < e -> L <= Rpower x e -> Rpower L (/ e) <= x.
Proof.
  intros HL Hx He H. rewrite <- (Rp_inv x e) by assumption. apply Rp_le_base; [lra|left; apply Rinv_0_lt_compat, He].
Qed.
Lemma root_ge L x e : 0 < L -> 0 < x -> 0 < e -> Rpower x e <= L -> x <= Rpower L (/ e).
Proof.
  intros HL Hx He H. rewrite <- (Rp_inv x e) at 1 by assumption. apply Rp_le_base; [split; [apply Rp_pos|exact H]|left; apply Rinv_0_lt_compat, He].
Qed.

(** ** Bounds of exp near 0 and of the logarithm of floats *)
Lemma exp_near x : Rabs x <= / 2 -> Rabs (exp x - 1) <= 2 * Rabs x.
Proof.
  intros H. apply Rabs_le_inv in H. pose proof (exp_ineq1_le x) as L. pose proof (exp_ineq1_le (- x)) as L'.
  pose proof (exp_pos x). pose proof (exp_pos (- x)).
  assert (P : exp x * exp (- x) = 1) by (rewrite <- exp_plus, Rplus_opp_r, exp_0; reflexivity).
  assert (U : exp x * (1 - x) <= 1). { rewrite <- P. apply Rmult_le_compat_l; lra. }
  apply Rabs_le. destruct (Rle_lt_dec 0 x) as [S|S].
  - rewrite (Rabs_pos_eq x) by exact S. split; [lra|]. assert (2 * (exp x - 1) <= 2 * (2 * x)); [|lra].
    assert (exp x * (1 - x) <= 1) by exact U. assert ((1 + 2 * x) * (1 - x) >= 1) by nra. nra.
  - rewrite (Rabs_left x) by exact S. split; [lra|]. assert (exp x < 1); [rewrite <- exp_0; apply exp_increasing, S|lra].
Qed.
Lemma ln2_le : ln 2 <= 1.
Proof. rewrite <- (ln_exp 1). destruct (Rle_lt_or_eq_dec 2 (exp 1)) as [K|K]; [pose proof (exp_ineq1_le 1); lra|left; apply ln_increasing; lra|rewrite <- K; lra]. Qed.
Lemma float_ge x : fin x -> 0 < fval x -> bpow radix2 (-149) <= fval x.
Proof.
  intros Fx P. rewrite <- (Rabs_pos_eq (fval x)) by lra. apply (abs_B2R_ge_emin 24 128 x).
  destruct x; try discriminate Fx; [cbn in P; lra|reflexivity].
Qed.
Lemma float_ln x : fin x -> 0 < fval x <= 1 -> Rabs (ln (fval x)) <= 149.
Proof.
  intros Fx [P L]. assert (U : ln (fval x) <= 0).
  { destruct (Rle_lt_or_eq_dec _ _ L) as [K|K]; [left; rewrite <- ln_1; apply ln_increasing; lra|rewrite K, ln_1; lra]. }
  rewrite Rabs_left1 by exact U. apply Ropp_le_cancel. rewrite Ropp_involutive.
  apply Rle_trans with (ln (bpow radix2 (-149))).
  - rewrite bpow_exp. rewrite ln_exp. change (IZR radix2) with 2. pose proof ln2_le. assert (0 <= ln 2) by (rewrite <- ln_1; left; apply ln_increasing; lra). lra.
  - pose proof (float_ge x Fx P) as G. destruct (Rle_lt_or_eq_dec _ _ G) as [K|K]; [left; apply ln_increasing; [apply bpow_gt_0|exact K]|rewrite K; lra].
Qed.
Lemma small149 : / 2 ^ 149 <= tiny.
Proof.
  unfold tiny. apply Rinv_le_contravar; [lra|]. replace 1152921504606846976 with (2 ^ 60) by (simpl; lra).
  apply Rle_pow; [lra|lia].
Qed.

(** the exponent may be slightly wrong *)
Lemma pow_shift x k k' : fin x -> 0 < fval x <= 1 -> Rabs (k' - k) <= u -> Rabs (Rpower (fval x) k' - Rpower (fval x) k) <= 298 * u * Rpower (fval x) k.
Proof.
  intros Fx B K. pose proof (float_ln x Fx B) as L.
  replace (Rpower (fval x) k') with (Rpower (fval x) k * exp ((k' - k) * ln (fval x))).
  2:{ unfold Rpower. rewrite <- exp_plus. f_equal. ring. }
  assert (S : Rabs ((k' - k) * ln (fval x)) <= 149 * u).
  { rewrite Rabs_mult. rewrite Rmult_comm. apply Rmult_le_compat; auto using Rabs_pos. }
  assert (E : Rabs (exp ((k' - k) * ln (fval x)) - 1) <= 298 * u).
  { apply Rle_trans with (2 * Rabs ((k' - k) * ln (fval x))); [apply exp_near; num|lra]. }
  replace (Rpower (fval x) k * exp ((k' - k) * ln (fval x)) - Rpower (fval x) k) with (Rpower (fval x) k * (exp ((k' - k) * ln (fval x)) - 1)) by ring.
  rewrite Rabs_mult, (Rabs_pos_eq (Rpower _ _)) by (left; apply Rp_pos). rewrite Rmult_comm. apply Rmult_le_compat_r; [left; apply Rp_pos|exact E].
Qed.

Section Pow.
Context (o : oracle) (AP : accurate_pow o).

(** powf(x, y) with y near k *)
Lemma pow_near x y k : unitf x -> fin y -> 0 < k <= 3 -> 0 < fval y -> Rabs (fval y - k) <= u -> 0 < fval x ->
  near (o_pow o x y) (Rpower (fval x) k) (316 * u * Rpower (fval x) k + tiny).
Proof.
  intros [Fx Bx] Fy Hk Py Ey Px.
  destruct (AP x y Fx Fy) as [F [_ E]]; [unfold fval in *; lra|apply Rabs_le_inv in Ey; unfold fval in *; num|].
  split; [exact F|]. specialize (E Px). change (@B2R 24 128) with fval in E. pose proof (pow_shift x k (fval y) Fx ltac:(lra) Ey) as S.
  pose proof small149 as T. set (w := fval (o_pow o x y)) in * . set (P := Rpower (fval x) k) in * . set (P' := Rpower (fval x) (fval y)) in * .
  assert (PP : 0 < P) by apply Rp_pos.
  replace (w - P) with ((w - P') + (P' - P)) by ring. apply Rle_trans with (1 := Rabs_triang _ _).
  assert (P' <= P * (1 + 298 * u)) by (apply Rabs_le_inv in S; lra). num.
Qed.
Lemma pow_zero x y : unitf x -> fin y -> 0 < fval y <= 4 -> fval x = 0 -> near (o_pow o x y) 0 0.
Proof.
  intros [Fx Bx] Fy Hy Z0. destruct (AP x y Fx Fy) as [F [E _]]; [unfold fval in *; lra|unfold fval in *; lra|].
  split; [exact F|]. change (fval (o_pow o x y)) with (B2R (o_pow o x y)). rewrite (E Z0). rewrite Rminus_0_r, Rabs_R0. lra.
Qed.

Local Notation c01 := (@c01 f32 (F32 o)).
Definition step : R := 48 / 25500.
Lemma step_pow : 16 * u <= Rpower step (97 / 44).
Proof.
  assert (P : 0 < step) by (unfold step; lra). assert (P16 : 0 < 16 * u) by (unfold u; lra).
  assert (H : (16 * u) ^ 44 <= step ^ 97).
  { unfold step, u. replace (16 * / 16777216) with (/ 1048576) by lra. unfold Rdiv. rewrite Rpow_mult_distr, !Rfunctions.pow_inv.
    assert (K : (25500 ^ Z.of_nat 97 <= 48 ^ Z.of_nat 97 * 1048576 ^ Z.of_nat 44)%Z) by (vm_compute; discriminate).
    apply IZR_le in K. rewrite mult_IZR in K. rewrite <- !pow_IZR in K.
    assert (A : 0 < 1048576 ^ 44) by (apply pow_lt; lra). assert (B : 0 < 25500 ^ 97) by (apply pow_lt; lra).
    apply (Rmult_le_reg_r (1048576 ^ 44)); [exact A|]. rewrite Rinv_l by lra.
    apply (Rmult_le_reg_r (25500 ^ 97)); [exact B|]. rewrite Rmult_1_l.
    replace (48 ^ 97 * / 25500 ^ 97 * 1048576 ^ 44 * 25500 ^ 97) with (48 ^ 97 * 1048576 ^ 44) by (field; lra). exact K. }
  rewrite <- (Rpower_pow 44) in H by exact P16. rewrite <- (Rpower_pow 97) in H by exact P.
  replace (INR 44) with 44 in H by (rewrite INR_IZR_INZ; reflexivity). replace (INR 97) with 97 in H by (rewrite INR_IZR_INZ; reflexivity).
  replace (Rpower step 97) with (Rpower (Rpower step (97 / 44)) 44) in H by (rewrite Rpower_mult; f_equal; lra).
  pose proof (root_le (Rpower (16 * u) 44) (Rpower step (97 / 44)) 44 (Rp_pos _ _) (Rp_pos _ _) ltac:(lra) H) as K.
  rewrite Rp_inv in K by lra. exact K.
Qed.

(** ** A power curve forth and back: [v] a byte, [l] its linear value, [L] a value near it *)
Section Curve.
Variables (ef kf : f32).
Let e := fval ef.
Hypotheses (Fe : fin ef) (Fk : fin kf) (Be : 3 / 2 <= e <= 97 / 44) (Bk : Rabs (fval kf - / e) <= u).

Lemma k_bounds : 0 < / e <= 1 /\ 0 < fval kf <= 4.
Proof.
  assert (A : 0 < / e) by (apply Rinv_0_lt_compat; lra). assert (B : / e <= / 1) by (apply Rinv_le_contravar; lra). rewrite Rinv_1 in B.
  assert (C : / (97 / 44) <= / e) by (apply Rinv_le_contravar; lra). replace (/ (97 / 44)) with (44 / 97) in C by (field; lra).
  apply Rabs_le_inv in Bk. split; [lra|num].
Qed.
Lemma c01_near_unit x a d : near x a d -> 0 <= a <= 1 -> near (c01 x) a d.
Proof.
  intros N B. pose proof (Rle_trans _ _ _ (Rabs_pos _) (proj2 N)) as He. pose proof (near_c01 o x a d N He) as K.
  replace (Rmax (Rmin a 1) 0) with a in K by (rewrite Rmin_left, Rmax_left; lra). exact K.
Qed.
Lemma power_there v : unitf v -> 0 < fval v -> near (c01 (o_pow o v ef)) (Rpower (fval v) e) (316 * u * Rpower (fval v) e + tiny).
Proof.
  intros Uv Pv. destruct Uv as [Fv Bv]. apply c01_near_unit.
  - apply pow_near; auto; [split; assumption|fold e; lra|fold e; lra|]. fold e. rewrite Rminus_diag_eq by reflexivity. rewrite Rabs_R0. unfold u. lra.
  - split; [left; apply Rp_pos|]. apply Rp_le1; lra.
Qed.
Lemma power_there0 v : unitf v -> fval v = 0 -> near (c01 (o_pow o v ef)) 0 0.
Proof. intros Uv Z0. apply c01_near_unit; [apply pow_zero; auto; fold e; lra|lra]. Qed.
Lemma power_back L v : unitf L -> 0 <= v -> v - step <= Rpower (fval L) (/ e) <= v + step -> v <= 1 -> 0 < fval L ->
  near (o_pow o L kf) v (step + 320 * u).
Proof.
  intros UL Hv B V1 P. destruct k_bounds as [K1 K2]. destruct (pow_near L kf (/ e) UL Fk ltac:(lra) ltac:(lra) Bk P) as [F E].
  split; [exact F|]. assert (R1 : Rpower (fval L) (/ e) <= 1) by (apply Rp_le1; [destruct UL; lra|lra]).
  set (r := Rpower (fval L) (/ e)) in * . replace (fval (o_pow o L kf) - v) with ((fval (o_pow o L kf) - r) + (r - v)) by ring.
  apply Rle_trans with (1 := Rabs_triang _ _). assert (Rabs (r - v) <= step) by (apply Rabs_le; lra). num.
Qed.
Lemma power_keeps v L d : unitf v -> (fval v = 0 \/ / 256 <= fval v) -> unitf L -> near L (fval (c01 (o_pow o v ef))) d ->
  chan_err (26 * u) (16 * u) (c01 (o_pow o v ef)) d -> near (o_pow o L kf) (fval v) (step + 320 * u).
Proof.
  intros Uv Cv UL [_ NL] [D1 D2]. destruct Uv as [Fv Bv]. destruct UL as [FL BL]. destruct k_bounds as [K1 K2].
  assert (S0 : 0 < step) by (unfold step; lra). assert (S1 : step <= / 500) by (unfold step; lra).
  destruct Cv as [Z0|Pv].
  - destruct (power_there0 v (conj Fv Bv) Z0) as [_ E0]. set (l := fval (c01 (o_pow o v ef))) in * . rewrite Rminus_0_r in E0.
    assert (l = 0) by (apply Rabs_le_inv in E0; lra). rewrite Z0. specialize (D2 H). rewrite H, Rminus_0_r in NL.
    rewrite Rabs_pos_eq in NL by lra. destruct (Req_dec (fval L) 0) as [E|E].
    + apply (near_weaken _ _ 0); [apply pow_zero; auto; split; assumption|]. num.
    + apply power_back; [split; assumption|lra| |lra|lra]. split; [pose proof (Rp_pos (fval L) (/ e)); lra|].
      rewrite Rplus_0_l. apply root_le; try lra. apply Rle_trans with (16 * u); [lra|].
      apply Rle_trans with (1 := step_pow). apply Rp_le_exp; lra.
  - destruct (power_there v (conj Fv Bv) ltac:(lra)) as [_ E0]. set (l := fval (c01 (o_pow o v ef))) in * . set (x := fval v) in * .
    assert (V10 : / 1024 <= Rpower x (e - 1)).
    { apply Rle_trans with (Rpower x (5 / 4)); [|apply Rp_le_exp; lra].
      apply Rle_trans with (Rpower (/ 256) (5 / 4)); [|apply Rp_le_base; lra].
      right. replace (/ 256) with (Rpower (/ 1024) (/ (5 / 4))); [rewrite Rp_inv'; lra|].
      replace (/ (5 / 4)) with (4 / 5) by lra. replace (/ 1024) with (Rpower (/ 4) 5).
      - rewrite Rpower_mult. replace (5 * (4 / 5)) with (INR 4) by (cbn; lra). rewrite Rpower_pow; lra.
      - replace 5 with (INR 5) by (cbn; lra). rewrite Rpower_pow; lra. }
    set (V := Rpower x (e - 1)) in * .
    assert (XV : Rpower x e <= V). { unfold V. apply Rp_le_exp; lra. }
    assert (DL : Rabs (fval L - Rpower x e) <= V * step).
    { replace (fval L - Rpower x e) with ((fval L - l) + (l - Rpower x e)) by ring. apply Rle_trans with (1 := Rabs_triang _ _).
      apply Rle_trans with (26 * u + (316 * u * V + tiny)); [|unfold step in *; num].
      apply Rplus_le_compat; [lra|]. apply Rle_trans with (1 := E0). apply Rplus_le_compat_r. apply Rmult_le_compat_l; [num|exact XV]. }
    pose proof (Rp_step (x - step) x e ltac:(lra) ltac:(lra)) as Lo. pose proof (Rp_step x (x + step) e ltac:(lra) ltac:(lra)) as Hi.
    fold V in Lo. replace (x - (x - step)) with step in Lo by ring. replace (x + step - x) with step in Hi by ring.
    assert (HV : V <= Rpower (x + step) (e - 1)) by (apply Rp_le_base; lra).
    assert (V * step <= Rpower (x + step) (e - 1) * step) by (apply Rmult_le_compat_r; lra).
    apply Rabs_le_inv in DL. pose proof (Rp_pos (x - step) e).
    assert (PL : 0 < fval L) by lra.
    apply power_back; [split; assumption|unfold x in *; lra| |unfold x in *; lra|exact PL].
    split; [apply root_ge; unfold x in *; lra|apply root_le; unfold x in *; lra].
Qed.
End Curve.
End Pow.
