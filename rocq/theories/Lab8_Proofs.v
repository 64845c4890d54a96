(** * The Lab helper functions forth and back in binary32 (C158) *)
From Coq Require Import ZArith QArith Qreals Qabs Reals Lra Lia Psatz List Bool.
From Flocq Require Import Core IEEE754.BinarySingleNaN.
From Verif Require Import Arith Outcome ColorModel GammaModel MatrixModel SpaceModel Heap Converter F32 F32Facts Spec Spec32 Laws NormalForms
  Core_Proofs Core2_Proofs Core3_Proofs Core4_Proofs Spec_Error Error_Proofs Error2_Proofs Error3_Proofs Error4_Proofs Linear_Proofs Linear2_Proofs Pow_Proofs Curve_Proofs.
Import ListNotations.
Local Open Scope R_scope.
Local Notation fin x := (is_finite x = true).

(** ** The real function *)
Definition e0 : R := 216 / 24389.
Definition k0 : R := 24389 / 27.
Definition fl (t : R) : R := if Rle_dec t e0 then (k0 * t + 16) / 116 else Rpower t (/ 3).

Lemma root3 t : 0 < t -> 0 < Rpower t (/ 3) /\ Rpower t (/ 3) * Rpower t (/ 3) * Rpower t (/ 3) = t.
Proof.
  intros P. split; [apply Rp_pos|]. rewrite <- !Rpower_plus. replace (/ 3 + / 3 + / 3) with 1 by field. apply Rp_1, P.
Qed.
Lemma cube_le a b : 0 <= a -> 0 <= b -> a * a * a <= b * b * b -> a <= b.
Proof.
  intros A B H. destruct (Rle_lt_dec a b) as [K|K]; [exact K|exfalso].
  assert (b * b <= a * a) by (apply Rmult_le_compat; lra).
  assert (b * b * b <= a * a * b) by (apply Rmult_le_compat_r; lra).
  assert (0 < a * a * (a - b)) by (apply Rmult_lt_0_compat; nra). lra.
Qed.
(** what [fl] is, without powers *)
Lemma fl_cases t : 0 <= t -> (t <= e0 /\ fl t = (k0 * t + 16) / 116) \/ (e0 < t /\ 0 < fl t /\ fl t * fl t * fl t = t).
Proof.
  intros H. unfold fl. destruct (Rle_dec t e0) as [L|L]; [left; auto|right]. assert (P : 0 < t) by (unfold e0 in L; lra).
  destruct (root3 t P). repeat split; lra.
Qed.
Lemma fl_bounds t : 0 <= t <= 1 + 40 * u -> 4 / 29 <= fl t <= 1 + 14 * u.
Proof.
  intros H. destruct (fl_cases t ltac:(lra)) as [[L E]|[L [P E]]].
  - rewrite E. unfold k0, e0 in *. num.
  - split.
    + apply cube_le; [lra|lra|]. rewrite E. unfold e0 in L. lra.
    + apply cube_le; [lra|num|]. rewrite E. num.
Qed.
(** the tangent lies above *)
Lemma fl_above t : 0 <= t -> t <= fl t * fl t * fl t.
Proof.
  intros H. destruct (fl_cases t H) as [[L E]|[L [P E]]]; [|lra]. rewrite E. unfold k0, e0 in *.
  set (g := (24389 / 27 * t + 16) / 116). assert (T : t = (116 * g - 16) * 27 / 24389) by (unfold g; field).
  assert (G : 4 / 29 <= g <= 6 / 29) by (unfold g; lra). rewrite T.
  assert (K : g * g * g - (116 * g - 16) * 27 / 24389 = (g - 6 / 29) * (g - 6 / 29) * (g + 12 / 29)) by field.
  assert (0 <= (g - 6 / 29) * (g - 6 / 29) * (g + 12 / 29)) by (apply Rmult_le_pos; [nra|lra]). lra.
Qed.
(** differences of the function *)
Lemma fl_diff x y D : 0 <= x <= 1 + 40 * u -> 0 <= y -> 1 / 10 <= D -> (forall c, 0 < c -> y <= c * c * c -> 4 / 29 <= c -> x <= (c + D) * (c + D) * (c + D)) -> fl x - fl y <= D.
Proof.
  intros Hx Hy HD H. assert (B : 4 / 29 <= fl y).
  { destruct (fl_cases y Hy) as [[L E]|[L [P E]]]; [rewrite E; unfold k0; lra|]. apply cube_le; [lra|lra|]. rewrite E. unfold e0 in L. lra. }
  destruct (fl_cases x (proj1 Hx)) as [[L E]|[L [P E]]]; [rewrite E; unfold k0, e0 in *; lra|].
  assert (fl x <= fl y + D); [|lra]. apply cube_le; [lra|lra|]. rewrite E. apply H; [lra|apply fl_above, Hy|exact B].
Qed.

Section Lab.
Context (o : oracle) (AP : accurate_pow o).
Local Notation "x +. y" := (@fadd f32 (F32 o) x y) (at level 50, left associativity).
Local Notation "x -. y" := (@fsub f32 (F32 o) x y) (at level 50, left associativity).
Local Notation "x *. y" := (@fmul f32 (F32 o) x y) (at level 40, left associativity).
Local Notation "x /. y" := (@fdiv f32 (F32 o) x y) (at level 40, left associativity).
Local Notation "$ n" := (@fz f32 (F32 o) n) (at level 0).
Local Notation eps := (@lab_epsilon f32 (F32 o)).
Local Notation kap := (@lab_kappa f32 (F32 o)).

Lemma eps_val : fin eps /\ 88564516 / 10000000000 <= fval eps <= 88564528 / 10000000000.
Proof.
  destruct (within_R (88564516 # 10000000000) eps (88564528 # 10000000000) ltac:(vm_compute; reflexivity)) as [A B].
  unfold Q2R in B. cbn [Qnum Qden] in B. split; [exact A|lra].
Qed.
Lemma kap_val : fin kap /\ 90329630 / 100000 <= fval kap <= 90329633 / 100000.
Proof.
  destruct (within_R (90329630 # 100000) kap (90329633 # 100000) ltac:(vm_compute; reflexivity)) as [A B].
  unfold Q2R in B. cbn [Qnum Qden] in B. split; [exact A|lra].
Qed.
Lemma third_val : fin ($1 /. $3) /\ 0 <= fval ($1 /. $3) - / 3 <= u / 5.
Proof.
  destruct (within_R (33333334 # 100000000) ($1 /. $3) (3333333435 # 10000000000) ltac:(vm_compute; reflexivity)) as [A B].
  unfold Q2R in B. cbn [Qnum Qden] in B. split; [exact A|]. num.
Qed.
Lemma ltb_cases x y : fin x -> fin y -> (Bltb x y = true /\ fval x < fval y) \/ (Bltb x y = false /\ fval y <= fval x).
Proof. intros Fx Fy. rewrite Bltb_fin by assumption. destruct (Rlt_bool_spec (fval x) (fval y)); [left|right]; auto. Qed.

(** powf(x, 3) *)
Lemma pow3 x : fin x -> 0 < fval x <= 2 -> near (o_pow o x $3) (fval x * fval x * fval x) (16 * u * (fval x * fval x * fval x) + tiny).
Proof.
  intros Fx B. destruct (fz_val o 3) as [F3 V3]; [sm|]. destruct (AP x $3 Fx F3) as [F [_ E]]; [unfold fval in *; lra|unfold fval in *; lra|].
  specialize (E (proj1 B)). change (@B2R 24 128) with fval in E. rewrite V3 in E. replace 3 with (INR 3) in E by (simpl; lra). rewrite Rpower_pow in E by lra.
  replace (fval x ^ 3) with (fval x * fval x * fval x) in E by ring. pose proof small149. split; [exact F|]. num.
Qed.
(** powf(t, 1/3) *)
Lemma cbrt t : fin t -> 88 / 10000 <= fval t <= 1 + 40 * u -> near (o_pow o t ($1 /. $3)) (Rpower (fval t) (/ 3)) (20 * u).
Proof.
  intros Ft B. destruct third_val as [F3 V3]. destruct (AP t ($1 /. $3) Ft F3) as [F [_ E]]; [unfold fval in *; num|unfold fval in *; num|].
  change (@B2R 24 128) with fval in E. specialize (E ltac:(lra)). pose proof small149 as T149. split; [exact F|].
  destruct (root3 (fval t) ltac:(lra)) as [P C]. set (c := Rpower (fval t) (/ 3)) in * .
  assert (C0 : 2 / 10 <= c) by (apply cube_le; lra). assert (C1 : c <= 1 + 14 * u) by (apply cube_le; [lra|num|rewrite C; num]).
  set (k := fval ($1 /. $3)) in * .
  assert (K : Rpower (fval t) k = c * exp ((k - / 3) * ln (fval t))) by (unfold c, Rpower; rewrite <- exp_plus; f_equal; ring).
  set (z := (k - / 3) * ln (fval t)) in * .
  assert (LN : -12 <= ln (fval t) <= 40 * u).
  { split.
    - rewrite <- C. rewrite !ln_mult by nra. pose proof (exp_ineq1_le (- ln c)) as H. rewrite exp_Ropp, exp_ln in H by exact P.
      assert (/ c <= 5); [|lra]. rewrite <- (Rinv_inv 5). apply Rinv_le_contravar; lra.
    - pose proof (exp_ineq1_le (ln (fval t))) as H. rewrite exp_ln in H by lra. lra. }
  assert (Z : - (12 / 5 * u) <= z <= u).
  { unfold z. set (q := k - / 3) in * . set (n := ln (fval t)) in * . split.
    - assert (0 <= (u / 5 - q) * 12) by (apply Rmult_le_pos; lra). assert (0 <= q * (n + 12)) by (apply Rmult_le_pos; lra). lra.
    - assert (0 <= q * (40 * u - n)) by (apply Rmult_le_pos; lra). assert (0 <= (u / 5 - q) * (40 * u)) by (apply Rmult_le_pos; num). num. }
  assert (EZ : 1 - 12 / 5 * u <= exp z <= 1 + 2 * u).
  { split; [pose proof (exp_ineq1_le z); lra|]. pose proof (exp_ineq1_le (- z)) as H. pose proof (exp_pos z).
    assert (Q : exp z * exp (- z) = 1) by (rewrite <- exp_plus, Rplus_opp_r, exp_0; reflexivity).
    assert (exp z * (1 - u) <= 1). { rewrite <- Q. apply Rmult_le_compat_l; lra. } unfold u in * ; nra. }
  rewrite K in E. set (w := fval (o_pow o t ($1 /. $3))) in * . set (X := exp z) in * .
  assert (CX : c - 3 * u <= c * X <= c + 3 * u) by (unfold u in *; nra).
  set (cX := c * X) in * . apply Rabs_le_inv in E. apply Rabs_le. num.
Qed.

(** ** The two pieces near the border *)
Lemma fl_low t : 0 <= t <= e0 -> fl t <= 6 / 29.
Proof. intros H. destruct (fl_cases t ltac:(lra)) as [[L E]|[L _]]; [|lra]. rewrite E. unfold k0, e0 in * . lra. Qed.
Lemma fl_high t : e0 <= t -> 6 / 29 <= fl t.
Proof.
  intros H. unfold e0 in H. destruct (fl_cases t ltac:(lra)) as [[L E]|[L [P E]]].
  - rewrite E. unfold k0, e0 in * . lra.
  - apply cube_le; [lra|lra|]. rewrite E. unfold e0 in L. lra.
Qed.
Lemma fl_both t : 0 <= t -> Rabs (fl t - 6 / 29) <= 300 * u ->
  Rabs (fl t * fl t * fl t - t) <= u / 100 /\ Rabs ((116 * fl t - 16) / k0 - t) <= u / 100.
Proof.
  intros H D. apply Rabs_le_inv in D. set (g := fl t) in * .
  assert (K : g * g * g - (116 * g - 16) / k0 = (g - 6 / 29) * (g - 6 / 29) * (g + 12 / 29)) by (unfold k0; field).
  assert (S0 : 0 <= (g - 6 / 29) * (g - 6 / 29) <= 90000 * (u * u)) .
  { split; [apply Rle_0_sqr|]. clear - D. set (d := g - 6 / 29) in * . assert (0 <= (300 * u - d) * (300 * u + d)) by (apply Rmult_le_pos; lra). lra. }
  assert (M : 0 <= (g - 6 / 29) * (g - 6 / 29) * (g + 12 / 29) <= u / 100).
  { assert (G : 0 <= g + 12 / 29 <= 7 / 10) by num. set (s := (g - 6 / 29) * (g - 6 / 29)) in * . split; [apply Rmult_le_pos; lra|].
    apply Rle_trans with (s * (7 / 10)); [apply Rmult_le_compat_l; lra|]. num. }
  destruct (fl_cases t H) as [[L E]|[L [P E]]]; fold g in E.
  - assert (T : (116 * g - 16) / k0 = t) by (rewrite E; unfold k0; field). rewrite T in * . split; apply Rabs_le; num.
  - split; apply Rabs_le; [rewrite E; num|]. fold g in P. rewrite E in K. lra.
Qed.

(** ** Forward *)
Lemma helper_forth t : fin t -> 0 <= fval t <= 1 + 40 * u -> near (@xyz_to_lab_helper f32 (F32 o) t) (fl (fval t)) (21 * u).
Proof.
  intros Ft B. destruct eps_val as [Fe Ve]. destruct kap_val as [Fk Vk]. unfold xyz_to_lab_helper. cbn [flt F32].
  set (tt := fval t) in * . destruct (ltb_cases eps t Fe Ft) as [[-> C]|[-> C]].
  - fold tt in C. assert (C' : 88 / 10000 <= tt) by lra. pose proof (cbrt t Ft ltac:(fold tt; lra)) as N. fold tt in N.
    replace (21 * u) with (20 * u + u) by ring. eapply near_move; [exact N|].
    destruct (fl_cases tt ltac:(lra)) as [[L E]|[L _]].
    2:{ unfold fl. destruct (Rle_dec tt e0); [lra|]. rewrite (Rminus_diag_eq _ _ eq_refl), Rabs_R0. num. }
    assert (NB : Rabs (fl tt - 6 / 29) <= 300 * u) by (rewrite E; unfold k0, e0 in *; apply Rabs_le; num).
    destruct (fl_both tt ltac:(lra) NB) as [Q _]. destruct (root3 tt ltac:(lra)) as [P R3]. pose proof (fl_above tt ltac:(lra)) as AB.
    set (c := Rpower tt (/ 3)) in * . set (g := fl tt) in * . apply Rabs_le_inv in Q. apply Rabs_le_inv in NB.
    assert (G : 2 / 10 <= g) by num. assert (C1 : c <= g) by (apply cube_le; lra). assert (C2 : 2 / 10 <= c) by (apply cube_le; lra).
    assert (g <= c + u). { apply cube_le; [lra|num|]. assert (c * c * c + 3 * (2 / 10 * (2 / 10)) * u <= (c + u) * (c + u) * (c + u)); [|lra].
      assert (4 / 100 <= c * c) by nra. assert (0 <= u * u * c) by (apply Rmult_le_pos; num). assert (0 <= u * u * u) by num.
      assert (4 / 100 * u <= c * c * u) by (apply Rmult_le_compat_r; num). nra. }
    apply Rabs_le. lra.
  - fold tt in C. assert (Nk : near kap k0 (4 / 100000)) by (split; [exact Fk|unfold k0; apply Rabs_le; lra]).
    pose proof (near_self t Ft) as Nt. fold tt in Nt. assert (T : 0 <= k0 * tt <= 8001 / 1000) by (unfold k0; lra).
    pose proof (near_mul o _ _ _ _ _ _ 904 (9 / 1000) 9 Nk Nt ltac:(unfold k0; apply Rabs_le; lra) ltac:(apply Rabs_le; lra) ltac:(apply Rabs_le; lra) ltac:(num)) as N1.
    pose proof (near_add o _ _ _ _ _ _ 25 N1 (near_fz o 16 ltac:(sm)) ltac:(apply Rabs_le; lra) ltac:(num)) as N2.
    pose proof (near_quot o _ _ _ 116 1 N2 ltac:(lia) ltac:(apply Rabs_le; lra) ltac:(num)) as N3.
    assert (N4 : near ((kap *. t +. $16) /. $116) ((k0 * tt + 16) / 116) (2 * u)) by (eapply near_weaken; [exact N3|num]).
    replace (21 * u) with (20 * u + u) by ring. eapply near_move; [eapply near_weaken; [exact N4|num]|].
    destruct (fl_cases tt ltac:(lra)) as [[L E]|[L [P E]]]; [rewrite E, (Rminus_diag_eq _ _ eq_refl), Rabs_R0; num|].
    assert (NB : Rabs (fl tt - 6 / 29) <= 300 * u).
    { pose proof (fl_high tt ltac:(lra)). assert (fl tt <= 6 / 29 + u); [|apply Rabs_le; num].
      apply cube_le; [lra|num|]. rewrite E. num. }
    destruct (fl_both tt ltac:(lra) NB) as [_ Q]. apply Rabs_le_inv in Q. apply Rabs_le. unfold k0 in * . lra.
Qed.

(** ** Back *)
Lemma cube_back g t e : near g (fl t) e -> 0 <= e <= 100 * u -> 0 <= t <= 1 + 40 * u -> (t <= e0 -> 6 / 29 - 200 * u <= fl t) ->
  near (o_pow o g $3) t (3 * e + 17 * u).
Proof.
  intros N He B HL. pose proof (fl_bounds t B) as FB. destruct N as [Fg Eg]. apply Rabs_le_inv in Eg. set (f := fl t) in * .
  assert (Q : Rabs (f * f * f - t) <= u / 100).
  { destruct (fl_cases t (proj1 B)) as [[L E]|[L [P E]]]; [|fold f in E; rewrite E, (Rminus_diag_eq _ _ eq_refl), Rabs_R0; num].
    apply fl_both; [lra|]. fold f. pose proof (fl_low t ltac:(lra)). fold f in H. apply Rabs_le. specialize (HL L). num. }
  set (y := fval g) in * . assert (Y : 13 / 100 <= y <= 1 + 114 * u) by num.
  assert (D : Rabs (y * y * y - f * f * f) <= 3 * e + u / 100).
  { replace (y * y * y - f * f * f) with ((y - f) * (y * y + y * f + f * f)) by ring. rewrite Rabs_mult.
    assert (S1 : Rabs (y * y + y * f + f * f) <= 3 + 800 * u).
    { apply Rabs_le. split; [nra|]. assert (y * y <= (1 + 114 * u) * (1 + 114 * u)) by (apply Rmult_le_compat; lra).
      assert (y * f <= (1 + 114 * u) * (1 + 14 * u)) by (apply Rmult_le_compat; lra). assert (f * f <= (1 + 14 * u) * (1 + 14 * u)) by (apply Rmult_le_compat; lra).
      clear - H H0 H1. set (a := y * y) in * . set (b := y * f) in * . set (c := f * f) in * . num. }
    assert (S2 : Rabs (y - f) <= e) by (apply Rabs_le; lra).
    apply Rle_trans with (e * (3 + 800 * u)); [apply Rmult_le_compat; try apply Rabs_pos; assumption|].
    assert (e * u <= 100 * u * u) by (apply Rmult_le_compat_r; num). unfold u in *; lra. }
  assert (C : 0 <= y * y * y <= 1 + 400 * u).
  { split; [apply Rmult_le_pos; nra|]. apply Rle_trans with ((1 + 114 * u) * (1 + 114 * u) * (1 + 114 * u)); [|num].
    apply Rmult_le_compat; try nra. }
  destruct (pow3 g Fg ltac:(fold y; num)) as [Fp Ep]. fold y in Ep. split; [exact Fp|]. set (w := fval (o_pow o g $3)) in * .
  set (c := y * y * y) in * . apply Rabs_le_inv in Ep, D, Q. assert (16 * u * c <= 16 * u * (1 + 400 * u)) by (apply Rmult_le_compat_l; num).
  apply Rabs_le. num.
Qed.
Lemma line_back x t e : near x (116 * fl t - 16) e -> 0 <= e <= 10000 * u -> 0 <= t <= 1 + 40 * u -> (e0 < t -> fl t <= 6 / 29 + 200 * u) ->
  near (x /. kap) t (e / 900 + u).
Proof.
  intros [Fx Ex] He B HL. destruct kap_val as [Fk Vk]. set (f := fl t) in * .
  assert (FT : 4 / 29 <= f <= 6 / 29 + 200 * u).
  { destruct (Rle_lt_dec t e0) as [L|L].
    - pose proof (fl_low t ltac:(lra)). pose proof (fl_bounds t B). fold f in H, H0. num.
    - pose proof (fl_bounds t B). specialize (HL L). fold f in H. lra. }
  assert (Q : Rabs ((116 * f - 16) / k0 - t) <= u / 100).
  { destruct (fl_cases t (proj1 B)) as [[L E]|[L [P E]]].
    - fold f in E. rewrite E. replace ((116 * ((k0 * t + 16) / 116) - 16) / k0 - t) with 0 by (unfold k0; field). rewrite Rabs_R0. num.
    - apply fl_both; [lra|]. fold f. pose proof (fl_high t ltac:(lra)). fold f in H. apply Rabs_le. num. }
  assert (V : Rabs (fval x / fval kap - t) <= e / 900 + u / 2).
  { apply Rabs_le_inv in Ex, Q. set (k := fval kap) in * . set (y := fval x) in * .
    assert (K1 : y = y / k * k) by (field; lra). set (z := y / k) in * .
    set (q := (116 * f - 16) / k0) in * . assert (Q1 : 116 * f - 16 = q * k0) by (unfold q, k0; field). rewrite Q1 in Ex.
    assert (QB : 0 <= q <= 9 / 1000) by (unfold q, k0; num).
    assert (ZB : Rabs (z - q) <= e / 900 + u / 5).
    { assert (T : (z - q) * k = (y - q * k0) + q * (k0 - k)) by (rewrite K1 at 1; ring).
      assert (T2 : Rabs (q * (k0 - k)) <= 7 * u). { rewrite Rabs_mult. apply Rle_trans with (9 / 1000 * (4 / 100000)); [|num].
        apply Rmult_le_compat; try apply Rabs_pos; apply Rabs_le; unfold k0; lra. }
      apply Rabs_le_inv in T2. assert (T3 : - (e + 7 * u) <= (z - q) * k <= e + 7 * u) by (rewrite T; lra).
      apply Rabs_le. split.
      - destruct (Rle_lt_dec (- (e / 900 + u / 5)) (z - q)) as [I|I]; [exact I|exfalso].
        assert (0 < (- (e / 900 + u / 5) - (z - q)) * k) by (apply Rmult_lt_0_compat; lra).
        assert (0 <= (k - 900) * (e / 900 + u / 5)) by (apply Rmult_le_pos; num). num.
      - destruct (Rle_lt_dec (z - q) (e / 900 + u / 5)) as [I|I]; [exact I|exfalso].
        assert (0 < ((z - q) - (e / 900 + u / 5)) * k) by (apply Rmult_lt_0_compat; lra).
        assert (0 <= (k - 900) * (e / 900 + u / 5)) by (apply Rmult_le_pos; num). num. }
    apply Rabs_le_inv in ZB. apply Rabs_le. num. }
  assert (NB : t <= 1 / 100) by (apply Rabs_le_inv in Q; unfold k0 in Q; num).
  pose proof (rnd_near _ _ _ (1 / 100) V ltac:(apply Rabs_le; lra)) as RN.
  destruct (Bdiv_ok x kap (-1) 1 Fx Fk) as [Fq Vq]; [lra|sm|sm|apply Rabs_le_inv in V; num|].
  split; [exact Fq|]. change (fval (x /. kap)) with (fval (Bdiv mode_NE x kap)). rewrite Vq. eapply Rle_trans; [exact RN|]. num.
Qed.

Lemma y_back l t : near l (116 * fl t - 16) (2700 * u) -> 0 <= t <= 1 + 40 * u -> near (@lab_to_xyz_helper f32 (F32 o) l true) t (96 * u).
Proof.
  intros N B. pose proof (fl_bounds t B) as FB. unfold lab_to_xyz_helper. cbn [flt F32].
  assert (EK : fin (eps *. kap) /\ 79999995 / 10000000 <= fval (eps *. kap) <= 80000015 / 10000000).
  { destruct (within_R (79999995 # 10000000) (eps *. kap) (80000015 # 10000000) ltac:(vm_compute; reflexivity)) as [Fa Ba].
    unfold Q2R in Ba. cbn [Qnum Qden] in Ba. split; [exact Fa|lra]. }
  destruct EK as [Fk Vk]. pose proof (near_range _ _ _ N) as RN.
  destruct (ltb_cases (eps *. kap) l Fk (proj1 N)) as [[-> C]|[-> C]].
  - assert (N1 : near ((l +. $16) /. $116) (fl t) (26 * u)).
    { pose proof (near_add o _ _ _ _ _ _ 117 N (near_fz o 16 ltac:(sm)) ltac:(apply Rabs_le; num) ltac:(num)) as N1.
      replace (116 * fl t - 16 + 16) with (116 * fl t) in N1 by ring.
      pose proof (near_quot o _ _ _ 116 (11 / 10) N1 ltac:(lia)) as N2. replace (116 * fl t / 116) with (fl t) in N2 by field.
      eapply near_weaken; [apply N2; [apply Rabs_le; num|num]|num]. }
    eapply near_weaken; [apply (cube_back _ _ _ N1 ltac:(num) B)|num]. intros _. num.
  - eapply near_weaken; [apply (line_back _ _ _ N ltac:(num) B)|num]. intros _. num.
Qed.
Lemma x_back f t : near f (fl t) (72 * u) -> 0 <= t <= 1 + 40 * u -> near (@lab_to_xyz_helper f32 (F32 o) f false) t (233 * u).
Proof.
  intros N B. pose proof (fl_bounds t B) as FB. unfold lab_to_xyz_helper. cbv zeta. cbn [flt fpow F32].
  destruct eps_val as [Fe Ve]. pose proof (near_range _ _ _ N) as RN.
  destruct (pow3 f (proj1 N) ltac:(num)) as [Fp Ep]. set (y := fval f) in * . apply Rabs_le_inv in Ep.
  assert (P2 : 0 <= y * y <= 1 + 200 * u). { split; [apply Rle_0_sqr|]. apply Rle_trans with ((1 + 90 * u) * (1 + 90 * u)); [apply Rmult_le_compat; num|num]. }
  assert (CB : 0 <= y * y * y <= 11 / 10). { split; [apply Rmult_le_pos; num|]. apply Rle_trans with ((1 + 200 * u) * (1 + 90 * u)); [apply Rmult_le_compat; num|num]. }
  destruct (ltb_cases eps (o_pow o f $3) Fe Fp) as [[-> C]|[-> C]].
  - eapply near_weaken; [apply (cube_back _ _ _ N ltac:(num) B)|num]. intros _.
    assert (6 / 29 - 100 * u <= y); [|lra]. apply cube_le; [num|num|]. set (c := y * y * y) in * . num.
  - assert (Y2 : y <= 6 / 29 + 100 * u). { apply cube_le; [num|num|]. set (c := y * y * y) in * . num. }
    pose proof (near_mul o _ _ _ _ _ _ 116 (3 / 10) 25 (near_fz o 116 ltac:(sm)) N ltac:(apply Rabs_le; lra) ltac:(apply Rabs_le; num) ltac:(apply Rabs_le; num) ltac:(num)) as N1.
    pose proof (near_sub o _ _ _ _ _ _ 9 N1 (near_fz o 16 ltac:(sm)) ltac:(apply Rabs_le; num) ltac:(num)) as N2.
    assert (N3 : near ($116 *. f -. $16) (116 * fl t - 16) (8400 * u)) by (eapply near_weaken; [exact N2|num]).
    eapply near_weaken; [apply (line_back _ _ _ N3 ltac:(num) B)|num]. intros _. num.
Qed.

(** Clamping *)
Lemma near_clamp x v e lo hi : near x v e -> (small lo) -> small hi -> (lo <= hi)%Z -> IZR lo - e <= v <= IZR hi + e -> near (@clamp f32 (F32 o) x $hi $lo) v e.
Proof.
  intros [Fx Ex] Sl Sh LH B. destruct (clamp_val o x lo hi) as [F V]; auto. split; [exact F|].
  change (fval (@clamp f32 (F32 o) x $hi $lo)) with (B2R (@clamp f32 (F32 o) x $hi $lo)). rewrite V. apply IZR_le in LH.
  apply Rabs_le_inv in Ex. apply Rabs_le. unfold Rmax, Rmin. destruct (Rle_dec (fval x) (IZR hi)), (Rle_dec _ (IZR lo)); lra.
Qed.

(** ** The whole conversion, on the quotients by the white point *)
Section Trip.
Variables (x y z : f32).
Hypothesis (Fx : fin x) (Fy : fin y) (Fz : fin z) (Bx : 0 <= fval x <= 1 + 40 * u) (By : 0 <= fval y <= 1 + 40 * u) (Bz : 0 <= fval z <= 1 + 40 * u).
Hypothesis (Cxy : fl (fval x) - fl (fval y) <= 2559 / 10000) (Cyx : fl (fval y) - fl (fval x) <= 2559 / 10000)
  (Cyz : fl (fval y) - fl (fval z) <= 6399 / 10000) (Czy : fl (fval z) - fl (fval y) <= 6399 / 10000).
Let fx := @xyz_to_lab_helper f32 (F32 o) x.
Let fy := @xyz_to_lab_helper f32 (F32 o) y.
Let fz_ := @xyz_to_lab_helper f32 (F32 o) z.
Let L := @clamp f32 (F32 o) ($116 *. fy -. $16) $100 $0.
Let A := @clamp f32 (F32 o) ($500 *. (fx -. fy)) $128 $(-128).
Let B := @clamp f32 (F32 o) ($200 *. (fy -. fz_)) $128 $(-128).
Let gy := (L +. $16) /. $116.

Lemma lab_trip : near (@lab_to_xyz_helper f32 (F32 o) (A /. $500 +. gy) false) (fval x) (233 * u) /\
  near (@lab_to_xyz_helper f32 (F32 o) L true) (fval y) (96 * u) /\ near (@lab_to_xyz_helper f32 (F32 o) (gy -. B /. $200) false) (fval z) (233 * u).
Proof.
  pose proof (helper_forth x Fx Bx) as NX. pose proof (helper_forth y Fy By) as NY. pose proof (helper_forth z Fz Bz) as NZ.
  pose proof (fl_bounds _ Bx) as RX. pose proof (fl_bounds _ By) as RY. pose proof (fl_bounds _ Bz) as RZ.
  fold fx in NX. fold fy in NY. fold fz_ in NZ. set (X := fl (fval x)) in * . set (Y := fl (fval y)) in * . set (V := fl (fval z)) in * .
  assert (NL : near L (116 * Y - 16) (2700 * u)).
  { pose proof (near_mul o _ _ _ _ _ _ 116 (11 / 10) 117 (near_fz o 116 ltac:(sm)) NY ltac:(apply Rabs_le; lra) ltac:(apply Rabs_le; num) ltac:(apply Rabs_le; num) ltac:(num)) as N1.
    pose proof (near_sub o _ _ _ _ _ _ 101 N1 (near_fz o 16 ltac:(sm)) ltac:(apply Rabs_le; num) ltac:(num)) as N2.
    apply near_clamp; [eapply near_weaken; [exact N2|num]|sm|sm|lia|num]. }
  assert (NA : near A (500 * (X - Y)) (21300 * u)).
  { pose proof (near_sub o _ _ _ _ _ _ (26 / 100) NX NY ltac:(apply Rabs_le; lra) ltac:(num)) as N1.
    pose proof (near_mul o _ _ _ _ _ _ 500 (26 / 100) 128 (near_fz o 500 ltac:(sm)) N1 ltac:(apply Rabs_le; lra) ltac:(apply Rabs_le; num) ltac:(apply Rabs_le; num) ltac:(num)) as N2.
    apply near_clamp; [eapply near_weaken; [exact N2|num]|sm|sm|lia|num]. }
  assert (NB : near B (200 * (Y - V)) (8700 * u)).
  { pose proof (near_sub o _ _ _ _ _ _ (64 / 100) NY NZ ltac:(apply Rabs_le; lra) ltac:(num)) as N1.
    pose proof (near_mul o _ _ _ _ _ _ 200 (64 / 100) 128 (near_fz o 200 ltac:(sm)) N1 ltac:(apply Rabs_le; lra) ltac:(apply Rabs_le; num) ltac:(apply Rabs_le; num) ltac:(num)) as N2.
    apply near_clamp; [eapply near_weaken; [exact N2|num]|sm|sm|lia|num]. }
  assert (NG : near gy Y (26 * u)).
  { pose proof (near_add o _ _ _ _ _ _ 117 NL (near_fz o 16 ltac:(sm)) ltac:(apply Rabs_le; num) ltac:(num)) as N1.
    replace (116 * Y - 16 + 16) with (116 * Y) in N1 by ring.
    pose proof (near_quot o _ _ _ 116 (11 / 10) N1 ltac:(lia)) as N2. replace (116 * Y / 116) with Y in N2 by field.
    eapply near_weaken; [apply N2; [apply Rabs_le; num|num]|num]. }
  split; [|split].
  - apply x_back; [|exact Bx]. fold X.
    pose proof (near_quot o _ _ _ 500 (26 / 100) NA ltac:(lia)) as N1. replace (500 * (X - Y) / 500) with (X - Y) in N1 by field.
    specialize (N1 ltac:(apply Rabs_le; num) ltac:(num)).
    pose proof (near_add o _ _ _ _ _ _ (11 / 10) N1 NG) as N2. replace (X - Y + Y) with X in N2 by ring.
    eapply near_weaken; [apply N2; [apply Rabs_le; num|num]|num].
  - apply y_back; [exact NL|exact By].
  - apply x_back; [|exact Bz]. fold V.
    pose proof (near_quot o _ _ _ 200 (64 / 100) NB ltac:(lia)) as N1. replace (200 * (Y - V) / 200) with (Y - V) in N1 by field.
    specialize (N1 ltac:(apply Rabs_le; num) ltac:(num)).
    pose proof (near_sub o _ _ _ _ _ _ (11 / 10) NG N1) as N2. replace (Y - (Y - V)) with V in N2 by ring.
    eapply near_weaken; [apply N2; [apply Rabs_le; num|num]|num].
Qed.
End Trip.
End Lab.

(** ** Differences between the coordinates of colours whose tristimulus values are not far apart *)
Lemma fl_diffs x y z : 0 <= x <= 1 + 40 * u -> 0 <= y <= 1 + 40 * u -> 0 <= z <= 1 + 40 * u ->
  x <= 264 / 100 * y + 100 * u -> x <= 527 / 1000 * y + 4745 / 10000 -> y <= 191 / 100 * x + 100 * u -> y <= 121 / 10 * z + 100 * u -> z <= 121 / 10 * y + 100 * u ->
  fl x - fl y <= 2559 / 10000 /\ fl y - fl x <= 2559 / 10000 /\ fl y - fl z <= 6399 / 10000 /\ fl z - fl y <= 6399 / 10000.
Proof.
  intros Bx By Bz H1 H2 H3 H4 H5.
  assert (far : forall a b, 0 <= a <= 1 + 40 * u -> 0 <= b -> a <= 121 / 10 * b + 100 * u -> fl a - fl b <= 6399 / 10000).
  { intros a b Ba Bb H. apply fl_diff; [exact Ba|exact Bb|lra|]. intros c Pc Hc Lc. destruct (Rle_lt_dec c (37 / 100)) as [K|K].
    - assert (0 <= (37 / 100 - c) * (c * c)) by (apply Rmult_le_pos; [lra|apply Rle_0_sqr]). assert (0 <= (37 / 100 - c) * c) by (apply Rmult_le_pos; lra). num.
    - apply Rle_trans with ((37 / 100 + 6399 / 10000) * (37 / 100 + 6399 / 10000) * (37 / 100 + 6399 / 10000)); [num|].
      apply Rmult_le_compat; [lra|lra|apply Rmult_le_compat; lra|lra]. }
  repeat split; [| |apply far; lra|apply far; lra].
  - apply fl_diff; [exact Bx|lra|lra|]. intros c Pc Hc Lc. assert (S2 : 0 <= c * c) by apply Rle_0_sqr.
    destruct (Rle_lt_dec c (585 / 1000)) as [K|K].
    + assert (0 <= (585 / 1000 - c) * (c * c)) by (apply Rmult_le_pos; lra). assert (0 <= (585 / 1000 - c) * c) by (apply Rmult_le_pos; lra). num.
    + apply Rle_trans with (527 / 1000 * (c * c * c) + 4745 / 10000); [lra|].
      assert (585 / 1000 * (585 / 1000) <= c * c) by (apply Rmult_le_compat; lra).
      assert (585 / 1000 * (585 / 1000) * (585 / 1000) <= c * c * c) by (apply Rmult_le_compat; lra). lra.
  - apply fl_diff; [exact By|lra|lra|]. intros c Pc Hc Lc. assert (S2 : 0 <= c * c) by apply Rle_0_sqr.
    destruct (Rle_lt_dec c 1) as [K|K].
    + assert (0 <= (1 - c) * (c * c)) by (apply Rmult_le_pos; lra). assert (0 <= (1 - c) * c) by (apply Rmult_le_pos; lra). num.
    + assert (1 <= c * c) by nra. assert (1 * 1 <= c * c * c) by (replace 1 with (1 * 1) by ring; apply Rmult_le_compat; lra). num.
Qed.
