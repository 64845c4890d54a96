(** * Pure red in CIE RGB becomes black on the way through XYZ (C155) *)
From Coq Require Import ZArith QArith Qreals Qabs Qminmax Reals Lra Lia List Bool.
From Flocq Require Import Core IEEE754.BinarySingleNaN.
From Verif Require Import Arith Outcome ColorModel GammaModel MatrixModel SpaceModel Heap Converter F32 F32Facts RArith
  Spec Spec32 Laws NormalForms Alpha8 Core_Proofs Core2_Proofs Core3_Proofs Core4_Proofs Hue32 Spec_Matrix Spec_Conv Spec_Round
  Conv_Proofs Conv2_Proofs Run_Proofs HueR_Proofs Round_Proofs Round2_Proofs Spec_Error Error_Proofs Error2_Proofs Error3_Proofs Error4_Proofs
  Error7_Proofs Error8_Proofs Linear_Proofs Linear2_Proofs Pow_Proofs Curve_Proofs Xyz8_Proofs.
Import ListNotations.
Local Open Scope R_scope.
Local Notation fin x := (is_finite x = true).

Section Red.
Context (o : oracle) (AP : accurate_pow o).
Local Notation c01 := (@c01 f32 (F32 o)).
Local Notation c100 := (@c100 f32 (F32 o)).

Definition err_b (c w : Q * Q * Q) : Q := dot_b opsQ c (unit0 opsQ) (unit1 opsQ) (unit2 opsQ) (0, 0, 0)%Q w.
Definition small_row (c w : Q * Q * Q) (E : Q) : bool := let '(a, b, d) := c in
  le_b (err_b c w) E && le_b E 1 &&
  le_b (top opsQ (vscale opsQ a (unit0 opsQ)) w) 1000 && le_b (top opsQ (vscale opsQ b (unit1 opsQ)) w) 1000 && le_b (top opsQ (vscale opsQ d (unit2 opsQ)) w) 1000.
Lemma dot_units a l w E : fin3 a -> fin3 l -> small_row (q3 a) w E = true -> below (r3 l) (mapv w) ->
  near (dot3 o a l) (lin (r3 a) (r3 l)) (Q2R E).
Proof.
  destruct a as [[a b] c], l as [[x y] z]. intros [Fa [Fb Fc]] [Fx [Fy Fz]] H Bl. unfold small_row, err_b in H. cbn [q3] in H.
  rewrite !andb_true_iff in H. destruct H as [[[[H1 H2] H4] H5] H6]. apply le_bR in H1, H2, H4, H5, H6.
  rewrite dot_Q in H1. rewrite top_Q, vscale_Q in H4, H5, H6. rewrite f2Q_val in H4, H5, H6.
  change (f2Q a, f2Q b, f2Q c) with (q3 (a, b, c)) in * . rewrite q3_r3 in H1. cbn [r3] in H1.
  assert (Z0 : mapv (0, 0, 0)%Q = (0, 0, 0)) by (unfold mapv; rewrite Q2R_0'; reflexivity).
  assert (U0 : mapv (unit0 opsQ) = unit0 opsR) by (unfold mapv, unit0; cbn [opsQ o_0 o_1]; rewrite Q2R_0', Q2R_1'; reflexivity).
  assert (U1 : mapv (unit1 opsQ) = unit1 opsR) by (unfold mapv, unit1; cbn [opsQ o_0 o_1]; rewrite Q2R_0', Q2R_1'; reflexivity).
  assert (U2 : mapv (unit2 opsQ) = unit2 opsR) by (unfold mapv, unit2; cbn [opsQ o_0 o_1]; rewrite Q2R_0', Q2R_1'; reflexivity).
  rewrite Z0, U0, U1, U2 in * . replace (Q2R 1000) with 1000 in * by (unfold Q2R; cbn; lra). rewrite Q2R_1' in * .
  destruct (lin_units (r3 (x, y, z))) as [L0 [L1 L2]]. cbn [r3 fst snd] in L0, L1, L2.
  apply near_weaken with (2 := H1).
  replace (lin (r3 (a, b, c)) (r3 (x, y, z))) with (fval a * lin (unit0 opsR) (r3 (x, y, z)) + fval b * lin (unit1 opsR) (r3 (x, y, z)) + fval c * lin (unit2 opsR) (r3 (x, y, z))).
  - apply dot_near; auto; try lra; cbn [r3]; rewrite ?L0, ?L1, ?L2; apply near_self; assumption.
  - cbn [r3]. rewrite L0, L1, L2. reflexivity.
Qed.

(** what is checked of the two matrices *)
Definition fin3b (v : f32 * f32 * f32) : bool := let '(a, b, c) := v in is_finite a && is_finite b && is_finite c.
Definition w1 : Q * Q * Q := (1, 0, 0)%Q.
Definition w2 : Q * Q * Q := (0, 0, 1 # 20000000)%Q.
Definition E1 : Q := 1 # 1000000000.
Definition col0 (v : f32 * f32 * f32) : f32 := let '(a, _, _) := v in a.
Definition col2 (v : f32 * f32 * f32) : f32 := let '(_, _, a) := v in a.
Definition neg_row (v : f32 * f32 * f32) : bool := fin3b v && small_row (q3 v) w1 (1 # 1000) && le_b (f2Q (col0 v)) (- (1 # 10)).
Definition dead_row (v : f32 * f32 * f32) : bool := fin3b v && small_row (q3 v) w1 E1 && le_b (f2Q (col0 v)) (1 # 50000000).
Definition back_row (v : f32 * f32 * f32) : bool := fin3b v && small_row (q3 v) w2 E1 && le_b (f2Q (col2 v)) 12.
Definition red_dies (s : outcome (space_def f32)) : bool :=
  match s with
  | Ok s => match rows3 (s_matrix s), rows3 (s_inverse s) with
    | Some (A0, A1, A2), Some (B0, B1, B2) => neg_row A0 && neg_row A1 && dead_row A2 && back_row B0 && back_row B1 && back_row B2
    | _, _ => false end
  | _ => false end.
Lemma cie_checked addr : red_dies (@space_cieRGB f32 (F32 o) addr) = true.
Proof. vm_compute. reflexivity. Qed.

Lemma fin3b_ok v : fin3b v = true -> fin3 v.
Proof. destruct v as [[a b] c]. unfold fin3b, fin3. rewrite !andb_true_iff. tauto. Qed.
Lemma c100_val x lo hi : near x lo hi -> fin (c100 x) /\ fval (c100 x) = Rmax (Rmin (fval x) 100) 0.
Proof. intros [Fx _]. apply (clamp_val o x 0 100); try sm; auto; lia. Qed.
Lemma r_1000 : Q2R (1 # 1000) = 1 / 1000. Proof. unfold Q2R. cbn. lra. Qed.
Lemma r_E1 : Q2R E1 = 1 / 1000000000. Proof. unfold Q2R, E1. cbn. lra. Qed.
Section Vec.
Variables (l x0 x1 : f32).
Hypotheses (Fl : fin l) (Bl : 1 / 2 <= fval l <= 1) (F0 : fin x0) (V0 : fval x0 = 0) (F1 : fin x1) (V1 : fval x1 = 0).
Lemma in_w1 : below (r3 (l, x0, x1)) (mapv w1).
Proof. unfold below, r3, mapv, w1. rewrite V0, V1, Q2R_1', Q2R_0'. lra. Qed.
Lemma lin_w1 v : lin (r3 v) (r3 (l, x0, x1)) = fval (col0 v) * fval l.
Proof. destruct v as [[a b] c]. unfold lin, r3, col0. rewrite V0, V1. ring. Qed.
Lemma neg_zero v : neg_row v = true -> fin (c100 (dot3 o v (l, x0, x1))) /\ fval (c100 (dot3 o v (l, x0, x1))) = 0.
Proof.
  unfold neg_row. rewrite !andb_true_iff. intros [[H1 H2] H3]. apply le_bR in H3. rewrite f2Q_val in H3. unfold Q2R in H3; cbn [Qopp Qnum Qden Z.opp] in H3.
  pose proof (dot_units v (l, x0, x1) w1 _ (fin3b_ok v H1) (conj Fl (conj F0 F1)) H2 in_w1) as N. rewrite lin_w1, r_1000 in N.
  destruct (c100_val _ _ _ N) as [F V]. split; [exact F|]. rewrite V. destruct N as [_ N]. apply Rabs_le_inv in N.
  assert (fval (col0 v) * fval l <= - (1 / 10) * fval l) by (apply Rmult_le_compat_r; lra).
  rewrite Rmin_left, Rmax_right; lra.
Qed.
Lemma dead_small v : dead_row v = true -> fin (c100 (dot3 o v (l, x0, x1))) /\ 0 <= fval (c100 (dot3 o v (l, x0, x1))) <= 1 / 20000000.
Proof.
  unfold dead_row. rewrite !andb_true_iff. intros [[H1 H2] H3]. apply le_bR in H3. rewrite f2Q_val in H3. unfold Q2R in H3; cbn [Qnum Qden] in H3.
  pose proof (dot_units v (l, x0, x1) w1 _ (fin3b_ok v H1) (conj Fl (conj F0 F1)) H2 in_w1) as N. rewrite lin_w1, r_E1 in N.
  destruct (c100_val _ _ _ N) as [F V]. split; [exact F|]. rewrite V. destruct N as [_ N]. apply Rabs_le_inv in N.
  assert (fval (col0 v) * fval l <= (1 / 50000000) * fval l) by (apply Rmult_le_compat_r; lra).
  split; [apply Rmax_r|]. apply Rmax_lub; [|lra]. apply Rle_trans with (1 := Rmin_l _ _). lra.
Qed.
End Vec.
Lemma near_c01x' x v e : near x v e -> near (@c01x f32 (F32 o) x) (Rmax (Rmin v 1) 0) e.
Proof.
  intros N. pose proof (Rle_trans _ _ _ (Rabs_pos _) (proj2 N)) as He. set (c := Rmax (Rmin v 1) 0).
  assert (B : 0 <= c <= 1) by (unfold c; split; [apply Rmax_r|apply Rmax_lub; [apply Rmin_r|lra]]).
  assert (I : Rmax (Rmin c 1) 0 = c) by (rewrite Rmin_left, Rmax_left; lra).
  pose proof (near_c01 o x v e N He) as N1. fold c in N1. unfold c01x, clamp_float.
  pose proof (near_weaken _ _ _ e (near_fz o 0 ltac:(sm)) He) as Z0. pose proof (near_weaken _ _ _ e (near_fz o 1 ltac:(sm)) He) as Z1.
  pose proof (near_min o _ _ _ _ _ (near_max o _ _ _ _ _ N1 Z0) Z1) as N2. rewrite (Rmax_left c 0), (Rmin_left c 1) in N2 by lra.
  pose proof (near_c01 o _ c e N2 He) as N3. rewrite I in N3. exact N3.
Qed.
Lemma back_small v x0 x1 z : fin x0 -> fval x0 = 0 -> fin x1 -> fval x1 = 0 -> fin z -> 0 <= fval z <= 1 / 20000000 -> back_row v = true ->
  0 <= fval (@c01x f32 (F32 o) (dot3 o v (x0, x1, z))) <= 7 / 10000000.
Proof.
  intros F0 V0 F1 V1 Fz Bz. unfold back_row. rewrite !andb_true_iff. intros [[H1 H2] H3]. apply le_bR in H3. rewrite f2Q_val in H3. unfold Q2R in H3; cbn [Qnum Qden] in H3.
  assert (IW : below (r3 (x0, x1, z)) (mapv w2)).
  { unfold below, r3, mapv, w2. rewrite V0, V1, Q2R_0'. replace (Q2R (1 # 20000000)) with (1 / 20000000) by (unfold Q2R; cbn; lra). lra. }
  pose proof (dot_units v (x0, x1, z) w2 _ (fin3b_ok v H1) (conj F0 (conj F1 Fz)) H2 IW) as N. rewrite r_E1 in N.
  assert (LL : lin (r3 v) (r3 (x0, x1, z)) = fval (col2 v) * fval z) by (destruct v as [[a b] c]; unfold lin, r3, col2; rewrite V0, V1; ring). rewrite LL in N.
  split; [apply (c01x_unit o)|].
  assert (UP : fval (col2 v) * fval z <= 12 * fval z) by (apply Rmult_le_compat_r; lra).
  destruct (near_c01x' _ _ _ N) as [_ K]. apply Rabs_le_inv in K.
  assert (M : Rmax (Rmin (fval (col2 v) * fval z) 1) 0 <= 12 / 20000000) by (apply Rmax_lub; [apply Rle_trans with (1 := Rmin_l _ _)|]; lra). lra.
Qed.

(** the curve *)
Lemma root_small L : unitf L -> fval L <= 7 / 10000000 -> near (c01 (@gamma_correction f32 (F32 o) (@gamma2_2 f32 (F32 o)) L)) 0 (1 / 600).
Proof.
  intros UL B. unfold gamma2_2. rewrite (proj2 (power_run o _ L UL)).
  set (k := @fdiv f32 (F32 o) (lit32 1) (lit32 (22 # 10))).
  pose proof (within_R (7626007 # 16777216) k (7626008 # 16777216) ltac:(vm_compute; reflexivity)) as [Fk Bk]. unfold Q2R in Bk; cbn [Qnum Qden] in Bk.
  clearbody k. apply c01_near_unit; [|lra]. destruct UL as [FL BL]. destruct (Req_dec (fval L) 0) as [Z0|NZ].
  - apply near_weaken with 0; [|lra]. apply (pow_zero o AP L k (conj FL BL)); auto; lra.
  - destruct (pow_near o AP L k (5 / 11) (conj FL BL) Fk ltac:(lra) ltac:(lra)) as [F E]; [apply Rabs_le; num|lra|]. split; [exact F|].
    assert (P : Rpower (fval L) (5 / 11) <= 1 / 620).
    { replace (5 / 11) with (INR 5 / INR 11) by (simpl INR; lra). apply Rp_le_q; [lra|lra|lia|].
      apply Rle_trans with ((7 / 10000000) ^ 5); [apply pow_incr; lra|lra]. }
    pose proof (Rp_pos (fval L) (5 / 11)). apply Rabs_le_inv in E. rewrite Rminus_0_r. apply Rabs_le. num.
Qed.
Lemma root_byte L : unitf L -> fval L <= 7 / 10000000 -> is_value (to8 o (c01 (@gamma_correction f32 (F32 o) (@gamma2_2 f32 (F32 o)) L))) 0.
Proof.
  intros UL B. assert (N := root_small L UL B). replace 0 with (0 / 255) in N by lra.
  destruct (to_byte o _ 0 _ N ltac:(lra) ltac:(lra)) as [z [Bz [V E]]]. assert (z = 0%Z) as ->; [|exact V].
  assert (H : IZR z < 1) by (apply Rabs_le_inv in E; num). apply lt_IZR in H. lia.
Qed.
Lemma red_trip addr s x y z : Ok s = @space_cieRGB f32 (F32 o) addr -> unitf x -> fval x = 1 -> unitf y -> fval y = 0 -> unitf z -> fval z = 0 ->
  trip_to o s (@gamma2_2 f32 (F32 o)) x y z (fun v => is_value (to8 o v) 0) (fun v => is_value (to8 o v) 0) (fun v => is_value (to8 o v) 0).
Proof.
  intros I Ux Vx Uy Vy Uz Vz. pose proof (cie_checked addr) as C. rewrite <- I in C. unfold red_dies in C.
  destruct (rows3 (s_matrix s)) as [[[A0 A1] A2]|] eqn:EA; [|discriminate]. destruct (rows3 (s_inverse s)) as [[[B0 B1] B2]|] eqn:EB; [|discriminate].
  rewrite !andb_true_iff in C. destruct C as [[[[[C0 C1] C2] D0] D1] D2]. clear I.
  unfold gamma2_2 in * . unfold trip_to. rewrite (proj1 (power_run o _ x Ux)), (proj1 (power_run o _ y Uy)), (proj1 (power_run o _ z Uz)).
  pose proof (within_R (36909875 # 16777216) (lit32 (22 # 10)) (36909876 # 16777216) ltac:(vm_compute; reflexivity)) as [Fe Be]. unfold Q2R in Be; cbn [Qnum Qden] in Be.
  set (l := c01 (o_pow o x (lit32 (22 # 10)))). set (y0 := c01 (o_pow o y (lit32 (22 # 10)))). set (z0 := c01 (o_pow o z (lit32 (22 # 10)))).
  assert (Hl : fin l /\ 1 / 2 <= fval l <= 1).
  { destruct (c01_unit o (o_pow o x (lit32 (22 # 10)))) as [Fl Bl]. split; [exact Fl|]. split; [|apply Bl].
    destruct (c01_near_unit o (o_pow o x (lit32 (22 # 10))) _ _ (pow_near o AP x _ (22 / 10) Ux Fe ltac:(lra) ltac:(lra) ltac:(apply Rabs_le; num) ltac:(lra))) as [_ E].
    { rewrite Vx. unfold Rpower. rewrite ln_1, Rmult_0_r, exp_0. lra. }
    rewrite Vx in E. unfold Rpower in E. rewrite ln_1, Rmult_0_r, exp_0 in E. fold l in E. apply Rabs_le_inv in E. num. }
  assert (Hz : forall t, unitf t -> fval t = 0 -> fin (c01 (o_pow o t (lit32 (22 # 10)))) /\ fval (c01 (o_pow o t (lit32 (22 # 10)))) = 0).
  { intros t Ut Vt. destruct (c01_near_unit o _ _ _ (pow_zero o AP t _ Ut Fe ltac:(lra) Vt) ltac:(lra)) as [F E]. split; [exact F|]. rewrite Rminus_0_r in E. apply Rabs_le_inv in E. lra. }
  destruct (Hz y Uy Vy) as [F0 V0]. destruct (Hz z Uz Vz) as [F1 V1]. fold y0 in F0, V0. fold z0 in F1, V1. destruct Hl as [Fl Bl].
  destruct (neg_zero l y0 z0 Fl Bl F0 V0 F1 V1 A0 C0) as [G0 W0]. destruct (neg_zero l y0 z0 Fl Bl F0 V0 F1 V1 A1 C1) as [G1 W1]. destruct (dead_small l y0 z0 Fl Bl F0 V0 F1 V1 A2 C2) as [G2 W2].
  do 6 eexists. split; [apply (rows3_ok o _ _ _ _ _ _ _ EA)|]. split; [apply (rows3_ok o _ _ _ _ _ _ _ EB)|].
  split; [|split]; (apply root_byte; [apply c01x_unit|apply back_small; assumption]).
Qed.
End Red.

Lemma red_black : forall o (h : heap f32) p c i s addr a, accurate_pow o -> Ok s = @space_cieRGB f32 (F32 o) addr ->
  at_addr h p c -> @wf_color f32 (F32 o) RGB_TRUE c -> rgb_space c = Some i -> nth_error (spaces h) i = Some s ->
  is_byte a -> has_bytes 255 0 0 c -> is_value (@alpha f32 (F32 o) c) (IZR a) ->
  via (@to_xyz f32 (F32 o)) (@to_rgb_true f32 (F32 o)) h p (fun m d => ty m = XYZ /\ has_bytes 0 0 0 d).
Proof.
  intros o h p c i s addr a AP I Hp W Es Hs Ha HB Ca.
  assert (Gm : s_gamma s = Some (@gamma2_2 f32 (F32 o))) by (symmetry in I; exact (ctor_gamma o _ _ _ _ _ _ _ _ _ I)).
  assert (Q0 : q255 0 = 0) by (unfold q255; replace (0 / 255) with 0 by lra; apply rnd32_0).
  assert (Q1 : q255 255 = 1) by (unfold q255; replace (255 / 255) with (IZR 1) by lra; apply (rnd32_int 1); sm).
  set (P := fun v => is_value (to8 o v) 0).
  eapply via_mono; [apply (bytes_land o h p c i s _ Hp Es Hs Gm 255 0 0 a P P P W ltac:(red; lia) ltac:(red; lia) ltac:(red; lia) Ha HB Ca); intros; rewrite ?Q0, ?Q1 in *; apply (red_trip o AP addr); assumption|].
  intros m d [T1 [T2 [[x [y [z [Cd [Qx [Qy Qz]]]]]] _]]]. split; [exact T1|]. split; [exact T2|]. unfold comp_sat. rewrite Cd. cbn [nth_error].
  repeat split; eexists; (split; [reflexivity|assumption]).
Qed.
Lemma linear_example : forall o addr, exists s, In (Ok s) (@space_presets f32 (F32 o) addr) /\ Ok s <> @space_cieRGB f32 (F32 o) addr.
Proof.
  intros o addr. assert (N : red_dies (@space_sRGB f32 (F32 o) addr) = false) by (vm_compute; reflexivity). pose proof (cie_checked o addr) as C.
  destruct (presets_ok o addr (@space_sRGB f32 (F32 o) addr)) as [s E]; [unfold faithful_presets; cbn [In]; find|].
  exists s. rewrite <- E. split; [unfold space_presets; cbn [In]; find|]. intros E2. rewrite E2, C in N. discriminate N.
Qed.
