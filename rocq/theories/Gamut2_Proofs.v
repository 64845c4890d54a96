(** * Pure green of Adobe RGB through Lab: the numbers (C163) *)
From Coq Require Import ZArith QArith Qreals Qabs Reals Lra Lia List Bool.
From Flocq Require Import Core IEEE754.BinarySingleNaN.
From Verif Require Import Arith Outcome ColorModel GammaModel MatrixModel SpaceModel Heap Converter F32 F32Facts RArith
  Spec Spec32 Laws NormalForms Alpha8 Core_Proofs Core2_Proofs Core3_Proofs Core4_Proofs Hue32 Spec_Matrix Spec_Conv Spec_Round
  Conv_Proofs Conv2_Proofs Run_Proofs HueR_Proofs Round_Proofs Round2_Proofs Spec_Error Error_Proofs Error2_Proofs Error3_Proofs Error4_Proofs
  Error7_Proofs Error8_Proofs Linear_Proofs Linear2_Proofs Pow_Proofs Curve_Proofs Wide_Proofs Xyz8_Proofs PowRef_Proofs Lab8_Proofs Xyy8_Proofs Detour_Proofs Detour2_Proofs
  Gamut_Proofs.
From Verif Require CieRgb_Proofs.
Import ListNotations.
Local Open Scope R_scope.
Local Notation fin x := (is_finite x = true).

(** what is checked of the space: entries in units of 1/100000 *)
Definition adobe_ok (s : outcome (space_def f32)) : bool :=
  match s with
  | Ok s => match rows3 (s_matrix s), rows3 (s_inverse s), s_white s with
    | Some (A0, A1, A2), Some (B0, B1, B2), Some (_, w) =>
        in3 57665 18556 18817 A0 && in3 29733 62740 7527 A1 && in3 2703 7069 99107 A2 && in3 204163 (-56502) (-34474) B0 &&
        inq 95040 (tx w) && inq 100000 (ty_ w) && inq 108880 (tz w)
    | _, _, _ => false end
  | _ => false end.
Lemma adobe_checked o addr : adobe_ok (@space_adobeRGB f32 (F32 o) addr) = true.
Proof. vm_compute. reflexivity. Qed.

Section Green.
Context (o : oracle) (AP : accurate_pow o).
Local Notation "x +. y" := (@fadd f32 (F32 o) x y) (at level 50, left associativity).
Local Notation "x -. y" := (@fsub f32 (F32 o) x y) (at level 50, left associativity).
Local Notation "x *. y" := (@fmul f32 (F32 o) x y) (at level 40, left associativity).
Local Notation "x /. y" := (@fdiv f32 (F32 o) x y) (at level 40, left associativity).
Local Notation "$ n" := (@fz f32 (F32 o) n) (at level 0).
Local Notation c01 := (@c01 f32 (F32 o)).
Local Notation c01x := (@c01x f32 (F32 o)).
Local Notation c100 := (@c100 f32 (F32 o)).
Local Notation box := Gamut_Proofs.box.
Ltac sl := unfold slack; lra.

Lemma box_zero_mul (p q : f32) a b : box p a b -> box q 0 0 -> box (p *. q) 0 0.
Proof. intros [Fp _] [Fq Vq]. destruct (zero_mul o p q Fp Fq ltac:(lra)) as [F V]. split; [exact F|lra]. Qed.
Lemma dot_green a b c x g z lo hi : in3 a b c (x, g, z) = true -> (0 < b <= 100000)%Z -> forall l0 l1 l2, box l0 0 0 -> box l1 (999 / 1000) 1 -> box l2 0 0 ->
  lo <= IZR (b - 1) / 100000 * (999 / 1000) - 5 / 1000000 -> IZR (b + 1) / 100000 + 5 / 1000000 <= hi -> box (dot3 o (x, g, z) (l0, l1, l2)) lo hi.
Proof.
  unfold in3. rewrite !andb_true_iff. intros [[H1 H2] H3] Hb l0 l1 l2 L0 L1 L2 HL HH. apply box_inq in H1, H2, H3.
  pose proof (box_num o 0 ltac:(sm)) as Z0.
  assert (BB : 0 <= IZR (b - 1) / 100000 /\ IZR (b + 1) / 100000 <= 1001 / 1000).
  { assert (0 <= IZR (b - 1)) by (apply IZR_le; lia). assert (IZR (b + 1) <= 100001) by (apply IZR_le; lia). lra. }
  pose proof (box_zero_mul _ _ _ _ H1 L0) as P0. pose proof (box_zero_mul _ _ _ _ H3 L2) as P2.
  pose proof (box_mul o (1001/1000) _ _ _ _ _ _ H2 L1 ltac:(lra) ltac:(lra) ltac:(lra) ltac:(lra)) as P1.
  set (lb := IZR (b - 1) / 100000) in * . set (ub := IZR (b + 1) / 100000) in * . set (m := lb * (999 / 1000)) in * . assert (MB : 0 <= m) by (unfold m; lra).
  assert (ME : m <= ub) by (destruct H2; unfold m; lra). clearbody m.
  pose proof (box_add o 1 _ _ _ _ _ _ Z0 P0 ltac:(lra) ltac:(lra) ltac:(lra)) as S0.
  pose proof (box_add o (11/10) _ _ _ _ _ _ S0 P1 ltac:(lra) ltac:(sl) ltac:(sl)) as S1.
  pose proof (box_add o (11/10) _ _ _ _ _ _ S1 P2 ltac:(lra) ltac:(sl) ltac:(sl)) as S2.
  eapply box_weaken; [exact S2|sl|sl].
Qed.
Lemma clamp_low x a b : box x a b -> b <= -128 -> box (@clamp f32 (F32 o) x $128 $(-128)) (-128) (-128).
Proof.
  intros [Fx B] H. destruct (clamp_val o x (-128) 128 ltac:(sm) ltac:(sm) ltac:(lia) Fx) as [F V]. split; [exact F|].
  change (fval (@clamp f32 (F32 o) x $128 $(-128))) with (B2R (@clamp f32 (F32 o) x $128 $(-128))). rewrite V. change (@B2R 24 128 x) with (fval x). rewrite Rmin_left, Rmax_right; lra.
Qed.

Variables (gm : gamma f32) (w : white_point f32) (A0 A1 A2 B0 : f32 * f32 * f32) (x y z : f32).
Local Notation thr := (@inverse_gamma_correction f32 (F32 o) gm).
Hypothesis (R0 : in3 57665 18556 18817 A0 = true) (R1 : in3 29733 62740 7527 A1 = true) (R2 : in3 2703 7069 99107 A2 = true) (Q0 : in3 204163 (-56502) (-34474) B0 = true)
  (W0 : inq 95040 (tx w) = true) (W1 : inq 100000 (ty_ w) = true) (W2 : inq 108880 (tz w) = true).
Hypothesis (L0 : box (c01 (thr (c01 (x /. $255)))) 0 0) (L1 : box (c01 (thr (c01 (y /. $255)))) (999 / 1000) 1) (L2 : box (c01 (thr (c01 (z /. $255)))) 0 0).
Let l := (c01 (thr (c01 (x /. $255))), c01 (thr (c01 (y /. $255))), c01 (thr (c01 (z /. $255)))).
Let X := c100 (dot3 o A0 l).
Let Y := c100 (dot3 o A1 l).
Let V := c100 (dot3 o A2 l).
Lemma green_xyz : box X (18535 / 100000) (18558 / 100000) /\ box Y (62670 / 100000) (62745 / 100000) /\ box V (7060 / 100000) (7071 / 100000).
Proof.
  unfold X, Y, V, l. destruct A0 as [[a0 a1] a2], A1 as [[b0 b1] b2], A2 as [[d0 d1] d2].
  split; [|split]; (apply box_clamp; [eapply dot_green; [eassumption|lia|exact L0|exact L1|exact L2|rewrite minus_IZR; lra|rewrite plus_IZR; lra]|sm|sm|lia|lra|lra]).
Qed.
Let fx := @xyz_to_lab_helper f32 (F32 o) (X /. tx w).
Let fy := @xyz_to_lab_helper f32 (F32 o) (Y /. ty_ w).
Let fz_ := @xyz_to_lab_helper f32 (F32 o) (V /. tz w).
Lemma green_f : box fx (57980 / 100000) (58030 / 100000) /\ box fy (85570 / 100000) (85620 / 100000) /\ box fz_ (40160 / 100000) (40210 / 100000).
Proof.
  destruct green_xyz as [BX [BY BV]]. pose proof (box_inq _ _ W0) as BW0. pose proof (box_inq _ _ W1) as BW1. pose proof (box_inq _ _ W2) as BW2. rewrite plus_IZR, minus_IZR in BW0, BW1, BW2.
  pose proof (box_div o 1 _ _ _ _ _ _ BX BW0 ltac:(lra) ltac:(lra) ltac:(lra) ltac:(lra)) as D0.
  pose proof (box_div o 1 _ _ _ _ _ _ BY BW1 ltac:(lra) ltac:(lra) ltac:(lra) ltac:(lra)) as D1.
  pose proof (box_div o 1 _ _ _ _ _ _ BV BW2 ltac:(lra) ltac:(lra) ltac:(lra) ltac:(lra)) as D2.
  split; [|split].
  - eapply box_weaken; [apply (box_curve o AP _ _ _ (57985 / 100000) (58029 / 100000) D0); sl|sl|sl].
  - eapply box_weaken; [apply (box_curve o AP _ _ _ (85571 / 100000) (85619 / 100000) D1); sl|sl|sl].
  - eapply box_weaken; [apply (box_curve o AP _ _ _ (40161 / 100000) (40209 / 100000) D2); sl|sl|sl].
Qed.
Local Notation L := (Lc o gm w A1 x y z).
Local Notation A := (Ac o gm w A0 A1 x y z).
Local Notation B := (Bc o gm w A1 A2 x y z).
Lemma green_lab : box L (8325 / 100) (8333 / 100) /\ box A (-128) (-128) /\ box B (9070 / 100) (9095 / 100).
Proof.
  destruct green_f as [BX [BY BV]].
  pose proof (box_mul o 116 _ _ _ _ _ _ (box_num o 116 ltac:(sm)) BY ltac:(lra) ltac:(lra) ltac:(lra) ltac:(lra)) as M1.
  pose proof (box_sub o 116 _ _ _ _ _ _ M1 (box_num o 16 ltac:(sm)) ltac:(lra) ltac:(sl) ltac:(sl)) as M2.
  pose proof (box_sub o 1 _ _ _ _ _ _ BY BV ltac:(lra) ltac:(lra) ltac:(lra)) as M4.
  pose proof (box_mul o 200 _ _ _ _ _ _ (box_num o 200 ltac:(sm)) M4 ltac:(lra) ltac:(sl) ltac:(lra) ltac:(sl)) as M5.
  pose proof (box_sub o 1 _ _ _ _ _ _ BX BY ltac:(lra) ltac:(lra) ltac:(lra)) as M6.
  assert (M7 : box ($500 *. (fx -. fy)) (-200) (-130)).
  { destruct (box_num o 500 ltac:(sm)) as [F5 V5]. destruct M6 as [F6 V6]. eapply box_weaken; [apply (box_prod o 200 $500 (fx -. fy) (-150) (-131)); try assumption; [|lra|lra|lra]|sl|sl].
    assert (V5' : fval $500 = 500) by lra. rewrite V5'. unfold slack in V6. lra. }
  split; [|split].
  - apply box_clamp; [eapply box_weaken; [exact M2|sl|sl]|sm|sm|lia|lra|lra].
  - eapply clamp_low; [exact M7|lra].
  - apply box_clamp; [eapply box_weaken; [exact M5|sl|sl]|sm|sm|lia|lra|lra].
Qed.
Lemma green_back : box (c01x (dot3 o B0 (back_xyz o gm w A0 A1 A2 x y z))) (35 / 1000) (48 / 1000).
Proof.
  destruct green_lab as [BL [BA BB]]. pose proof (box_inq _ _ W0) as BW0. pose proof (box_inq _ _ W1) as BW1. pose proof (box_inq _ _ W2) as BW2. rewrite plus_IZR, minus_IZR in BW0, BW1, BW2.
  pose proof (box_add o 100 _ _ _ _ _ _ BL (box_num o 16 ltac:(sm)) ltac:(lra) ltac:(lra) ltac:(lra)) as G1.
  pose proof (box_div o 1 _ _ _ _ _ _ G1 (box_num o 116 ltac:(sm)) ltac:(sl) ltac:(lra) ltac:(lra) ltac:(sl)) as G2.
  assert (DA : box (A /. $500) (- (257 / 1000)) (- (255 / 1000))).
  { destruct (box_num o 500 ltac:(sm)) as [F5 V5]. destruct BA as [FA VA]. assert (EA : fval A = -128) by lra. assert (E5 : fval $500 = 500) by lra.
    destruct (Bdiv_ok A $500 (-1) 0 FA F5 ltac:(lra) ltac:(sm) ltac:(sm)) as [F V0]; [rewrite EA, E5; lra|]. split; [exact F|].
    change (fval (A /. $500)) with (fval (Bdiv mode_NE A $500)). rewrite V0, EA, E5. pose proof (rnd_slack (-128 / 500) 1 ltac:(lra) ltac:(lra)). unfold slack in * . lra. }
  assert (DA' : box (A /. $500) (- (256001 / 1000000)) (- (255999 / 1000000))).
  { destruct (box_num o 500 ltac:(sm)) as [F5 V5]. destruct BA as [FA VA]. assert (EA : fval A = -128) by lra. assert (E5 : fval $500 = 500) by lra.
    destruct (Bdiv_ok A $500 (-1) 0 FA F5 ltac:(lra) ltac:(sm) ltac:(sm)) as [F V0]; [rewrite EA, E5; lra|]. split; [exact F|].
    change (fval (A /. $500)) with (fval (Bdiv mode_NE A $500)). rewrite V0, EA, E5. pose proof (rnd_slack (-128 / 500) 1 ltac:(lra) ltac:(lra)). unfold slack in * . lra. }
  clear DA.
  pose proof (box_add o 1 _ _ _ _ _ _ DA' G2 ltac:(lra) ltac:(sl) ltac:(sl)) as GX.
  pose proof (box_div o 1 _ _ _ _ _ _ BB (box_num o 200 ltac:(sm)) ltac:(lra) ltac:(lra) ltac:(lra) ltac:(lra)) as DB.
  pose proof (box_sub o 1 _ _ _ _ _ _ G2 DB ltac:(lra) ltac:(sl) ltac:(sl)) as GZ.
  pose proof (box_weaken _ _ _ (5995 / 10000) (6005 / 10000) GX ltac:(sl) ltac:(sl)) as GX'.
  pose proof (box_weaken _ _ _ (4000 / 10000) (4035 / 10000) GZ ltac:(sl) ltac:(sl)) as GZ'.
  pose proof (box_x o AP _ _ _ GX' ltac:(lra) ltac:(lra)) as TX. pose proof (box_x o AP _ _ _ GZ' ltac:(lra) ltac:(lra)) as TZ.
  pose proof (box_y o AP _ _ _ BL ltac:(lra) ltac:(lra)) as TY.
  pose proof (box_weaken _ _ _ (2154 / 10000) (2166 / 10000) TX ltac:(sl) ltac:(sl)) as TX'.
  pose proof (box_weaken _ _ _ (6260 / 10000) (6285 / 10000) TY ltac:(sl) ltac:(sl)) as TY'.
  pose proof (box_weaken _ _ _ (639 / 10000) (658 / 10000) TZ ltac:(sl) ltac:(sl)) as TZ'.
  pose proof (box_mul o 1 _ _ _ _ _ _ TX' BW0 ltac:(lra) ltac:(lra) ltac:(lra) ltac:(lra)) as UX.
  pose proof (box_mul o 1 _ _ _ _ _ _ TY' BW1 ltac:(lra) ltac:(lra) ltac:(lra) ltac:(lra)) as UY.
  pose proof (box_mul o 1 _ _ _ _ _ _ TZ' BW2 ltac:(lra) ltac:(lra) ltac:(lra) ltac:(lra)) as UZ.
  assert (CX : box (c100 (@lab_to_xyz_helper f32 (F32 o) (A /. $500 +. (L +. $16) /. $116) false *. tx w)) (2046 / 10000) (2060 / 10000)) by (apply box_clamp; [eapply box_weaken; [exact UX|sl|sl]|sm|sm|lia|lra|lra]).
  assert (CY : box (c100 (@lab_to_xyz_helper f32 (F32 o) L true *. ty_ w)) (6259 / 10000) (6286 / 10000)) by (apply box_clamp; [eapply box_weaken; [exact UY|sl|sl]|sm|sm|lia|lra|lra]).
  assert (CZ : box (c100 (@lab_to_xyz_helper f32 (F32 o) ((L +. $16) /. $116 -. B /. $200) false *. tz w)) (695 / 10000) (718 / 10000)) by (apply box_clamp; [eapply box_weaken; [exact UZ|sl|sl]|sm|sm|lia|lra|lra]).
  unfold back_xyz.
  set (x1 := c100 (@lab_to_xyz_helper f32 (F32 o) (A /. $500 +. (L +. $16) /. $116) false *. tx w)) in * .
  set (y1 := c100 (@lab_to_xyz_helper f32 (F32 o) L true *. ty_ w)) in * .
  set (z1 := c100 (@lab_to_xyz_helper f32 (F32 o) ((L +. $16) /. $116 -. B /. $200) false *. tz w)) in * .
  destruct B0 as [[b0 b1] b2]. unfold in3 in Q0. rewrite !andb_true_iff in Q0. destruct Q0 as [[N0 N1] N2]. apply box_inq in N0, N1, N2.
  rewrite plus_IZR, minus_IZR in N0, N1, N2.
  pose proof (box_weaken _ _ _ (- (56504 / 100000)) (- (56500 / 100000)) N1 ltac:(lra) ltac:(lra)) as N1'.
  pose proof (box_weaken _ _ _ (- (34476 / 100000)) (- (34472 / 100000)) N2 ltac:(lra) ltac:(lra)) as N2'.
  pose proof (box_mul o 1 _ _ _ _ _ _ N0 CX ltac:(lra) ltac:(lra) ltac:(lra) ltac:(lra)) as P0.
  pose proof (box_mul_neg o 1 _ _ _ _ _ _ N1' CY ltac:(lra) ltac:(lra) ltac:(lra) ltac:(lra)) as P1.
  pose proof (box_mul_neg o 1 _ _ _ _ _ _ N2' CZ ltac:(lra) ltac:(lra) ltac:(lra) ltac:(lra)) as P2.
  pose proof (box_add o 1 _ _ _ _ _ _ (box_num o 0 ltac:(sm)) P0 ltac:(lra) ltac:(sl) ltac:(sl)) as S0.
  pose proof (box_add o 1 _ _ _ _ _ _ S0 P1 ltac:(lra) ltac:(sl) ltac:(sl)) as S1.
  pose proof (box_add o 1 _ _ _ _ _ _ S1 P2 ltac:(lra) ltac:(sl) ltac:(sl)) as S2.
  pose proof (box_weaken _ _ _ (36 / 1000) (47 / 1000) S2 ltac:(sl) ltac:(sl)) as S3.
  change (box (c01x (dot3 o (b0, b1, b2) (x1, y1, z1))) (35 / 1000) (48 / 1000)).
  assert (N : near (dot3 o (b0, b1, b2) (x1, y1, z1)) (415 / 10000) (55 / 10000)) by (apply near_of; [exact (proj1 S3)|destruct S3 as [_ S3]; change (dot3 o (b0, b1, b2) (x1, y1, z1)) with ($0 +. b0 *. x1 +. b1 *. y1 +. b2 *. z1); lra]).
  pose proof (CieRgb_Proofs.near_c01x' o _ _ _ N) as K. rewrite Rmin_left, Rmax_left in K by lra. split; [exact (proj1 K)|]. apply near_range in K. lra.
Qed.
End Green.

(** ** The library call *)
Section Final.
Context (o : oracle) (AP : accurate_pow o).
Local Notation "x *. y" := (@fmul f32 (F32 o) x y) (at level 40, left associativity).
Local Notation "x /. y" := (@fdiv f32 (F32 o) x y) (at level 40, left associativity).
Local Notation "$ n" := (@fz f32 (F32 o) n) (at level 0).
Local Notation c01 := (@c01 f32 (F32 o)).
Local Notation gA := (@gammaAdobe f32 (F32 o)).
Lemma adobe_exp : fin (lit32 (219921875 # 100000000)) /\ 219 / 100 <= fval (lit32 (219921875 # 100000000)) <= 22 / 10.
Proof.
  destruct (within_R (219 # 100) (lit32 (219921875 # 100000000)) (22 # 10) ltac:(vm_compute; reflexivity)) as [F B]. unfold Q2R in B; cbn [Qnum Qden] in B. split; [exact F|lra].
Qed.
Lemma adobe_zero v : unitf v -> fval v = 0 -> Gamut_Proofs.box (c01 (@inverse_gamma_correction f32 (F32 o) gA v)) 0 0.
Proof.
  intros Uv E. unfold gammaAdobe. rewrite (proj1 (power_run o _ v Uv)). destruct adobe_exp as [Fe Be].
  pose proof (c01_near_unit o _ _ _ (pow_zero o AP v _ Uv Fe ltac:(lra) E) ltac:(lra)) as N. split; [exact (proj1 N)|]. apply near_range in N. lra.
Qed.
Lemma adobe_one v : unitf v -> fval v = 1 -> Gamut_Proofs.box (c01 (@inverse_gamma_correction f32 (F32 o) gA v)) (999 / 1000) 1.
Proof.
  intros Uv E. unfold gammaAdobe. rewrite (proj1 (power_run o _ v Uv)). destruct adobe_exp as [Fe Be]. set (e := lit32 (219921875 # 100000000)) in * .
  destruct (c01_unit o (o_pow o v e)) as [F B]. split; [exact F|]. split; [|apply B].
  assert (R1 : Rpower (fval v) (fval e) = 1) by (rewrite E; unfold Rpower; rewrite ln_1, Rmult_0_r, exp_0; reflexivity).
  pose proof (c01_near_unit o _ _ _ (pow_near o AP v e (fval e) Uv Fe ltac:(lra) ltac:(lra) ltac:(rewrite Rminus_eq_0, Rabs_R0; num) ltac:(lra)) ltac:(rewrite R1; lra)) as N.
  rewrite R1 in N. apply near_range in N. num.
Qed.
Lemma adobe_red v : unitf v -> 35 / 1000 <= fval v <= 48 / 1000 -> exists n, (50 <= n <= 70)%Z /\ is_value (to8 o (c01 (@gamma_correction f32 (F32 o) gA v))) (IZR n).
Proof.
  intros Uv B. unfold gammaAdobe. rewrite (proj2 (power_run o _ v Uv)). set (k := @fdiv f32 (F32 o) (lit32 1) (lit32 (219921875 # 100000000))).
  pose proof (within_R (45 # 100) k (6 # 13) ltac:(vm_compute; reflexivity)) as [Fk Bk]. unfold Q2R in Bk; cbn [Qnum Qden] in Bk. clearbody k.
  set (P := Rpower (fval v) (fval k)).
  assert (P1 : 210 / 1000 <= P).
  { apply Rle_trans with (Rpower (fval v) (6 / 13)); [|apply Rp_le_exp; lra]. replace (6 / 13) with (INR 6 / INR 13) by (simpl INR; lra).
    apply Rp_ge_q; [lra|lra|lia|]. apply Rle_trans with ((35 / 1000) ^ 6); [lra|apply pow_incr; lra]. }
  assert (P2 : P <= 260 / 1000).
  { apply Rle_trans with (Rpower (fval v) (9 / 20)); [apply Rp_le_exp; lra|]. replace (9 / 20) with (INR 9 / INR 20) by (simpl INR; lra).
    apply Rp_le_q; [lra|lra|lia|]. apply Rle_trans with ((48 / 1000) ^ 9); [apply pow_incr; lra|lra]. }
  pose proof (c01_near_unit o _ _ _ (pow_near o AP v k (fval k) Uv Fk ltac:(lra) ltac:(lra) ltac:(rewrite Rminus_eq_0, Rabs_R0; num) ltac:(lra)) ltac:(fold P; lra)) as N. fold P in N.
  assert (N' : near (c01 (o_pow o v k)) (P * 255 / 255) (1 / 10000)) by (replace (P * 255 / 255) with P by field; apply (near_weaken _ _ _ _ N); num).
  destruct (to_byte o _ (P * 255) _ N' ltac:(lra) ltac:(lra)) as [n [Bn [Vn E]]]. exists n. split; [|exact Vn].
  apply Rabs_le_inv in E. assert (H1 : 49 < IZR n) by num. assert (H2 : IZR n < 71) by num. apply lt_IZR in H1, H2. lia.
Qed.

Lemma adobe_green (h : heap f32) p c i s addr a : Ok s = @space_adobeRGB f32 (F32 o) addr ->
  at_addr h p c -> @wf_color f32 (F32 o) RGB_TRUE c -> rgb_space c = Some i -> nth_error (spaces h) i = Some s ->
  is_byte a -> has_bytes 0 255 0 c -> is_value (@alpha f32 (F32 o) c) (IZR a) ->
  via (@to_lab f32 (F32 o)) (@to_rgb_true f32 (F32 o)) h p (fun m d => ty m = LAB /\ comp_sat m 1 (fun v => is_value v (-128)) /\
    ty d = RGB_TRUE /\ exists n, (50 <= n <= 70)%Z /\ comp_sat d 0 (fun v => is_value v (IZR n))).
Proof.
  intros I Hp W Es Hs Ha HB Ca.
  assert (Gm : s_gamma s = Some gA) by (symmetry in I; exact (ctor_gamma o _ _ _ _ _ _ _ _ _ I)).
  pose proof (adobe_checked o addr) as OK. rewrite <- I in OK. unfold adobe_ok in OK.
  destruct (rows3 (s_matrix s)) as [[[A0 A1] A2]|] eqn:EA; [|discriminate]. destruct (rows3 (s_inverse s)) as [[[B0 B1] B2]|] eqn:EB; [|discriminate].
  destruct (s_white s) as [[nm w]|] eqn:Hw; [|discriminate]. rewrite !andb_true_iff in OK. destruct OK as [[[[[[R0 R1] R2] Q0] W0] W1] W2].
  destruct HB as [_ [Cr [Cg Cb]]]. destruct (comps3 c (wf_len _ _ W)) as [x [y [z Ec]]].
  destruct Cr as [x' [Ex Vx]]. destruct Cg as [y' [Ey Vy]]. destruct Cb as [z' [Ez Vz]].
  rewrite Ec in Ex, Ey, Ez. cbn [nth_error] in Ex, Ey, Ez. injection Ex as <-. injection Ey as <-. injection Ez as <-.
  destruct (byte_q o x 0 ltac:(lia) Vx) as [_ Qx]. destruct (byte_q o y 255 ltac:(lia) Vy) as [_ Qy]. destruct (byte_q o z 0 ltac:(lia) Vz) as [_ Qz].
  assert (E0 : q255 0 = 0) by (unfold q255; replace (0 / 255) with 0 by lra; apply rnd32_0).
  assert (E1 : q255 255 = 1) by (unfold q255; replace (255 / 255) with (IZR 1) by lra; apply (rnd32_int 1); sm).
  rewrite E0 in Qx, Qz. rewrite E1 in Qy.
  pose proof (adobe_zero _ (c01_unit o _) Qx) as L0. pose proof (adobe_one _ (c01_unit o _) Qy) as L1. pose proof (adobe_zero _ (c01_unit o _) Qz) as L2.
  pose proof (green_lab o AP _ w A0 A1 A2 x y z R0 R1 R2 W0 W1 W2 L0 L1 L2) as [_ [GA _]].
  pose proof (green_back o AP _ w A0 A1 A2 B0 x y z R0 R1 R2 Q0 W0 W1 W2 L0 L1 L2) as GB.
  destruct (adobe_red _ (c01x_unit o _) (proj2 GB)) as [n [Bn Vn]].
  eapply via_mono; [apply (lab_route o gA h p c i s nm w A0 A1 A2 B0 B1 B2 Hp W Es Hs Gm Hw EA EB a x y z Ha Ca Ec)|].
  intros m d [T1 [C1 [T2 C2]]]. split; [exact T1|]. split.
  - unfold comp_sat. rewrite C1. cbn [nth_error]. eexists. split; [reflexivity|]. destruct GA as [F V]. split; [exact F|]. change (@B2R 24 128) with fval. lra.
  - split; [exact T2|]. exists n. split; [exact Bn|]. unfold comp_sat. rewrite C2. cbn [nth_error]. eexists. split; [reflexivity|exact Vn].
Qed.
End Final.
Lemma green_lost : forall o (h : heap f32) p c i s addr a, accurate_pow o -> Ok s = @space_adobeRGB f32 (F32 o) addr ->
  at_addr h p c -> @wf_color f32 (F32 o) RGB_TRUE c -> rgb_space c = Some i -> nth_error (spaces h) i = Some s ->
  is_byte a -> has_bytes 0 255 0 c -> is_value (@alpha f32 (F32 o) c) (IZR a) ->
  via (@to_lab f32 (F32 o)) (@to_rgb_true f32 (F32 o)) h p (fun m d => ty m = LAB /\ comp_sat m 1 (fun v => is_value v (-128)) /\
    ty d = RGB_TRUE /\ exists n, (50 <= n <= 70)%Z /\ comp_sat d 0 (fun v => is_value v (IZR n))).
Proof. intros. eapply adobe_green; eassumption. Qed.
Lemma adobe_example : forall o addr, accurate_pow ref_oracle /\ exists s, Ok s = @space_adobeRGB f32 (F32 o) addr.
Proof.
  intros o addr. split; [exact ref_accurate|]. pose proof (adobe_checked o addr) as H. destruct (@space_adobeRGB f32 (F32 o) addr) as [s| | |]; try discriminate H. exists s. reflexivity.
Qed.
Lemma green_in : forall o (s : space_def f32), exists (h : heap f32) c, at_addr h 0%nat c /\ @wf_color f32 (F32 o) RGB_TRUE c /\
  rgb_space c = Some 0%nat /\ nth_error (spaces h) 0 = Some s /\ has_bytes 0 255 0 c /\ is_value (@alpha f32 (F32 o) c) 255.
Proof. intros o s. apply (bytes_in o s 0 255 0 255); red; lia. Qed.
