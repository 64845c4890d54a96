(** * The matrices of sRGB with a detour through another space in between (C157, C158) *)
From Coq Require Import ZArith QArith Qreals Qabs Reals Lra Lia List Bool.
From Flocq Require Import Core IEEE754.BinarySingleNaN.
From Verif Require Import Arith Outcome ColorModel GammaModel MatrixModel SpaceModel Heap Converter F32 F32Facts RArith
  Spec Spec32 Laws NormalForms Alpha8 Core_Proofs Core2_Proofs Core3_Proofs Core4_Proofs Hue32 Spec_Matrix Spec_Conv Spec_Round
  Conv_Proofs Conv2_Proofs Run_Proofs HueR_Proofs Round_Proofs Round2_Proofs Spec_Error Error_Proofs Error2_Proofs Error3_Proofs Error4_Proofs
  Error7_Proofs Error8_Proofs Linear_Proofs Linear2_Proofs Pow_Proofs Curve_Proofs Xyz8_Proofs Lab8_Proofs Xyy8_Proofs.
Import ListNotations.
Local Open Scope R_scope.
Local Notation fin x := (is_finite x = true).

(** ** Conditions, checked in rational numbers *)
Definition qu (n : Z) : Q := n # 16777216.
Definition ones : Q * Q * Q := (1, 1, 1)%Q.
(** one channel, from tristimulus values with errors [e] *)
Definition back_ok (A0 A1 A2 : Q * Q * Q) (B un : Q * Q * Q) (e : Q * Q * Q) (E : Q) : bool := let '(a, b, d) := B in
  le_b (dot_b opsQ B A0 A1 A2 e ones) 1 &&
  le_b (top opsQ (vscale opsQ a A0) ones) 1000 && le_b (top opsQ (vscale opsQ b A1) ones) 1000 && le_b (top opsQ (vscale opsQ d A2) ones) 1000 &&
  le_b (qadd (dot_b opsQ B A0 A1 A2 e ones) (top opsQ (vadd opsQ (vadd opsQ (vadd opsQ (vscale opsQ a A0) (vscale opsQ b A1)) (vscale opsQ d A2)) (vneg opsQ un)) ones)) E.
Definition inq (n : Z) (x : f32) : bool := is_finite x && le_b ((n - 1) # 100000) (f2Q x) && le_b (f2Q x) ((n + 1) # 100000).
Definition in3 (a b c : Z) (v : f32 * f32 * f32) : bool := let '(x, y, z) := v in inq a x && inq b y && inq c z.
(** the entries of the matrix and the white point of sRGB, in units of 1/100000 *)
Definition detour_ok (s : space_def f32) : bool :=
  match rows3 (s_matrix s), rows3 (s_inverse s), s_white s with
  | Some (A0, A1, A2), Some (B0, B1, B2), Some (_, w) =>
      let e := (qu 230, qu 104, qu 262) in
      finite3 B0 && finite3 B1 && finite3 B2 &&
      row_ok ones (q3 A0) && row_ok ones (q3 A1) && row_ok ones (q3 A2) &&
      le_b (row_b opsQ (q3 A0) ones) (qu 4) && le_b (row_b opsQ (q3 A1) ones) (qu 4) && le_b (row_b opsQ (q3 A2) ones) (qu 4) &&
      back_ok (q3 A0) (q3 A1) (q3 A2) (q3 B0) (unit0 opsQ) e (qu 1100) &&
      back_ok (q3 A0) (q3 A1) (q3 A2) (q3 B1) (unit1 opsQ) e (qu 1100) &&
      back_ok (q3 A0) (q3 A1) (q3 A2) (q3 B2) (unit2 opsQ) e (qu 1100) &&
      in3 41237 35760 18043 A0 && in3 21263 71520 7217 A1 && in3 1933 11920 95027 A2 &&
      inq 95040 (tx w) && inq 100000 (ty_ w) && inq 108880 (tz w) && inq 31270 (cx w) && inq 32900 (cy w) &&
      le_b (psum opsQ (q3 A0) ones) (qmul (f2Q (tx w)) (qadd 1 (qu 30))) && le_b (psum opsQ (q3 A1) ones) (qmul (f2Q (ty_ w)) (qadd 1 (qu 30))) &&
      le_b (psum opsQ (q3 A2) ones) (qmul (f2Q (tz w)) (qadd 1 (qu 30)))
  | _, _, _ => false
  end.
Definition detour_sp (s : outcome (space_def f32)) : bool := match s with Ok s => detour_ok s | _ => false end.
Lemma srgb_detour o addr : detour_sp (@space_sRGB f32 (F32 o) addr) = true.
Proof. vm_compute. reflexivity. Qed.

Lemma qu_R n : Q2R (qu n) = IZR n * u.
Proof. unfold Q2R, qu, u. cbn [Qnum Qden]. reflexivity. Qed.
Lemma ones_R : mapv ones = (1, 1, 1).
Proof. unfold mapv, ones. rewrite Q2R_1'. reflexivity. Qed.
Lemma inq_R n x : inq n x = true -> fin x /\ IZR (n - 1) / 100000 <= fval x <= IZR (n + 1) / 100000.
Proof.
  unfold inq. rewrite !andb_true_iff. intros [[F L] H]. apply le_bR in L, H. rewrite f2Q_val in L, H. unfold Q2R in L, H. cbn [Qnum Qden] in L, H.
  split; [exact F|]. split; [exact L|exact H].
Qed.
Section Back.
Context (o : oracle).
Lemma back_near A0 A1 A2 B un l e0 e1 e2 E X Y V : fin3 B -> back_ok (q3 A0) (q3 A1) (q3 A2) (q3 B) un (qu e0, qu e1, qu e2) E = true ->
  below (r3 l) (1, 1, 1) -> (0 <= e0)%Z -> (0 <= e1)%Z -> (0 <= e2)%Z ->
  near X (lin (r3 A0) (r3 l)) (IZR e0 * u) -> near Y (lin (r3 A1) (r3 l)) (IZR e1 * u) -> near V (lin (r3 A2) (r3 l)) (IZR e2 * u) ->
  near (dot3 o B (X, Y, V)) (lin (mapv un) (r3 l)) (Q2R E).
Proof.
  intros FB H Bl P0 P1 P2 N0 N1 N2. destruct B as [[b0 b1] b2]. destruct FB as [Fb0 [Fb1 Fb2]]. unfold back_ok in H. cbn [q3] in H.
  rewrite !andb_true_iff in H. destruct H as [[[[H1 H2] H3] H4] H5]. apply le_bR in H1, H2, H3, H4, H5.
  change (f2Q b0, f2Q b1, f2Q b2) with (q3 (b0, b1, b2)) in * .
  rewrite Q2R_add in H5. rewrite dot_Q in H1, H5. rewrite top_Q, vscale_Q in H2, H3, H4. rewrite top_Q, !vadd_Q, !vscale_Q, vneg_Q in H5. rewrite !f2Q_val in * .
  rewrite !q3_r3, !ones_R in * . replace (mapv (qu e0, qu e1, qu e2)) with (IZR e0 * u, IZR e1 * u, IZR e2 * u) in * by (unfold mapv; rewrite !qu_R; reflexivity).
  replace (Q2R 1000) with 1000 in * by (unfold Q2R; cbn; lra). rewrite Q2R_1' in * .
  assert (Q0 : forall e, (0 <= e)%Z -> 0 <= IZR e * u) by (intros e He; apply Rmult_le_pos; [apply (IZR_le 0 e), He|num]).
  assert (K := dot_near o b0 b1 b2 _ _ _ (r3 A0) (r3 A1) (r3 A2) _ _ _ _ _ Fb0 Fb1 Fb2 Bl N0 N1 N2 (Q0 _ P0) (Q0 _ P1) (Q0 _ P2) H1 H2 H3 H4).
  cbv zeta in K. cbn [dot3 r3] in * .
  match type of H5 with ?d + top _ ?c _ <= _ => pose proof (top_sound c _ _ Bl) as T; set (TT := top opsR c _) in *; set (D := d) in * end.
  rewrite !lin_add, !lin_scale, lin_neg in T. destruct K as [FK EK]. split; [exact FK|].
  eapply Rle_trans; [|exact H5]. cbn [r3] in EK.
  eapply Rle_trans; [|apply Rplus_le_compat; [exact EK|exact T]].
  eapply Rle_trans; [|apply Rabs_triang]. right. f_equal. ring.
Qed.
End Back.

Section Srgb.
Context (o : oracle).
Local Notation "x +. y" := (@fadd f32 (F32 o) x y) (at level 50, left associativity).
Local Notation "x -. y" := (@fsub f32 (F32 o) x y) (at level 50, left associativity).
Local Notation "x *. y" := (@fmul f32 (F32 o) x y) (at level 40, left associativity).
Local Notation "x /. y" := (@fdiv f32 (F32 o) x y) (at level 40, left associativity).
Local Notation "$ n" := (@fz f32 (F32 o) n) (at level 0).
Local Notation c100 := (@c100 f32 (F32 o)).

Lemma dot_zero (a b c x y z : f32) : fin a -> fin b -> fin c -> fin x -> fin y -> fin z -> fval x = 0 -> fval y = 0 -> fval z = 0 ->
  fin (dot o a b c x y z) /\ fval (dot o a b c x y z) = 0.
Proof.
  intros Fa Fb Fc Fx Fy Fz Vx Vy Vz.
  assert (M : forall p q, fin p -> fin q -> fval q = 0 -> fin (p *. q) /\ fval (p *. q) = 0).
  { intros p q Fp Fq Vq. destruct (Bmult_ok p q 0 0 Fp Fq ltac:(sm) ltac:(sm)) as [F V]; [rewrite Vq, Rmult_0_r; lra|]. rewrite Vq, Rmult_0_r, rnd32_0 in V. auto. }
  assert (P : forall p q, fin p -> fin q -> fval p = 0 -> fval q = 0 -> fin (p +. q) /\ fval (p +. q) = 0).
  { intros p q Fp Fq Vp Vq. destruct (Bplus_ok p q 0 0 Fp Fq ltac:(sm) ltac:(sm)) as [F V]; [rewrite Vp, Vq; lra|]. rewrite Vp, Vq, Rplus_0_r, rnd32_0 in V. auto. }
  destruct (M a x Fa Fx Vx) as [F1 V1]. destruct (M b y Fb Fy Vy) as [F2 V2]. destruct (M c z Fc Fz Vz) as [F3 V3]. destruct (fz_val o 0) as [F0 V0]; [sm|].
  destruct (P _ _ F0 F1 V0 V1) as [G1 U1]. destruct (P _ _ G1 F2 U1 V2) as [G2 U2]. destruct (P _ _ G2 F3 U2 V3) as [G3 U3]. split; assumption.
Qed.
Lemma c100_cut x : fin x -> fval x <= 100 -> fin (c100 x) /\ 0 <= fval (c100 x) <= 100.
Proof.
  intros Fx B. destruct (clamp_val o x 0 100) as [F V]; try sm; auto; try lia. split; [exact F|].
  unfold NormalForms.c100. change (fval (@clamp f32 (F32 o) x $100 $0)) with (B2R (@clamp f32 (F32 o) x $100 $0)). rewrite V.
  unfold Rmax, Rmin. destruct (Rle_dec _ _), (Rle_dec _ _); lra.
Qed.
(** a quotient by a coordinate of the white point *)
Lemma white_quot (X t : f32) n : fin X -> 0 <= fval X <= 11 / 10 -> inq n t = true -> (95000 <= n <= 109000)%Z ->
  fin (X /. t) /\ fval X / (IZR (n + 1) / 100000) - 2 * u <= fval (X /. t) <= fval X / (IZR (n - 1) / 100000) + 2 * u /\ 0 <= fval (X /. t) /\
  Rabs (fval (X /. t) * fval t - fval X) <= 2 * u /\ fval (X /. t) <= fval X / fval t + 2 * u.
Proof.
  intros FX BX H Hn. apply inq_R in H. destruct H as [Ft Bt]. set (T := fval t) in * . set (x := fval X) in * .
  assert (Nn : 95000 <= IZR n <= 109000) by (split; apply IZR_le; lia).
  rewrite minus_IZR, plus_IZR in * . set (N := IZR n) in * .
  assert (PT : 94 / 100 <= T <= 110 / 100) by lra.
  assert (Q : x / T * T = x) by (field; lra). set (q := x / T) in * .
  assert (Q0 : 0 <= q <= 12 / 10).
  { split; [apply Rmult_le_pos; [lra|left; apply Rinv_0_lt_compat; lra]|]. destruct (Rle_lt_dec q (12 / 10)); [assumption|exfalso]. assert (12 / 10 * T < q * T) by (apply Rmult_lt_compat_r; lra). lra. }
  assert (QL : x / ((N + 1) / 100000) <= q <= x / ((N - 1) / 100000)).
  { unfold q, Rdiv at 1 3. split; (apply Rmult_le_compat_l; [lra|]; apply Rinv_le_contravar; lra). }
  destruct (Bdiv_ok X t 0 2 FX Ft) as [F V]; [fold T; lra|sm|sm|fold x T q; lra|]. fold x T q in V.
  pose proof (rnd_err q) as R. rewrite <- V in R. rewrite (Rabs_right q) in R by lra. apply Rabs_le_inv in R.
  assert (V0 : 0 <= fval (X /. t)).
  { change (fval (X /. t)) with (fval (Bdiv mode_NE X t)). rewrite V. rewrite <- rnd32_0. apply rnd32_le. lra. }
  change (fval (X /. t)) with (fval (Bdiv mode_NE X t)) in * . set (r := fval (Bdiv mode_NE X t)) in * .
  split; [exact F|]. split; [num|]. split; [exact V0|]. split; [|num].
  replace (r * T - x) with ((r - q) * T) by (rewrite Rmult_minus_distr_r, Q; reflexivity). rewrite Rabs_mult, (Rabs_right T) by lra.
  apply Rle_trans with (13 / 10 * u * (11 / 10)); [|num]. apply Rmult_le_compat; [apply Rabs_pos|lra|apply Rabs_le; num|lra].
Qed.

Variables (s : space_def f32) (nm : nat) (w : white_point f32).
Hypothesis (OK : detour_ok s = true) (Hw : s_white s = Some (nm, w)).

(** what is known of the tristimulus values of a linear colour *)
Record linear_facts (x y z X Y V : f32) : Prop := {
  lf_x : fin X /\ 0 <= fval X <= 11 / 10; lf_y : fin Y /\ 0 <= fval Y <= 11 / 10; lf_z : fin V /\ 0 <= fval V <= 11 / 10;
  lf_wx : fin (X /. tx w) /\ 0 <= fval (X /. tx w) <= 1 + 40 * u /\ Rabs (fval (X /. tx w) * fval (tx w) - fval X) <= 2 * u;
  lf_wy : fin (Y /. ty_ w) /\ 0 <= fval (Y /. ty_ w) <= 1 + 40 * u /\ Rabs (fval (Y /. ty_ w) * fval (ty_ w) - fval Y) <= 2 * u;
  lf_wz : fin (V /. tz w) /\ 0 <= fval (V /. tz w) <= 1 + 40 * u /\ Rabs (fval (V /. tz w) * fval (tz w) - fval V) <= 2 * u;
  lf_diff : fl (fval (X /. tx w)) - fl (fval (Y /. ty_ w)) <= 2559 / 10000 /\ fl (fval (Y /. ty_ w)) - fl (fval (X /. tx w)) <= 2559 / 10000 /\
    fl (fval (Y /. ty_ w)) - fl (fval (V /. tz w)) <= 6399 / 10000 /\ fl (fval (V /. tz w)) - fl (fval (Y /. ty_ w)) <= 6399 / 10000;
  lf_pos : 1 / 10000 <= fval x \/ 1 / 10000 <= fval y \/ 1 / 10000 <= fval z -> / 1000000 <= fval X /\ / 1000000 <= fval Y /\ / 1000000 <= fval V;
  lf_zero : fval x = 0 -> fval y = 0 -> fval z = 0 -> fval X = 0 /\ fval Y = 0 /\ fval V = 0;
  lf_white : fin (tx w) /\ 95 / 100 <= fval (tx w) <= 951 / 1000 /\ fin (ty_ w) /\ 9999 / 10000 <= fval (ty_ w) <= 10001 / 10000 /\ fin (tz w) /\ 108 / 100 <= fval (tz w) <= 1089 / 1000;
  lf_chrom : fin (cx w) /\ 31 / 100 <= fval (cx w) <= 32 / 100 /\ fin (cy w) /\ 32 / 100 <= fval (cy w) <= 33 / 100;
  lf_back : forall X' Y' V', near X' (fval X) (226 * u) -> near Y' (fval Y) (100 * u) -> near V' (fval V) (258 * u) ->
    exists x1 y1 z1, @mulvec f32 (F32 o) (s_inverse s) [X'; Y'; V'] = Ok [x1; y1; z1] /\
      near (@c01x f32 (F32 o) x1) (fval x) (1100 * u) /\ near (@c01x f32 (F32 o) y1) (fval y) (1100 * u) /\ near (@c01x f32 (F32 o) z1) (fval z) (1100 * u);
  lf_lin : exists A0 A1 A2, rows3 (s_matrix s) = Some (A0, A1, A2) /\ in3 41237 35760 18043 A0 = true /\ in3 21263 71520 7217 A1 = true /\ in3 1933 11920 95027 A2 = true /\
    near X (lin (r3 A0) (r3 (x, y, z))) (4 * u) /\ near Y (lin (r3 A1) (r3 (x, y, z))) (4 * u) /\ near V (lin (r3 A2) (r3 (x, y, z))) (4 * u) }.

Lemma white_top X t : 9 / 10 <= t -> X <= t * (1 + 30 * u) + 4 * u -> X / t <= 1 + 36 * u.
Proof.
  intros Ht H. unfold Rdiv. apply Rmult_le_reg_r with t; [lra|]. rewrite Rmult_assoc, Rinv_l, Rmult_1_r by lra. unfold u in *; lra.
Qed.
Lemma detour_facts x y z : unitf x -> unitf y -> unitf z -> exists X Y V, @mulvec f32 (F32 o) (s_matrix s) [x; y; z] = Ok [X; Y; V] /\
  linear_facts x y z (c100 X) (c100 Y) (c100 V).
Proof.
  intros [Fx Bx] [Fy By] [Fz Bz]. revert OK. unfold detour_ok.
  destruct (rows3 (s_matrix s)) as [[[A0 A1] A2]|] eqn:EA; [|discriminate]. destruct (rows3 (s_inverse s)) as [[[B0 B1] B2]|] eqn:EB; [|discriminate].
  rewrite Hw. cbv zeta. rewrite !andb_true_iff.
  intros [[[[[[[[[[[[[[[[[[[[[[G0 G1] G2] R0] R1] R2] E0] E1] E2] K0] K1] K2] I0] I1] I2] WX] WY] WZ] CX] CY] T0] T1] T2].
  apply finite3_ok in G0, G1, G2. apply le_bR in E0, E1, E2, T0, T1, T2.
  rewrite qu_R, row_Q, q3_r3, ones_R in E0, E1, E2. rewrite psum_Q, q3_r3, ones_R, Q2R_mul, Q2R_add, qu_R, f2Q_val, Q2R_1' in T0, T1, T2.
  exists (dot3 o A0 (x, y, z)), (dot3 o A1 (x, y, z)), (dot3 o A2 (x, y, z)).
  split. { pose proof (rows3_ok o _ _ _ _ x y z EA) as H. exact H. }
  set (l := (x, y, z)). assert (Fl : fin3 l) by (repeat split; assumption). assert (Bl : below (r3 l) (mapv ones)) by (rewrite ones_R; cbn; auto).
  assert (FF : forall a b c v, in3 a b c v = true -> fin3 v).
  { intros a b c [[v0 v1] v2]. unfold in3. rewrite !andb_true_iff. intros [[Q0 Q1] Q2]. apply inq_R in Q0, Q1, Q2. repeat split; tauto. }
  destruct (row_near o A0 l ones (FF _ _ _ _ I0) Fl R0 Bl) as [N0 P0]. destruct (row_near o A1 l ones (FF _ _ _ _ I1) Fl R1 Bl) as [N1 P1]. destruct (row_near o A2 l ones (FF _ _ _ _ I2) Fl R2 Bl) as [N2 P2].
  pose proof (psum_top (r3 A0) _ _ Bl) as S0. pose proof (psum_top (r3 A1) _ _ Bl) as S1. pose proof (psum_top (r3 A2) _ _ Bl) as S2.
  rewrite ones_R in * . apply (near_weaken _ _ _ _ N0) in E0. apply (near_weaken _ _ _ _ N1) in E1. apply (near_weaken _ _ _ _ N2) in E2. clear N0 N1 N2 P0 P1 P2.
  (* the channels as plain numbers *)
  assert (LB : forall n a r, inq n a = true -> (0 <= n)%Z -> 0 <= r <= 1 -> (IZR n - 1) / 100000 * r <= fval a * r <= (IZR n + 1) / 100000 * r).
  { intros n a r H Hn Hr. apply inq_R in H. rewrite minus_IZR, plus_IZR in H. split; apply Rmult_le_compat_r; lra. }
  assert (L3 : forall a b c A, in3 a b c A = true -> (0 <= a)%Z -> (0 <= b)%Z -> (0 <= c)%Z ->
    (IZR a - 1) / 100000 * fval x + (IZR b - 1) / 100000 * fval y + (IZR c - 1) / 100000 * fval z <= lin (r3 A) (r3 l) <=
    (IZR a + 1) / 100000 * fval x + (IZR b + 1) / 100000 * fval y + (IZR c + 1) / 100000 * fval z).
  { intros a b c [[v0 v1] v2]. unfold in3. rewrite !andb_true_iff. intros [[Q0 Q1] Q2] Ha Hb Hc. cbn [r3 l lin].
    pose proof (LB _ _ _ Q0 Ha Bx). pose proof (LB _ _ _ Q1 Hb By). pose proof (LB _ _ _ Q2 Hc Bz). lra. }
  pose proof (L3 _ _ _ _ I0 ltac:(lia) ltac:(lia) ltac:(lia)) as L0. pose proof (L3 _ _ _ _ I1 ltac:(lia) ltac:(lia) ltac:(lia)) as L1.
  pose proof (L3 _ _ _ _ I2 ltac:(lia) ltac:(lia) ltac:(lia)) as L2. clear L3 LB.
  assert (Z0 : fval x = 0 -> fval y = 0 -> fval z = 0 -> fval (c100 (dot3 o A0 l)) = 0 /\ fval (c100 (dot3 o A1 l)) = 0 /\ fval (c100 (dot3 o A2 l)) = 0).
  { intros Vx Vy Vz. assert (D : forall A, fin3 A -> fval (c100 (dot3 o A l)) = 0).
    { intros [[a b] c] [Fa [Fb Fc]]. destruct (dot_zero a b c x y z Fa Fb Fc Fx Fy Fz Vx Vy Vz) as [Fd Vd]. cbn [dot3 l].
      destruct (c100_same o _ Fd) as [_ V]; [rewrite Vd; lra|]. rewrite V. exact Vd. }
    split; [|split]; apply D; eauto. }
  pose proof (near_range _ _ _ E0) as X0. pose proof (near_range _ _ _ E1) as X1. pose proof (near_range _ _ _ E2) as X2.
  set (X := c100 (dot3 o A0 l)) in * . set (Y := c100 (dot3 o A1 l)) in * . set (V := c100 (dot3 o A2 l)) in * .
  assert (PX : forall t, fin (c100 t) -> 0 <= fval (c100 t)).
  { intros t Ft. unfold NormalForms.c100, clamp in * . cbn [fmax F32] in * . unfold fmax32 in * . destruct (fz_val o 0) as [Fa Va]; [sm|].
    destruct (is_nan (@fmin f32 (F32 o) t $100)); [rewrite Va; lra|]. destruct (is_nan $0) eqn:NN; [destruct $0; discriminate|].
    destruct (Bltb (@fmin f32 (F32 o) t $100) $0) eqn:C; [rewrite Va; lra|]. rewrite Bltb_fin in C by assumption. rewrite Va in C. destruct (Rlt_bool_spec (fval (@fmin f32 (F32 o) t $100)) 0); [discriminate|assumption]. }
  pose proof (PX _ (proj1 E0)) as PX0. pose proof (PX _ (proj1 E1)) as PX1. pose proof (PX _ (proj1 E2)) as PX2. fold X in PX0. fold Y in PX1. fold V in PX2. clear PX.
  set (rr := fval x) in * . set (gg := fval y) in * . set (bb := fval z) in * .
  assert (BX : 0 <= fval X <= 11 / 10) by (split; [exact PX0|num]). assert (BY : 0 <= fval Y <= 11 / 10) by (split; [exact PX1|num]). assert (BV : 0 <= fval V <= 11 / 10) by (split; [exact PX2|num]).
  destruct (white_quot X (tx w) _ (proj1 E0) BX WX ltac:(lia)) as [FQ0 [QB0 [QP0 [QM0 QT0]]]].
  destruct (white_quot Y (ty_ w) _ (proj1 E1) BY WY ltac:(lia)) as [FQ1 [QB1 [QP1 [QM1 QT1]]]].
  destruct (white_quot V (tz w) _ (proj1 E2) BV WZ ltac:(lia)) as [FQ2 [QB2 [QP2 [QM2 QT2]]]].
  apply inq_R in WX, WY, WZ, CX, CY. destruct WX as [FWX WX]. destruct WY as [FWY WY]. destruct WZ as [FWZ WZ].
  cbv [Z.add Z.sub Z.opp Z.pos_sub Pos.add Pos.succ Pos.pred_double Z.pred_double Z.succ_double Z.double] in * .
  assert (U0 : fval (X /. tx w) <= 1 + 40 * u).
  { pose proof (white_top (fval X) (fval (tx w)) ltac:(lra) ltac:(lra)). lra. }
  assert (U1 : fval (Y /. ty_ w) <= 1 + 40 * u).
  { pose proof (white_top (fval Y) (fval (ty_ w)) ltac:(lra) ltac:(lra)). lra. }
  assert (U2 : fval (V /. tz w) <= 1 + 40 * u).
  { pose proof (white_top (fval V) (fval (tz w)) ltac:(lra) ltac:(lra)). lra. }
  split; auto.
  - split; [exact (proj1 E0)|exact BX].
  - split; [exact (proj1 E1)|exact BY].
  - split; [exact (proj1 E2)|exact BV].
  - clear - QB0 QB1 QB2 QP0 QP1 QP2 U0 U1 U2 X0 X1 X2 L0 L1 L2 BX BY BV Bx By Bz. apply fl_diffs; try (split; assumption); num.
  - clear - X0 X1 X2 L0 L1 L2 Bx By Bz. fold rr gg bb. intros P. unfold u in * . repeat split; destruct P as [P|[P|P]]; lra.
  - repeat split; try assumption; lra.
  - destruct CX, CY. repeat split; try assumption; lra.
  - intros X' Y' V' NX NY NV.
    assert (MX : near X' (lin (r3 A0) (r3 l)) (230 * u)) by (destruct E0 as [_ E0]; eapply near_weaken; [apply (near_move _ _ _ _ _ NX E0)|lra]).
    assert (MY : near Y' (lin (r3 A1) (r3 l)) (104 * u)) by (destruct E1 as [_ E1]; eapply near_weaken; [apply (near_move _ _ _ _ _ NY E1)|lra]).
    assert (MV : near V' (lin (r3 A2) (r3 l)) (262 * u)) by (destruct E2 as [_ E2]; eapply near_weaken; [apply (near_move _ _ _ _ _ NV E2)|lra]).
    exists (dot3 o B0 (X', Y', V')), (dot3 o B1 (X', Y', V')), (dot3 o B2 (X', Y', V')). split; [pose proof (rows3_ok o _ _ _ _ X' Y' V' EB) as H; exact H|].
    assert (J0 : mapv (unit0 opsQ) = unit0 opsR) by (unfold mapv, unit0; cbn [opsQ o_0 o_1]; rewrite Q2R_0', Q2R_1'; reflexivity).
    assert (J1 : mapv (unit1 opsQ) = unit1 opsR) by (unfold mapv, unit1; cbn [opsQ o_0 o_1]; rewrite Q2R_0', Q2R_1'; reflexivity).
    assert (J2 : mapv (unit2 opsQ) = unit2 opsR) by (unfold mapv, unit2; cbn [opsQ o_0 o_1]; rewrite Q2R_0', Q2R_1'; reflexivity).
    destruct (lin_units (r3 l)) as [H0 [H1 H2]]. cbn [r3 l fst snd] in H0, H1, H2.
    pose proof (back_near o _ _ _ _ _ l _ _ _ _ _ _ _ G0 K0 Bl ltac:(lia) ltac:(lia) ltac:(lia) MX MY MV) as N0.
    pose proof (back_near o _ _ _ _ _ l _ _ _ _ _ _ _ G1 K1 Bl ltac:(lia) ltac:(lia) ltac:(lia) MX MY MV) as N1.
    pose proof (back_near o _ _ _ _ _ l _ _ _ _ _ _ _ G2 K2 Bl ltac:(lia) ltac:(lia) ltac:(lia) MX MY MV) as N2.
    rewrite qu_R, J0 in N0. rewrite qu_R, J1 in N1. rewrite qu_R, J2 in N2. cbn [r3 l] in N0, N1, N2. rewrite H0 in N0. rewrite H1 in N1. rewrite H2 in N2.
    split; [|split]; apply near_c01x; assumption.
  - exists A0, A1, A2. split; [exact EA|]. repeat (split; [assumption|]). assumption.
Qed.
End Srgb.
