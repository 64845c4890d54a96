From Coq Require Import ZArith QArith Qreals Qabs Reals Lra Lia Psatz List Bool.
From Flocq Require Import Core IEEE754.BinarySingleNaN.
From Verif Require Import Arith Outcome ColorModel GammaModel MatrixModel SpaceModel Heap Converter F32 F32Facts RArith
  Spec Spec32 Laws NormalForms Alpha8 Core_Proofs Core2_Proofs Core3_Proofs Core4_Proofs Hue32 Spec_Matrix Spec_Conv Spec_Round
  Conv_Proofs Conv2_Proofs Run_Proofs HueR_Proofs Round_Proofs Round2_Proofs Spec_Error Error_Proofs Error2_Proofs Error3_Proofs Error4_Proofs
  Error7_Proofs Error8_Proofs Linear_Proofs Linear2_Proofs Pow_Proofs Curve_Proofs Xyz8_Proofs Lab8_Proofs.
Import ListNotations.
Local Open Scope R_scope.
Local Notation fin x := (is_finite x = true).

Lemma rnd_rel v : / 1000000000 <= v -> exists e, Rabs e <= u /\ rnd32 v = v * (1 + e).
Proof.
  intros H. destruct (Relative.relative_error_N_FLT_ex radix2 (-149) 24 eq_refl (fun x => negb (Z.even x)) v) as [e [He E]].
  - rewrite Rabs_right by lra. apply Rle_trans with (2 := H). apply Rle_trans with (bpow radix2 (-30)); [apply bpow_le; lia|simpl; lra].
  - exists e. split; [|exact E]. rewrite <- u_bpow. exact He.
Qed.

Lemma scale_err a e m : Rabs a <= m -> - u <= e <= u -> - (m * u) <= a * e <= m * u.
Proof.
  intros Ha He. apply Rabs_le_inv. rewrite Rabs_mult. apply Rmult_le_compat; try apply Rabs_pos; [exact Ha|]. apply Rabs_le. exact He.
Qed.
Lemma div_pert a T e e' : 0 <= a -> 0 <= T -> - u <= e <= u -> - u <= e' <= u -> a * (1 + e) = T * (1 + e') -> T * (1 - 3 * u) <= a <= T * (1 + 3 * u).
Proof.
  intros Ha HT He He' E. assert (E1 : T * (1 - u) <= T * (1 + e') <= T * (1 + u)) by (split; apply Rmult_le_compat_l; lra).
  assert (E2 : a * (1 - u) <= a * (1 + e) <= a * (1 + u)) by (split; apply Rmult_le_compat_l; lra). rewrite E in E2. unfold u in *; lra.
Qed.

Section Xyy.
Context (o : oracle).
Local Notation "x +. y" := (@fadd f32 (F32 o) x y) (at level 50, left associativity).
Local Notation "x -. y" := (@fsub f32 (F32 o) x y) (at level 50, left associativity).
Local Notation "x *. y" := (@fmul f32 (F32 o) x y) (at level 40, left associativity).
Local Notation "x /. y" := (@fdiv f32 (F32 o) x y) (at level 40, left associativity).
Local Notation "$ n" := (@fz f32 (F32 o) n) (at level 0).
Local Notation c100 := (@c100 f32 (F32 o)).

(** a positive value of ordinary size, up to rounding *)
Definition about (x : f32) (v e : R) : Prop := fin x /\ v * (1 - e) <= fval x <= v * (1 + e).
Lemma c100_same x : fin x -> 0 <= fval x <= 100 -> fin (c100 x) /\ fval (c100 x) = fval x.
Proof.
  intros Fx B. destruct (clamp_val o x 0 100) as [F V]; try sm; auto; try lia. split; [exact F|].
  unfold NormalForms.c100. change (fval (@clamp f32 (F32 o) x $100 $0)) with (B2R (@clamp f32 (F32 o) x $100 $0)). rewrite V.
  rewrite Rmin_left, Rmax_left; lra.
Qed.

Section Trip.
Variables (x y z : f32).
Hypothesis (Fx : fin x) (Fy : fin y) (Fz : fin z).
Hypothesis (Bx : / 1000000 <= fval x <= 11 / 10) (By : / 1000000 <= fval y <= 11 / 10) (Bz : / 1000000 <= fval z <= 11 / 10).
Let S := (x +. y) +. z.
Let cx := c100 (x /. S).
Let cy := c100 (y /. S).

Lemma xyy_trip : @feq f32 (F32 o) cy $0 = false /\
  near ((cx *. y) /. cy) (fval x) (7 * u) /\ near (((($1 -. cx) -. cy) *. y) /. cy) (fval z) (22 * u).
Proof.
  set (X := fval x) in * . set (Y := fval y) in * . set (V := fval z) in * .
  assert (HS : fin S /\ exists e1 e2, Rabs e1 <= u /\ Rabs e2 <= u /\ fval S = ((X + Y) * (1 + e1) + V) * (1 + e2)).
  { destruct (Bplus_ok x y 0 3 Fx Fy ltac:(sm) ltac:(sm)) as [F1 V1]; [fold X Y; lra|].
    destruct (rnd_rel (X + Y)) as [e1 [E1 R1]]; [lra|]. fold X Y in V1. rewrite R1 in V1. apply Rabs_le_inv in E1.
    assert (B1 : 0 <= (X + Y) * (1 + e1) <= 25 / 10) by (pose proof (scale_err (X + Y) e1 (22 / 10) ltac:(apply Rabs_le; lra) E1); num).
    destruct (Bplus_ok (Bplus mode_NE x y) z 0 4 F1 Fz ltac:(sm) ltac:(sm)) as [F2 V2]; [rewrite V1; fold V; lra|].
    rewrite V1 in V2. fold V in V2. destruct (rnd_rel ((X + Y) * (1 + e1) + V)) as [e2 [E2 R2]]; [lra|].
    split; [exact F2|]. exists e1, e2. split; [apply Rabs_le; lra|]. split; [exact E2|]. rewrite <- R2. exact V2. }
  destruct HS as [FS [e1 [e2 [E1 [E2 VS]]]]]. apply Rabs_le_inv in E1, E2. set (s := fval S) in * .
  assert (S1 : (X + Y + V) * (1 - 3 * u) <= s <= (X + Y + V) * (1 + 3 * u)).
  { rewrite VS. set (a := X + Y) in * . assert (a * (1 - u) <= a * (1 + e1) <= a * (1 + u)) by (split; apply Rmult_le_compat_l; unfold a; lra).
    set (b := a * (1 + e1)) in * . split.
    - apply Rle_trans with ((b + V) * (1 - u)); [|apply Rmult_le_compat_l; [unfold u, a in *; lra|lra]]. unfold u, a in *; lra.
    - apply Rle_trans with ((b + V) * (1 + u)); [apply Rmult_le_compat_l; [unfold u, a in *; lra|lra]|]. unfold u, a in *; lra. }
  assert (SB : / 400000 <= s <= 4) by (unfold u in *; lra).
  assert (XS : X <= s /\ Y <= s /\ V <= s) by (unfold u in *; lra).
  assert (Q : forall t T, fin t -> fval t = T -> / 1000000 <= T <= 11 / 10 -> T <= s -> fin (c100 (t /. S)) /\ exists e, Rabs e <= u /\ fval (c100 (t /. S)) = T / s * (1 + e)).
  { intros t T Ft VT BT LT. assert (QB : / 10000000 <= T / s <= 1).
    { split; [apply Rmult_le_reg_r with s; [lra|]; unfold Rdiv; rewrite Rmult_assoc, Rinv_l by lra; lra|].
      apply Rmult_le_reg_r with s; [lra|]; unfold Rdiv; rewrite Rmult_assoc, Rinv_l by lra; lra. }
    destruct (Bdiv_ok t S 0 1 Ft FS ltac:(fold s; lra) ltac:(sm) ltac:(sm)) as [F1 V1]; [fold s; rewrite VT; lra|].
    rewrite VT in V1. fold s in V1. destruct (rnd_rel (T / s)) as [e [E R]]; [lra|]. rewrite R in V1. apply Rabs_le_inv in E.
    destruct (c100_same (t /. S) F1) as [F2 V2]; [change (fval (t /. S)) with (fval (Bdiv mode_NE t S)); rewrite V1; pose proof (scale_err (T / s) e 1 ltac:(apply Rabs_le; lra) E); num|].
    split; [exact F2|]. exists e. split; [apply Rabs_le; lra|]. rewrite V2. exact V1. }
  destruct (Q x X Fx eq_refl Bx ltac:(tauto)) as [FX [e3 [E3 VX]]]. destruct (Q y Y Fy eq_refl By ltac:(tauto)) as [FY [e4 [E4 VY]]].
  fold cx in FX, VX. fold cy in FY, VY. apply Rabs_le_inv in E3, E4.
  set (p := fval cx) in * . set (q := fval cy) in * .
  assert (Ps : p * s = X * (1 + e3)) by (rewrite VX; field; lra). assert (Qs : q * s = Y * (1 + e4)) by (rewrite VY; field; lra).
  assert (QP : forall T e, / 1000000 <= T -> T <= s -> - u <= e <= u -> / 10000000 <= T / s * (1 + e) <= 11 / 10).
  { intros T e HT LT He. assert (/ 5000000 <= T / s <= 1).
    { split; [apply Rmult_le_reg_r with s; [lra|]; unfold Rdiv; rewrite Rmult_assoc, Rinv_l by lra; lra|].
      apply Rmult_le_reg_r with s; [lra|]; unfold Rdiv; rewrite Rmult_assoc, Rinv_l by lra; lra. }
    pose proof (Rmult_le_compat_l (T / s) (1 - u) (1 + e) ltac:(lra) ltac:(lra)). pose proof (scale_err (T / s) e 1 ltac:(apply Rabs_le; lra) He). num. }
  assert (PB : / 10000000 <= p <= 11 / 10) by (rewrite VX; apply QP; lra). assert (QB : / 10000000 <= q <= 11 / 10) by (rewrite VY; apply QP; lra). clear QP Q VX VY.
  (* the ratio y / cy *)
  set (k := Y / q). assert (K1 : k * q = Y) by (unfold k; field; lra).
  assert (K2 : k * (1 + e4) = s). { apply Rmult_eq_reg_l with q; [|lra]. rewrite Qs, <- Rmult_assoc, (Rmult_comm q k), K1. reflexivity. }
  assert (KB : 0 < k <= 5). { split; [unfold k; apply Rdiv_lt_0_compat; lra|]. assert (K0 : 0 <= k) by (unfold k; left; apply Rdiv_lt_0_compat; lra). assert (k * (1 - u) <= k * (1 + e4)) by (apply Rmult_le_compat_l; lra). rewrite K2 in H. num. }
  split; [|split].
  - destruct (fz_val o 0) as [F0 V0]; [sm|]. apply ne_val; [exact FY|exact F0|]. fold q. rewrite V0. lra.
  - destruct (Bmult_ok cx y 0 3 FX Fy ltac:(sm) ltac:(sm)) as [F1 V1]; [fold p Y; split; [apply Rmult_le_pos; lra|]; apply Rle_trans with (11 / 10 * (11 / 10)); [apply Rmult_le_compat; lra|lra]|]. fold p Y in V1.
    pose proof (rnd_err (p * Y)) as R1. rewrite <- V1 in R1. set (w := fval (Bmult mode_NE cx y)) in * .
    rewrite (Rabs_right (p * Y)) in R1 by (apply Rle_ge, Rmult_le_pos; lra). apply Rabs_le_inv in R1.
    assert (PK : X * (1 - 3 * u) <= p * k <= X * (1 + 3 * u)).
    { assert (T : p * k * (1 + e4) = X * (1 + e3)) by (rewrite Rmult_assoc, K2; exact Ps). set (pk := p * k) in * .
      assert (0 <= pk) by (apply Rmult_le_pos; lra). apply (div_pert pk X e4 e3); auto; lra. }
    assert (W : Rabs (w / q - X) <= 5 * u).
    { assert (T : w / q = p * k + (w - p * Y) / q) by (rewrite <- K1; field; lra).
      assert (D : Rabs ((w - p * Y) / q) <= 12 / 10 * u).
      { unfold Rdiv. rewrite Rabs_mult, (Rabs_right (/ q)) by (apply Rle_ge, Rlt_le, Rinv_0_lt_compat; lra).
        apply Rmult_le_reg_r with q; [lra|]. rewrite Rmult_assoc, Rinv_l, Rmult_1_r by lra.
        assert (Rabs (w - p * Y) <= u * (p * Y) + tiny) by (apply Rabs_le; lra).
        assert (PY : p * Y = p * k * q) by (rewrite <- K1; ring). rewrite PY in H. rewrite PY. set (pk := p * k) in * .
        assert (pk * q <= X * (1 + 3 * u) * q) by (apply Rmult_le_compat_r; lra). assert (X * (1 + 3 * u) * q <= 1101 / 1000 * q) by (apply Rmult_le_compat_r; num). num. }
      rewrite T. apply Rabs_le_inv in D. set (pk := p * k) in * . apply Rabs_le. num. }
    pose proof (rnd_near _ _ _ (11 / 10) W ltac:(apply Rabs_le; lra)) as RN.
    destruct (Bdiv_ok (Bmult mode_NE cx y) cy (-1) 2 F1 FY ltac:(fold q; lra) ltac:(sm) ltac:(sm)) as [F2 V2]; [change (-1 <= w / q <= 2); apply Rabs_le_inv in W; num|].
    split; [exact F2|]. change (fval (cx *. y /. cy)) with (fval (Bdiv mode_NE (Bmult mode_NE cx y) cy)). rewrite V2. fold w q. eapply Rle_trans; [exact RN|num].
  - (* 1 - cx - cy *)
    destruct (fz_val o 1) as [F1 V1]; [sm|].
    destruct (Bminus_ok $1 cx (-1) 2 F1 FX ltac:(sm) ltac:(sm)) as [F2 V2]; [change (B2R cx) with p; change (B2R $1) with (fval $1); rewrite V1; lra|].
    destruct (rnd_minus $1 cx) as [e7 [E7 R7]]. fold p in R7. rewrite V1 in R7. fold p in V2. rewrite V1, R7 in V2. apply Rabs_le_inv in E7.
    set (d1 := fval (Bminus mode_NE $1 cx)) in * .
    destruct (Bminus_ok (Bminus mode_NE $1 cx) cy (-3) 2 F2 FY ltac:(sm) ltac:(sm)) as [F3 V3]; [fold d1 q; rewrite V2; pose proof (scale_err (1 - p) e7 2 ltac:(apply Rabs_le; lra) E7); num|].
    destruct (rnd_minus (Bminus mode_NE $1 cx) cy) as [e8 [E8 R8]]. fold d1 q in R8. fold d1 q in V3. rewrite R8 in V3. apply Rabs_le_inv in E8.
    set (d := fval (Bminus mode_NE (Bminus mode_NE $1 cx) cy)) in * . rewrite V2 in V3.
    (* d * s against z *)
    assert (DS : Rabs (d * s - V) <= 15 * u).
    { assert (T : d * s = ((s - X * (1 + e3)) * (1 + e7) - Y * (1 + e4)) * (1 + e8)) by (rewrite V3, <- Ps, <- Qs; ring). rewrite T.
      pose proof (scale_err X e3 (11 / 10) ltac:(apply Rabs_le; lra) E3) as A0. pose proof (scale_err Y e4 (11 / 10) ltac:(apply Rabs_le; lra) E4) as A1.
      assert (AS : Rabs (s - (X + Y + V)) <= 6 * u).
      { rewrite VS. pose proof (scale_err (X + Y) e1 (22 / 10) ltac:(apply Rabs_le; lra) E1).
        replace (((X + Y) * (1 + e1) + V) * (1 + e2) - (X + Y + V)) with ((X + Y) * e1 + ((X + Y + V) + (X + Y) * e1) * e2) by ring.
        pose proof (scale_err ((X + Y + V) + (X + Y) * e1) e2 (34 / 10) ltac:(apply Rabs_le; num) E2). apply Rabs_le. lra. }
      apply Rabs_le_inv in AS. set (b := s - X * (1 + e3)) in * .
      assert (BB : Rabs b <= 23 / 10) by (unfold b; apply Rabs_le; num). pose proof (scale_err b e7 (23 / 10) BB E7) as BE.
      assert (B2 : - (105 / 10 * u) <= b * (1 + e7) - Y * (1 + e4) - V <= 105 / 10 * u) by (unfold b in *; lra).
      set (m := b * (1 + e7) - Y * (1 + e4)) in * . pose proof (scale_err m e8 (12 / 10) ltac:(apply Rabs_le; num) E8).
      apply Rabs_le. replace (m * (1 + e8) - V) with ((m - V) + m * e8) by ring. num. }
    assert (DK : Rabs (d * k - V) <= 18 * u).
    { apply Rabs_le_inv in DS. assert (T : d * k * (1 + e4) = d * s) by (rewrite Rmult_assoc, K2; reflexivity). set (dk := d * k) in * . rewrite <- T in DS.
      assert (RD : Rabs dk <= 12).
      { unfold dk. rewrite Rabs_mult, (Rabs_right k) by lra. rewrite V3, Rabs_mult. pose proof (scale_err (1 - p) e7 2 ltac:(apply Rabs_le; lra) E7).
        assert (Rabs ((1 - p) * (1 + e7) - q) <= 23 / 10) by (apply Rabs_le; num). assert (Rabs (1 + e8) <= 101 / 100) by (apply Rabs_le; num).
        apply Rle_trans with (23 / 10 * (101 / 100) * 5); [|lra]. apply Rmult_le_compat; [apply Rmult_le_pos; apply Rabs_pos|lra| |lra]. apply Rmult_le_compat; try apply Rabs_pos; assumption. }
      pose proof (scale_err dk e4 12 RD E4) as S12. assert (RD2 : Rabs dk <= 12 / 10) by (apply Rabs_le; num). pose proof (scale_err dk e4 (12 / 10) RD2 E4). apply Rabs_le. lra. }
    apply Rabs_le_inv in DK.
    assert (DB : - 3 <= d <= 2).
    { rewrite V3. pose proof (scale_err (1 - p) e7 2 ltac:(apply Rabs_le; lra) E7). pose proof (scale_err ((1 - p) * (1 + e7) - q) e8 3 ltac:(apply Rabs_le; num) E8). num. }
    destruct (Bmult_ok (Bminus mode_NE (Bminus mode_NE $1 cx) cy) y (-4) 3 F3 Fy ltac:(sm) ltac:(sm)) as [F4 V4]; [fold d Y; clear - DB By; nra|]. fold d Y in V4.
    pose proof (rnd_err (d * Y)) as R4. rewrite <- V4 in R4. set (w := fval (Bmult mode_NE (Bminus mode_NE (Bminus mode_NE $1 cx) cy) y)) in * .
    assert (W : Rabs (w / q - V) <= 20 * u).
    { assert (T : w / q = d * k + (w - d * Y) / q) by (rewrite <- K1; field; lra).
      assert (D : Rabs ((w - d * Y) / q) <= 13 / 10 * u).
      { unfold Rdiv. rewrite Rabs_mult, (Rabs_right (/ q)) by (apply Rle_ge, Rlt_le, Rinv_0_lt_compat; lra).
        apply Rmult_le_reg_r with q; [lra|]. rewrite Rmult_assoc, Rinv_l, Rmult_1_r by lra.
        assert (PY : d * Y = d * k * q) by (rewrite <- K1; ring). rewrite PY in R4. rewrite PY. set (dk := d * k) in * .
        rewrite Rabs_mult, (Rabs_right q) in R4 by lra. assert (Rabs dk <= 12 / 10) by (apply Rabs_le; num).
        assert (Rabs dk * q <= 12 / 10 * q) by (apply Rmult_le_compat_r; lra). num. }
      rewrite T. apply Rabs_le_inv in D. set (dk := d * k) in * . apply Rabs_le. num. }
    pose proof (rnd_near _ _ _ (11 / 10) W ltac:(apply Rabs_le; lra)) as RN.
    destruct (Bdiv_ok (Bmult mode_NE (Bminus mode_NE (Bminus mode_NE $1 cx) cy) y) cy (-1) 2 F4 FY ltac:(fold q; lra) ltac:(sm) ltac:(sm)) as [F5 V5]; [change (-1 <= w / q <= 2); apply Rabs_le_inv in W; num|].
    split; [exact F5|]. change (fval (($1 -. cx -. cy) *. y /. cy)) with (fval (Bdiv mode_NE (Bmult mode_NE (Bminus mode_NE (Bminus mode_NE $1 cx) cy) y) cy)). rewrite V5. fold w q. eapply Rle_trans; [exact RN|num].
Qed.
End Trip.
End Xyy.
