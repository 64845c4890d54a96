(** * Blending translucent 8-bit colours in binary32: one channel of the result (C164, C165) *)
From Coq Require Import ZArith QArith Reals Lra Lia List Bool.
From Flocq Require Import Core IEEE754.BinarySingleNaN.
From Verif Require Import Arith Outcome ColorModel GammaModel MatrixModel SpaceModel Heap Converter Calculation Blend F32 F32Facts RArith
  Spec Spec32 Laws NormalForms Alpha8 Core_Proofs Core2_Proofs Core3_Proofs Core4_Proofs Hue32 Spec_Matrix Spec_Conv Spec_Calc Spec_Blend Spec_Round
  Conv_Proofs Conv2_Proofs Run_Proofs Round_Proofs Round2_Proofs Error_Proofs Error2_Proofs Error4_Proofs Error5_Proofs Error7_Proofs Spec_Error
  Linear2_Proofs Curve_Proofs Blend_Proofs Blend2_Proofs Spec_Byte Byte_Proofs Veil_Proofs.
Import ListNotations.
Local Open Scope R_scope.
Local Notation fin x := (is_finite x = true).

Definition cut (v : R) : R := Rmax 0 (Rmin 1 v).
Lemma cut_id v : 0 <= v <= 1 -> cut v = v.
Proof. intros H. unfold cut. rewrite Rmin_right, Rmax_right; lra. Qed.
Lemma cut_hi v : 1 <= v -> cut v = 1.
Proof. intros H. unfold cut. rewrite Rmin_left, Rmax_right; lra. Qed.
Lemma cut_lo v : v <= 0 -> cut v = 0.
Proof. intros H. unfold cut. rewrite Rmin_right, Rmax_left; lra. Qed.
Lemma cut_cases v : (v <= 0 /\ cut v = 0) \/ (0 <= v <= 1 /\ cut v = v) \/ (1 <= v /\ cut v = 1).
Proof.
  destruct (Rle_dec v 0); [left; split; [lra|apply cut_lo; lra]|]. destruct (Rle_dec 1 v); [right; right; split; [lra|apply cut_hi; lra]|].
  right; left. split; [lra|apply cut_id; lra].
Qed.

(** The cut sum divided by the computed alpha. *)
Lemma quot_err al A N Z eta : 0 < al <= 1 -> Rabs (A - al) <= 270 * u * al -> 0 <= eta <= 3000 * u ->
  Rabs (Z - N) <= eta * al + 6 * u * Rmax 0 N -> 0 < A /\ Rabs (cut (rnd32 (cut Z / A)) - cut (N / al)) <= 1001 / 1000 * eta + 280 * u.
Proof.
  intros Ha EA He EZ. apply Rabs_le_inv in EA. apply Rabs_le_inv in EZ. assert (PA : 0 < A) by num. split; [exact PA|].
  set (V := N / al). assert (EN : N = V * al) by (unfold V; field; lra). clearbody V. set (c := cut Z).
  pose proof (clamp01 Z) as Bc. change (0 <= c <= 1) in Bc.
  assert (Y0 : 0 <= c / A) by (apply Rmult_le_pos; [lra|left; apply Rinv_0_lt_compat, PA]).
  set (Y := c / A) in * . assert (EY : c = Y * A) by (unfold Y; field; lra).
  pose proof (rnd_err Y) as RE. rewrite (Rabs_pos_eq Y) in RE by exact Y0. apply Rabs_le_inv in RE.
  (* upper bound *)
  assert (UP : V <= 1 -> cut (rnd32 Y) <= cut V + (1001 / 1000 * eta + 280 * u)).
  { intros V1. set (W := Rmax 0 V). assert (CW : cut V = W) by (unfold cut; rewrite Rmin_right by lra; reflexivity). rewrite CW.
    assert (BW : 0 <= W <= 1) by (unfold W; split; [apply Rmax_l|apply Rmax_lub; lra]).
    assert (NW : Rmax 0 N = W * al). { rewrite EN. unfold W, Rmax. destruct (Rle_dec 0 V), (Rle_dec 0 (V * al)); try lra; exfalso.
      - apply n. apply Rmult_le_pos; lra.
      - assert (V * al <= 0 * al) by (apply Rmult_le_compat_r; lra). assert (V * al = 0) by lra. apply Rmult_integral in H0. lra. }
    assert (NV : N <= W * al) by (rewrite EN; apply Rmult_le_compat_r; [lra|apply Rmax_r]).
    rewrite NW in EZ.
    assert (CZ : c <= Rmax 0 Z) by (unfold c, cut; apply Rmax_lub; [apply Rmax_l|apply Rle_trans with Z; [apply Rmin_r|apply Rmax_r]]).
    assert (WA : 0 <= W * al) by (apply Rmult_le_pos; lra). assert (EAl : 0 <= eta * al) by (apply Rmult_le_pos; lra).
    assert (C1 : c <= (1 + 6 * u) * (W * al) + eta * al).
    { apply Rle_trans with (1 := CZ). apply Rmax_lub; [num|]. lra. }
    assert (YU : Y <= W + (10001 / 10000 * eta + 277 * u)).
    { apply (Rmult_le_reg_r A); [exact PA|]. rewrite <- EY. apply Rle_trans with (1 := C1).
      apply Rle_trans with ((W + (10001 / 10000 * eta + 277 * u)) * (al * (1 - 270 * u))); [|apply Rmult_le_compat_l; [num|lra]].
      replace ((W + (10001 / 10000 * eta + 277 * u)) * (al * (1 - 270 * u))) with ((1 - 270 * u) * (W * al) + 10001 / 10000 * (1 - 270 * u) * (eta * al) + 277 * u * (1 - 270 * u) * al) by field.
      assert (W * al <= al) by (rewrite <- (Rmult_1_l al) at 2; apply Rmult_le_compat_r; lra).
      set (wa := W * al) in * . set (ea := eta * al) in * . clearbody wa ea. num. }
    destruct (cut_cases (rnd32 Y)) as [[B E]|[[B E]|[B E]]]; rewrite E; clear E EY; clearbody Y W c; num. }
  assert (UP' : cut (rnd32 Y) <= cut V + (1001 / 1000 * eta + 280 * u)).
  { destruct (Rle_dec V 1) as [L|L]; [exact (UP L)|]. rewrite (cut_hi V) by lra. pose proof (clamp01 (rnd32 Y)) as B. change (0 <= cut (rnd32 Y) <= 1) in B. num. }
  clear UP.
  assert (LO : cut V - (1001 / 1000 * eta + 280 * u) <= cut (rnd32 Y)).
  { pose proof (clamp01 (rnd32 Y)) as B. change (0 <= cut (rnd32 Y) <= 1) in B. pose proof (clamp01 V) as BV. change (0 <= cut V <= 1) in BV.
    assert (YL : cut V - eta - 277 * u <= Y).
    { destruct (Rle_dec 1 Z) as [Z1|Z1].
      - assert (c = 1) as C1 by (apply cut_hi; lra). apply (Rmult_le_reg_r A); [exact PA|]. rewrite <- EY, C1.
        apply Rle_trans with ((1 - 277 * u) * A); [apply Rmult_le_compat_r; lra|].
        apply Rle_trans with ((1 - 277 * u) * (1 + 270 * u)); [apply Rmult_le_compat_l; [num|]|num]. assert (u * al <= u * 1) by (apply Rmult_le_compat_l; [num|lra]). num.
      - destruct (Rle_dec V 0) as [V0|V0]; [rewrite (cut_lo V V0); num|].
        assert (P : 0 < N) by (rewrite EN; apply Rmult_lt_0_compat; lra). rewrite Rmax_right in EZ by lra.
        assert (CZ : Z <= c). { unfold c, cut. rewrite Rmin_right by lra. apply Rmax_r. }
        destruct (Rle_dec (cut V - eta - 277 * u) 0) as [L|L]; [lra|].
        apply (Rmult_le_reg_r A); [exact PA|]. rewrite <- EY. apply Rle_trans with (2 := CZ).
        apply Rle_trans with ((cut V - eta - 277 * u) * (al * (1 + 270 * u))); [apply Rmult_le_compat_l; lra|].
        apply Rle_trans with (N * (1 - 6 * u) - eta * al); [|lra].
        assert (CV : cut V * al <= N). { rewrite EN. apply Rmult_le_compat_r; [lra|]. unfold cut. rewrite Rmax_right by (apply Rmin_glb; lra). apply Rmin_r. }
        assert (CV1 : cut V * al <= al) by (rewrite <- (Rmult_1_l al) at 2; apply Rmult_le_compat_r; lra).
        assert (CV0 : 0 <= cut V * al) by (apply Rmult_le_pos; lra).
        assert (EAl : 0 <= eta * al) by (apply Rmult_le_pos; lra).
        replace ((cut V - eta - 277 * u) * (al * (1 + 270 * u))) with ((1 + 270 * u) * (cut V * al) - (1 + 270 * u) * (eta * al) - 277 * u * (1 + 270 * u) * al) by ring.
        set (va := cut V * al) in * . set (ea := eta * al) in * . clearbody va ea. clear - CV CV1 CV0 EAl Ha. num. }
    destruct (cut_cases (rnd32 Y)) as [[Q E]|[[Q E]|[Q E]]]; rewrite E in * ; clear E EY UP' EZ EN Bc; clearbody Y c; clear c; set (cv := cut V) in * ; clearbody cv; num. }
  apply Rabs_le. lra.
Qed.

Lemma clamp_Z z : IZR (Z.max (Z.min z 255) 0) = Rmax (Rmin (IZR z) 255) 0.
Proof.
  destruct (Z.le_gt_cases z 255) as [L|L].
  - rewrite Z.min_l, Rmin_left by (try apply IZR_le; lia). destruct (Z.le_gt_cases 0 z) as [P|P].
    + rewrite Z.max_l, Rmax_left; [reflexivity|apply (IZR_le 0); lia|lia].
    + rewrite Z.max_r, Rmax_right; [reflexivity|apply (IZR_le z 0); lia|lia].
  - rewrite Z.min_r, Rmin_right by (try apply (IZR_le 255); lia). rewrite Rmax_left by lra. reflexivity.
Qed.

Section V2.
Variable o : oracle.
Local Notation "x +. y" := (@fadd f32 (F32 o) x y) (at level 50, left associativity).
Local Notation "x -. y" := (@fsub f32 (F32 o) x y) (at level 50, left associativity).
Local Notation "x *. y" := (@fmul f32 (F32 o) x y) (at level 40, left associativity).
Local Notation "x /. y" := (@fdiv f32 (F32 o) x y) (at level 40, left associativity).
Local Notation "$ n" := (fz (H := F32 o) n) (at level 2).
Local Notation c01 := (@c01 f32 (F32 o)).
Local Notation byte x := (@c255 f32 (F32 o) (@fround f32 (F32 o) (x *. $255))).

Lemma to_close (x : f32) v e : fin x -> 0 <= fval x <= 65500 -> Rabs (cut (fval x) - v) <= e -> close_byte (255 * e + 400 * u) (255 * v) (byte x).
Proof.
  intros F B E. destruct (fz_val o 255) as [F2 V2]; [sm|].
  destruct (Bmult_ok x $255 0 16777216 F F2) as [Fm Vm]; try sm; [rewrite V2; lra|]. change (x *. $255) with (Bmult mode_NE x $255). rewrite V2 in Vm.
  set (m := Bmult mode_NE x $255) in * . clearbody m. destruct (fround_val o m Fm) as [z [Vz Dz]].
  destruct (clamp_val o (@fround f32 (F32 o) m) 0 255) as [Fc Vc]; try sm; [lia|apply Vz|]. destruct Vz as [Fz Vz]. change (fval (@fround f32 (F32 o) m)) with (B2R (@fround f32 (F32 o) m)) in Vc. rewrite Vz in Vc.
  exists (Z.max (Z.min z 255) 0). split; [unfold is_byte; lia|]. split.
  - split; [exact Fc|]. rewrite clamp_Z. exact Vc.
  - rewrite clamp_Z. pose proof (rnd_err (fval x * 255)) as RE. rewrite <- Vm in RE. rewrite (Rabs_pos_eq (fval x * 255)) in RE by lra.
    apply Rabs_le_inv in RE. apply Rabs_le_inv in E. apply Rabs_le_inv in Dz. apply Rabs_le.
    unfold Rmax, Rmin. destruct (cut_cases (fval x)) as [[Q K]|[[Q K]|[Q K]]]; rewrite K in * ; clear K;
    destruct (Rle_dec (IZR z) 255); repeat match goal with |- context [Rle_dec ?p ?q] => destruct (Rle_dec p q) end; num.
Qed.

(** Alpha. *)
Lemma alpha_near us ud ub i j x y : is_byte i -> is_byte j -> fin x -> fin y -> fval x = q255 i -> fval y = q255 j ->
  near (@blend_alpha f32 (F32 o) us ud ub x y) (coverage us ud ub (IZR i / 255) (IZR j / 255)) (40 * u).
Proof.
  intros Hi Hj Fx Fy Ex Ey. pose proof (frac_byte i Hi) as Bi. pose proof (frac_byte j Hj) as Bj.
  assert (Nx : near x (IZR i / 255) (11 / 10 * u)) by (split; [exact Fx|]; rewrite Ex; apply q255_near, Hi).
  assert (Ny : near y (IZR j / 255) (11 / 10 * u)) by (split; [exact Fy|]; rewrite Ey; apply q255_near, Hj).
  pose proof (weights i j Hi Hj) as W. unfold w_s, w_d, w_b in W. rewrite <- !frac_compl in W. pose proof (w_sum i j Hi Hj) as WS. unfold w_s, w_d, w_b in WS. rewrite <- !frac_compl in WS.
  set (a := IZR i / 255) in * . set (b := IZR j / 255) in * . clearbody a b.
  assert (N1 : near $1 1 0) by (apply near_fz; sm).
  assert (C : forall z c, near z c (11 / 10 * u) -> 0 <= c <= 1 -> near ($1 -. z) (1 - c) (22 / 10 * u)).
  { intros z c Nz Bc. eapply near_weaken; [apply (near_sub o $1 z 1 c 0 (11 / 10 * u) 1 N1 Nz)|]; [apply Rabs_le; lra|num|num]. }
  assert (M : forall z1 z2 v1 v2, near z1 v1 (22 / 10 * u) -> near z2 v2 (22 / 10 * u) -> 0 <= v1 <= 1 -> 0 <= v2 <= 1 -> near (z1 *. z2) (v1 * v2) (6 * u)).
  { intros z1 z2 v1 v2 A1 A2 B1 B2. assert (0 <= v1 * v2 <= 1) by (split; [apply Rmult_le_pos; lra|rewrite <- (Rmult_1_l 1); apply Rmult_le_compat; lra]).
    eapply near_weaken; [apply (near_mul o z1 z2 v1 v2 (22 / 10 * u) (22 / 10 * u) 1 1 1 A1 A2)|]; try (apply Rabs_le; lra); num. }
  assert (G : forall z v (f : bool), near z v (6 * u) -> 0 <= v <= 1 -> near (z *. (if f then $1 else $0)) (if f then v else 0) (8 * u)).
  { intros z v f A B. destruct f.
    - pose proof (near_mul o z $1 v 1 (6 * u) 0 1 1 1 A N1) as K. rewrite Rmult_1_r in K. eapply near_weaken; [apply K|]; try (apply Rabs_le; lra); num.
    - assert (N0 : near $0 0 0) by (apply near_fz; sm). pose proof (near_mul o z $0 v 0 (6 * u) 0 1 0 0 A N0) as K. rewrite Rmult_0_r in K. eapply near_weaken; [apply K|]; try (apply Rabs_le; lra); num. }
  assert (Nx' : near x a (22 / 10 * u)) by (eapply near_weaken; [exact Nx|num]). assert (Ny' : near y b (22 / 10 * u)) by (eapply near_weaken; [exact Ny|num]).
  unfold blend_alpha, blend_sum, coverage.
  pose proof (G _ _ us (M x ($1 -. y) a (1 - b) Nx' (C y b Ny Bj) Bi ltac:(lra)) ltac:(lra)) as T1.
  pose proof (G _ _ ud (M y ($1 -. x) b (1 - a) Ny' (C x a Nx Bi) Bj ltac:(lra)) ltac:(lra)) as T2.
  pose proof (G _ _ ub (M x y a b Nx' Ny' Bi Bj) ltac:(lra)) as T3.
  assert (P : forall (f : bool) v, 0 <= v -> 0 <= (if f then v else 0) <= v) by (intros [] v Pv; lra).
  pose proof (P us (a * (1 - b)) ltac:(lra)) as P1. pose proof (P ud (b * (1 - a)) ltac:(lra)) as P2. pose proof (P ub (a * b) ltac:(lra)) as P3.
  assert (A12 : near (x *. ($1 -. y) *. (if us then $1 else $0) +. y *. ($1 -. x) *. (if ud then $1 else $0)) ((if us then a * (1 - b) else 0) + (if ud then b * (1 - a) else 0)) (18 * u)).
  { eapply near_weaken; [apply (near_add o _ _ _ _ _ _ 1 T1 T2)|]; [apply Rabs_le; lra|num|num]. }
  eapply near_weaken; [apply (near_add o _ _ _ _ _ _ 1 A12 T3)|]; [apply Rabs_le; lra|num|num].
Qed.
End V2.
