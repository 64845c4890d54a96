(** * XYZ to Lab in binary32 against the CIE formula (C217) *)
From Coq Require Import ZArith QArith Qreals Qabs Reals Lra Lia Psatz List Bool.
From Flocq Require Import Core IEEE754.BinarySingleNaN.
From Verif Require Import Arith Outcome ColorModel GammaModel MatrixModel SpaceModel Heap Converter F32 F32Facts Spec Spec32 Laws NormalForms
  Core_Proofs Core2_Proofs Core3_Proofs Core4_Proofs Spec_Error Spec_Conv Spec_Round Spec_Formula Spec_Lab Conv_Proofs Run_Proofs Round_Proofs Error_Proofs Error2_Proofs Error3_Proofs Error4_Proofs Linear_Proofs Linear2_Proofs Pow_Proofs Curve_Proofs Lab8_Proofs.
Import ListNotations.
Local Open Scope R_scope.
Local Notation fin x := (is_finite x = true).

(** ** The compression function *)
Lemma fl_cie t : cie_f t = fl t.
Proof.
  unfold cie_f, fl, e0, k0. destruct (Rlt_dec (216 / 24389) t), (Rle_dec t (216 / 24389)); try lra.
  replace (1 / 3) with (/ 3) by lra. reflexivity.
Qed.
(** It is increasing, and its slope is at most that of the line. *)
Lemma fl_steep x y : 0 <= y <= x -> 0 <= fl x - fl y <= 8 * (x - y).
Proof.
  intros H. destruct (fl_cases x ltac:(lra)) as [[Lx Ex]|[Lx [Px Ex]]], (fl_cases y ltac:(lra)) as [[Ly Ey]|[Ly [Py Ey]]]; try lra.
  - rewrite Ex, Ey. unfold k0. lra.
  - pose proof (fl_low y ltac:(lra)) as B. pose proof (fl_high x ltac:(lra)) as A. set (c := fl x) in * . set (d := fl y) in * . split; [lra|].
    assert (D : 6 / 29 - d = k0 / 116 * (e0 - y)) by (rewrite Ey; unfold k0, e0; field).
    assert (0 <= (c - 6 / 29) * ((c - 6 / 29) * (c + 12 / 29))) by (apply Rmult_le_pos; [lra|apply Rmult_le_pos; lra]).
    assert (c - 6 / 29 <= 8 * (x - e0)) by (rewrite <- Ex; unfold e0; lra).
    unfold k0, e0 in * . lra.
  - pose proof (fl_high x ltac:(lra)) as A. pose proof (fl_high y ltac:(lra)) as B. set (c := fl x) in * . set (d := fl y) in * .
    assert (dc : d <= c) by (apply cube_le; lra). split; [lra|]. rewrite <- Ex, <- Ey.
    replace (c * c * c - d * d * d) with ((c - d) * (c * c + c * d + d * d)) by ring.
    assert (6 / 29 * (6 / 29) <= c * c) by (apply Rmult_le_compat; lra). assert (6 / 29 * (6 / 29) <= c * d) by (apply Rmult_le_compat; lra).
    assert (6 / 29 * (6 / 29) <= d * d) by (apply Rmult_le_compat; lra).
    pose proof (Rmult_le_compat_l (c - d) (1 / 8) (c * c + c * d + d * d) ltac:(lra) ltac:(lra)). lra.
Qed.

Section L.
Context (o : oracle) (AP : accurate_pow o).
Local Notation "x +. y" := (@fadd f32 (F32 o) x y) (at level 50, left associativity).
Local Notation "x -. y" := (@fsub f32 (F32 o) x y) (at level 50, left associativity).
Local Notation "x *. y" := (@fmul f32 (F32 o) x y) (at level 40, left associativity).
Local Notation "x /. y" := (@fdiv f32 (F32 o) x y) (at level 40, left associativity).
Local Notation "$ n" := (@fz f32 (F32 o) n) (at level 0).

Lemma ratio x w : fin x -> 0 <= fval x -> below_white x w ->
  0 <= fval x / fval w <= 1 /\ fin (x /. w) /\ 0 <= fval (x /. w) <= 1 /\ Rabs (fval (x /. w) - fval x / fval w) <= u + tiny.
Proof.
  intros Fx Px [Fw [Pw L]]. change (@B2R 24 128) with fval in * .
  assert (Q : 0 <= fval x / fval w <= 1).
  { split; [apply Rmult_le_pos; [lra|left; apply Rinv_0_lt_compat; lra]|]. apply Rmult_le_reg_r with (fval w); [lra|].
    unfold Rdiv. rewrite Rmult_assoc, Rinv_l by lra. lra. }
  split; [exact Q|]. change (x /. w) with (Bdiv mode_NE x w).
  destruct (Bdiv_ok x w 0 1 Fx Fw ltac:(lra) ltac:(sm) ltac:(sm) Q) as [F V]. split; [exact F|]. rewrite V.
  split; [exact (rnd32_bounds _ 0 1 ltac:(sm) ltac:(sm) Q)|].
  apply Rle_trans with (1 := rnd_err _). rewrite (Rabs_pos_eq (fval x / fval w)) by lra. num.
Qed.
Lemma helper_cie x w : fin x -> 0 <= fval x -> below_white x w ->
  near (@xyz_to_lab_helper f32 (F32 o) (x /. w)) (cie_f (fval x / fval w)) (30 * u) /\ 4 / 29 <= cie_f (fval x / fval w) <= 1 + 14 * u.
Proof.
  intros Fx Px BW. destruct (ratio x w Fx Px BW) as [Q [F [B E]]]. rewrite fl_cie. set (t := fval x / fval w) in * . split; [|apply fl_bounds; num].
  replace (30 * u) with (21 * u + 9 * u) by ring. eapply near_move; [apply (helper_forth o AP (x /. w) F); num|].
  apply Rabs_le_inv in E. apply Rabs_le. destruct (Rle_dec t (fval (x /. w))) as [L|L].
  - pose proof (fl_steep (fval (x /. w)) t ltac:(lra)). num.
  - pose proof (fl_steep t (fval (x /. w)) ltac:(lra)). num.
Qed.
Lemma near_cut x v e lo hi : near x v e -> small lo -> small hi -> (lo <= hi)%Z -> near (@clamp f32 (F32 o) x $hi $lo) (cut (IZR lo) (IZR hi) v) e.
Proof.
  intros [Fx Ex] Sl Sh LH. destruct (clamp_val o x lo hi) as [F V]; auto. split; [exact F|].
  change (fval (@clamp f32 (F32 o) x $hi $lo)) with (B2R (@clamp f32 (F32 o) x $hi $lo)). rewrite V. apply IZR_le in LH.
  apply Rabs_le_inv in Ex. apply Rabs_le. unfold cut, Rmax, Rmin. destruct (Rle_dec (fval x) (IZR hi)), (Rle_dec (IZR hi) v); repeat destruct Rle_dec; lra.
Qed.
End L.

Lemma white_load32 o (h : heap f32) (c : color f32) w : @white_of f32 (F32 o) h c w -> @load_white f32 c h = (Ok w, h).
Proof. intros [i [s [a [E [Hs Hw]]]]]. unfold load_white, bind, load_space. rewrite E, Hs, Hw. reflexivity. Qed.

Lemma to_lab_accurate o (h : heap f32) p (c : color f32) w x y z : accurate_pow o -> at_addr h p c -> @wf_color f32 (F32 o) XYZ c -> comps c = [x; y; z] ->
  @white_of f32 (F32 o) h c w -> below_white x (tx w) -> below_white y (ty_ w) -> below_white z (tz w) ->
  forall W, W = white_value w ->
  @yields f32 (@to_lab f32 (F32 o)) h p (fun m => ty m = LAB /\ rgb_space m = rgb_space c /\
    comp_sat m 0 (approx (cut 0 100 (cie_L W (B2R y))) (/ 4000)) /\ comp_sat m 1 (approx (cut (-128) 128 (cie_a W (B2R x) (B2R y))) (/ 500)) /\
    comp_sat m 2 (approx (cut (-128) 128 (cie_b W (B2R y) (B2R z))) (/ 1250))).
Proof.
  intros AP Hp WF Ec Hw BX BY BZ W EW.
  assert (RR : (fin x /\ 0 <= fval x) /\ (fin y /\ 0 <= fval y) /\ (fin z /\ 0 <= fval z)).
  { pose proof (wf_range _ _ WF) as K. rewrite Ec in K.
    pose proof (proj1 (within32 o 0 100 x ltac:(sm) ltac:(sm)) (K 0%nat x eq_refl)) as K0. pose proof (proj1 (within32 o 0 100 y ltac:(sm) ltac:(sm)) (K 1%nat y eq_refl)) as K1.
    pose proof (proj1 (within32 o 0 100 z ltac:(sm) ltac:(sm)) (K 2%nat z eq_refl)) as K2. tauto. }
  destruct RR as [[Fx Px] [[Fy Py] [Fz Pz]]].
  destruct (helper_cie o AP x (tx w) Fx Px BX) as [NX RX]. destruct (helper_cie o AP y (ty_ w) Fy Py BY) as [NY RY]. destruct (helper_cie o AP z (tz w) Fz Pz BZ) as [NZ RZ].
  set (fx := @xyz_to_lab_helper f32 (F32 o) (@fdiv f32 (F32 o) x (tx w))) in * .
  set (fy := @xyz_to_lab_helper f32 (F32 o) (@fdiv f32 (F32 o) y (ty_ w))) in * .
  set (fz_ := @xyz_to_lab_helper f32 (F32 o) (@fdiv f32 (F32 o) z (tz w))) in * .
  set (L := @fsub f32 (F32 o) (@fmul f32 (F32 o) (@fz f32 (F32 o) 116) fy) (@fz f32 (F32 o) 16)).
  set (A := @fmul f32 (F32 o) (@fz f32 (F32 o) 500) (@fsub f32 (F32 o) fx fy)).
  set (B := @fmul f32 (F32 o) (@fz f32 (F32 o) 200) (@fsub f32 (F32 o) fy fz_)).
  set (X := cie_f (fval x / fval (tx w))) in * . set (Y := cie_f (fval y / fval (ty_ w))) in * . set (V := cie_f (fval z / fval (tz w))) in * .
  assert (NL : near L (116 * Y - 16) (/ 4000)).
  { pose proof (near_mul o _ _ _ _ _ _ 116 (11 / 10) 117 (near_fz o 116 ltac:(sm)) NY ltac:(apply Rabs_le; lra) ltac:(apply Rabs_le; num) ltac:(apply Rabs_le; num) ltac:(num)) as N1.
    pose proof (near_sub o _ _ _ _ _ _ 101 N1 (near_fz o 16 ltac:(sm)) ltac:(apply Rabs_le; num) ltac:(num)) as N2.
    eapply near_weaken; [exact N2|num]. }
  assert (NA : near A (500 * (X - Y)) (/ 500)).
  { pose proof (near_sub o _ _ _ _ _ _ (9 / 10) NX NY ltac:(apply Rabs_le; num) ltac:(num)) as N1.
    pose proof (near_mul o _ _ _ _ _ _ 500 (9 / 10) 450 (near_fz o 500 ltac:(sm)) N1 ltac:(apply Rabs_le; lra) ltac:(apply Rabs_le; num) ltac:(apply Rabs_le; num) ltac:(num)) as N2.
    eapply near_weaken; [exact N2|num]. }
  assert (NB : near B (200 * (Y - V)) (/ 1250)).
  { pose proof (near_sub o _ _ _ _ _ _ (9 / 10) NY NZ ltac:(apply Rabs_le; num) ltac:(num)) as N1.
    pose proof (near_mul o _ _ _ _ _ _ 200 (9 / 10) 180 (near_fz o 200 ltac:(sm)) N1 ltac:(apply Rabs_le; lra) ltac:(apply Rabs_le; num) ltac:(apply Rabs_le; num) ltac:(num)) as N2.
    eapply near_weaken; [exact N2|num]. }
  pose proof (near_cut o _ _ _ 0 100 NL ltac:(sm) ltac:(sm) ltac:(lia)) as CL. pose proof (near_cut o _ _ _ (-128) 128 NA ltac:(sm) ltac:(sm) ltac:(lia)) as CA.
  pose proof (near_cut o _ _ _ (-128) 128 NB ltac:(sm) ltac:(sm) ltac:(lia)) as CB.
  exists (length (colors h)). eexists. eexists. split.
  { assert (D : dispatches (@to_lab f32 (F32 o)) XYZ (leaf_white XYZ (@xyz_to_lab_f f32 (F32 o)))) by disp. rewrite (D h p c Hp (wf_ty _ _ WF)).
    eapply leaf_white_run; [exact Hp|exact WF|exact (white_load32 o _ _ _ Hw)|].
    unfold xyz_to_lab_f, with3. rewrite Ec. fold fx fy fz_. fold L A B. rewrite lab_nf. cbn [obind]. reflexivity. }
  split; [apply at_new|]. rewrite EW. unfold cie_L, cie_a, cie_b, white_value. cbn [tx ty_ tz]. change (@B2R 24 128) with fval. fold X Y V.
  split; [reflexivity|]. split; [reflexivity|]. repeat split; (eexists; split; [reflexivity|]); assumption.
Qed.
