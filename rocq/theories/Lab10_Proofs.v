(** * XYZ to Lab and back in binary32 (C218), and examples for C217 *)
From Coq Require Import ZArith QArith Qreals Qabs Reals Lra Lia Psatz List Bool.
From Flocq Require Import Core IEEE754.BinarySingleNaN.
From Verif Require Import Arith Outcome ColorModel GammaModel MatrixModel SpaceModel Heap Converter F32 F32Facts Spec Spec32 Laws NormalForms
  Core_Proofs Core2_Proofs Core3_Proofs Core4_Proofs Spec_Error Spec_Conv Spec_Round Spec_Formula Spec_Lab Conv_Proofs Run_Proofs Round_Proofs Error_Proofs Error2_Proofs Error3_Proofs Error4_Proofs Linear_Proofs Linear2_Proofs Pow_Proofs Curve_Proofs Lab8_Proofs Lab9_Proofs Detour2_Proofs.
From Verif Require Import Total_Proofs Blend2_Proofs.
Import ListNotations.
Local Open Scope R_scope.
Local Notation fin x := (is_finite x = true).

Lemma via_white32 o go back X Y f g (h : heap f32) p c w m r (P : color f32 -> color f32 -> Prop) :
  dispatches go X (leaf_white X f) -> dispatches back Y (leaf_white Y g) ->
  at_addr h p c -> @wf_color f32 (F32 o) X c -> @white_of f32 (F32 o) h c w -> @leaf_white_ok f32 (F32 o) X Y f -> f c w = Ok m -> rgb_space m = rgb_space c -> g m w = Ok r -> P m r ->
  @via f32 go back h p P.
Proof.
  intros D1 D2 Hp W Hw L E1 Es E2 H.
  assert (Wm : @wf_color f32 (F32 o) Y m) by (destruct (L w c W) as [m' [E [Wm _]]]; rewrite E1 in E; injection E as <-; exact Wm).
  assert (Hm : at_addr (pushed h m) (length (colors h)) m) by apply at_new.
  assert (Hw' : @white_of f32 (F32 o) (pushed h m) m w) by (destruct Hw as [i [s [a [A1 A2]]]]; exists i, s, a; rewrite Es; auto).
  exists (length (colors h)), (length (colors (pushed h m))), m, r, (pushed h m), (pushed (pushed h m) r).
  split; [rewrite (D1 h p c Hp (wf_ty _ _ W)); apply (leaf_white_run X f h p c w m Hp W (white_load32 o _ _ _ Hw) E1)|]. split; [exact Hm|].
  split; [rewrite (D2 _ _ _ Hm (wf_ty _ _ Wm)); apply (leaf_white_run Y g _ _ m w r Hm Wm (white_load32 o _ _ _ Hw') E2)|]. split; [apply at_new|exact H].
Qed.

Section T.
Context (o : oracle).
(** Multiplying the quotient by the white again *)
Lemma times_white t x w : near t (fval (@fdiv f32 (F32 o) x w)) (233 * u) -> fin x -> 0 <= fval x <= 100 -> below_white x w -> 1 / 1000 <= fval w <= 100 ->
  near (@c100 f32 (F32 o) (@fmul f32 (F32 o) t w)) (fval x) (fval w / 65536).
Proof.
  intros N Fx Px BW Bw. destruct (ratio o x w Fx ltac:(lra) BW) as [Q [F [B E]]]. destruct BW as [Fw [Pw L]].
  set (q := fval (@fdiv f32 (F32 o) x w)) in * . set (W := fval w) in * . set (X := fval x) in * .
  assert (K : near (@fmul f32 (F32 o) t w) X (W / 65536)).
  { destruct N as [Ft Et].
    assert (Et' : Rabs (fval t - X / W) <= 233 * u + (u + tiny)) by (replace (fval t - X / W) with ((fval t - q) + (q - X / W)) by ring; apply Rle_trans with (1 := Rabs_triang _ _); lra).
    apply Rabs_le_inv in Et'.
    assert (EX : X / W * W = X) by (field; lra).
    assert (D : Rabs (fval t * W - X) <= W * (234 * u + tiny)).
    { rewrite <- EX at 1. replace (fval t * W - X / W * W) with ((fval t - X / W) * W) by ring. rewrite Rabs_mult, (Rabs_pos_eq W) by lra.
      rewrite Rmult_comm. apply Rmult_le_compat_l; [lra|]. apply Rabs_le. lra. }
    assert (XW : 0 <= X <= W) by (unfold X, W, fval in *; lra).
    assert (D' : W * (234 * u + tiny) <= W * (235 * u)) by (apply Rmult_le_compat_l; num).
    assert (BT : Rabs (fval t * fval w) <= IZR 200) by (fold W; apply Rabs_le_inv in D; apply Rabs_le; num).
    destruct (Bmult_ok t w (-200) 200 Ft Fw ltac:(sm) ltac:(sm) ltac:(apply Rabs_le_inv in BT; lra)) as [Fm Vm].
    split; [exact Fm|]. cbn [fmul F32]. rewrite Vm. fold W.
    assert (D2 : Rabs (fval t * W - X) <= W * (235 * u)) by lra.
    pose proof (rnd_near _ _ _ _ D2 ltac:(rewrite Rabs_pos_eq by lra; apply (proj2 XW))) as R2.
    apply Rle_trans with (1 := R2). num. }
  pose proof (near_cut o _ _ _ 0 100 K ltac:(sm) ltac:(sm) ltac:(lia)) as C. replace (cut (IZR 0) (IZR 100) X) with X in C; [exact C|].
  unfold cut. rewrite Rmin_right by lra. rewrite Rmax_right by lra. reflexivity.
Qed.

Lemma fl_ratio x w : fin x -> 0 <= fval x -> below_white x w ->
  Rabs (fl (fval (@fdiv f32 (F32 o) x w)) - cie_f (fval x / fval w)) <= 9 * u.
Proof.
  intros Fx Px BW. destruct (ratio o x w Fx Px BW) as [Q [F [B E]]]. rewrite fl_cie.
  set (q := fval (@fdiv f32 (F32 o) x w)) in * . set (t := fval x / fval w) in * . apply Rabs_le_inv in E. apply Rabs_le.
  destruct (Rle_dec t q) as [L|L]; [pose proof (fl_steep q t ltac:(lra))|pose proof (fl_steep t q ltac:(lra))]; num.
Qed.
End T.

Lemma lab_round32 o (h : heap f32) p (c : color f32) w x y z : accurate_pow o -> at_addr h p c -> @wf_color f32 (F32 o) XYZ c -> comps c = [x; y; z] ->
  @white_of f32 (F32 o) h c w -> below_white x (tx w) -> below_white y (ty_ w) -> below_white z (tz w) ->
  forall W, W = white_value w -> 1 / 1000 <= tx W <= 100 -> 1 / 1000 <= ty_ W <= 100 -> 1 / 1000 <= tz W <= 100 ->
  Rabs (cie_a W (B2R x) (B2R y)) <= 127.9 -> Rabs (cie_b W (B2R y) (B2R z)) <= 127.9 ->
  @via f32 (@to_lab f32 (F32 o)) (@to_xyz f32 (F32 o)) h p (fun m d => ty m = LAB /\ ty d = XYZ /\ rgb_space d = rgb_space c /\
    comp_sat d 0 (approx (B2R x) (tx W / 65536)) /\ comp_sat d 1 (approx (B2R y) (ty_ W / 65536)) /\ comp_sat d 2 (approx (B2R z) (tz W / 65536))).
Proof.
  intros AP Hp WF Ec Hw BX BY BZ W -> TX TY TZ HA HB. unfold cie_a, cie_b, white_value in HA, HB, TX, TY, TZ |- * . cbn [tx ty_ tz] in * .
  change (@B2R 24 128) with fval in * .
  assert (RR : (fin x /\ 0 <= fval x <= 100) /\ (fin y /\ 0 <= fval y <= 100) /\ (fin z /\ 0 <= fval z <= 100)).
  { pose proof (wf_range _ _ WF) as K. rewrite Ec in K.
    pose proof (proj1 (within32 o 0 100 x ltac:(sm) ltac:(sm)) (K 0%nat x eq_refl)) as K0. pose proof (proj1 (within32 o 0 100 y ltac:(sm) ltac:(sm)) (K 1%nat y eq_refl)) as K1.
    pose proof (proj1 (within32 o 0 100 z ltac:(sm) ltac:(sm)) (K 2%nat z eq_refl)) as K2. tauto. }
  destruct RR as [[Fx Px] [[Fy Py] [Fz Pz]]].
  pose proof (fl_ratio o x (tx w) Fx ltac:(lra) BX) as DX. pose proof (fl_ratio o y (ty_ w) Fy ltac:(lra) BY) as DY. pose proof (fl_ratio o z (tz w) Fz ltac:(lra) BZ) as DZ.
  destruct (ratio o x (tx w) Fx ltac:(lra) BX) as [_ [FX [QX _]]]. destruct (ratio o y (ty_ w) Fy ltac:(lra) BY) as [_ [FY [QY _]]]. destruct (ratio o z (tz w) Fz ltac:(lra) BZ) as [_ [FZ [QZ _]]].
  set (qx := @fdiv f32 (F32 o) x (tx w)) in * . set (qy := @fdiv f32 (F32 o) y (ty_ w)) in * . set (qz := @fdiv f32 (F32 o) z (tz w)) in * .
  set (X := cie_f (fval x / fval (tx w))) in * . set (Y := cie_f (fval y / fval (ty_ w))) in * . set (V := cie_f (fval z / fval (tz w))) in * .
  apply Rabs_le_inv in HA. apply Rabs_le_inv in HB. apply Rabs_le_inv in DX. apply Rabs_le_inv in DY. apply Rabs_le_inv in DZ.
  destruct (lab_trip o AP qx qy qz FX FY FZ ltac:(num) ltac:(num) ltac:(num) ltac:(num) ltac:(num) ltac:(num) ltac:(num)) as [T1 [T2 T3]].
  pose proof (times_white o _ x (tx w) T1 Fx Px BX TX) as N1. pose proof (times_white o _ y (ty_ w) (near_weaken _ _ _ (233 * u) T2 ltac:(num)) Fy Py BY TY) as N2. pose proof (times_white o _ z (tz w) T3 Fz Pz BZ TZ) as N3.
  eapply (via_white32 o (@to_lab f32 (F32 o)) (@to_xyz f32 (F32 o)) XYZ LAB (@xyz_to_lab_f f32 (F32 o)) (@lab_to_xyz_f f32 (F32 o)) h p c w);
    [disp|disp|exact Hp|exact WF|exact Hw|apply (xyz_to_lab_ok (AL := F32Laws o))| | | |].
  - unfold xyz_to_lab_f, with3. rewrite Ec. fold qx qy qz. rewrite lab_nf. cbn [obind]. reflexivity.
  - reflexivity.
  - unfold lab_to_xyz_f, with3, alpha_set, base_alpha_set, with_alpha. cbn [cls ty comps m_max m_min rgb_space]. rewrite xyz_nf. cbn [obind]. reflexivity.
  - split; [reflexivity|]. split; [reflexivity|]. split; [reflexivity|]. repeat split; (eexists; split; [reflexivity|]); assumption.
Qed.

(** ** Examples *)
(** The D65 white point as a colour *)
Lemma d65_parts o : let w := @wp_D65_2Degree f32 (F32 o) in (fin (tx w) /\ 95 / 100 <= fval (tx w) <= 96 / 100) /\ (fin (ty_ w) /\ 1 <= fval (ty_ w) <= 1) /\ (fin (tz w) /\ 108 / 100 <= fval (tz w) <= 109 / 100).
Proof.
  cbv zeta.
  destruct (within_R (95 # 100) (tx (@wp_D65_2Degree f32 (F32 o))) (96 # 100) ltac:(vm_compute; reflexivity)) as [A1 B1].
  destruct (within_R (1 # 1) (ty_ (@wp_D65_2Degree f32 (F32 o))) (1 # 1) ltac:(vm_compute; reflexivity)) as [A2 B2].
  destruct (within_R (108 # 100) (tz (@wp_D65_2Degree f32 (F32 o))) (109 # 100) ltac:(vm_compute; reflexivity)) as [A3 B3].
  unfold Q2R in * . cbn [Qnum Qden] in * . split; [|split]; (split; [assumption|lra]).
Qed.
Lemma d65_example o : exists (h : heap f32) (c : color f32) w x y z W, at_addr h 0%nat c /\ @wf_color f32 (F32 o) XYZ c /\ comps c = [x; y; z] /\ @white_of f32 (F32 o) h c w /\
  below_white x (tx w) /\ below_white y (ty_ w) /\ below_white z (tz w) /\ W = white_value w /\
  1 / 1000 <= tx W <= 100 /\ 1 / 1000 <= ty_ W <= 100 /\ 1 / 1000 <= tz W <= 100 /\ cie_L W (B2R y) = 100 /\ cie_a W (B2R x) (B2R y) = 0 /\ cie_b W (B2R y) (B2R z) = 0.
Proof.
  destruct (space_ctor_usable (AF := F32 o) (lit32 (64 # 100)) (lit32 (33 # 100)) (lit32 (30 # 100)) (lit32 (60 # 100)) (lit32 (15 # 100)) (lit32 (6 # 100))
    0%nat (wp_D65_2Degree (AF := F32 o)) (gamma_sRGB (AF := F32 o))) as [s [Es [U [Hw _]]]]. clear Es U.
  pose proof (d65_parts o) as P. cbv zeta in P. set (w := @wp_D65_2Degree f32 (F32 o)) in * . clearbody w. destruct P as [[F1 B1] [[F2 B2] [F3 B3]]].
  destruct (xyz_made (AF := F32 o) (AL := F32Laws o) (tx w) (ty_ w) (tz w) (@fz f32 (F32 o) 1) (Some 0%nat)) as [c [Ec [WF [_ Sc]]]].
  rewrite xyz_nf in Ec. apply Ok_inj in Ec.
  assert (I : forall x, fin x -> 0 <= fval x <= 100 -> @c100 f32 (F32 o) x = x).
  { intros x Fx Bx. unfold c100. apply clamp_id; try sm. apply within32; try sm. auto. }
  rewrite !I in Ec by (assumption || lra).
  exists (Heap [c] [s]), c, w, (tx w), (ty_ w), (tz w), (white_value w). split; [reflexivity|]. split; [exact WF|]. split; [rewrite <- Ec; reflexivity|].
  split; [exists 0%nat, s, 0%nat; auto|]. unfold below_white, cie_L, cie_a, cie_b, white_value. cbn [tx ty_ tz]. change (@B2R 24 128) with fval.
  assert (One : forall v, 0 < v -> cie_f (v / v) = 1).
  { intros v Pv. unfold Rdiv. rewrite Rinv_r by lra. unfold cie_f. destruct (Rlt_dec _ 1); [|lra]. unfold Rpower. rewrite ln_1, Rmult_0_r. apply exp_0. }
  rewrite !One by lra. repeat split; (assumption || lra).
Qed.

(** Every preset has a white point that the theorems speak about. *)
Lemma presets_fit o w : In w (@white_presets f32 (F32 o)) -> forall v, In v [tx w; ty_ w; tz w] -> fin v /\ 1 / 1000 <= B2R v <= 100.
Proof.
  intros I v Iv.
  assert (A : forallb (fun w => forallb (fun v => Curve_Proofs.within (1 # 1000) v (100 # 1)) [tx w; ty_ w; tz w]) (@white_presets f32 (F32 o)) = true) by (vm_compute; reflexivity).
  rewrite forallb_forall in A. specialize (A w I). rewrite forallb_forall in A. specialize (A v Iv).
  destruct (within_R _ _ _ A) as [F B]. unfold Q2R in B. cbn [Qnum Qden] in B. split; [exact F|lra].
Qed.
