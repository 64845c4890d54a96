(** * XYZ to xyY and back in binary32 (C219) *)
From Coq Require Import ZArith QArith Reals Lra Lia Psatz List Bool.
From Flocq Require Import Core IEEE754.BinarySingleNaN.
From Verif Require Import Arith Outcome ColorModel GammaModel MatrixModel SpaceModel Heap Converter F32 F32Facts Spec Spec32 Laws NormalForms
  Core_Proofs Core2_Proofs Core3_Proofs Core4_Proofs Spec_Error Spec_Conv Spec_Round Spec_Formula Conv_Proofs Run_Proofs Round_Proofs Error_Proofs Error2_Proofs Lab9_Proofs Blend2_Proofs.
Import ListNotations.
Local Open Scope R_scope.
Local Notation fin x := (is_finite x = true).

Section X.
Context (o : oracle).
Local Notation "x +. y" := (@fadd f32 (F32 o) x y) (at level 50, left associativity).
Local Notation "x -. y" := (@fsub f32 (F32 o) x y) (at level 50, left associativity).
Local Notation "x *. y" := (@fmul f32 (F32 o) x y) (at level 40, left associativity).
Local Notation "x /. y" := (@fdiv f32 (F32 o) x y) (at level 40, left associativity).
Local Notation "$ n" := (@fz f32 (F32 o) n) (at level 0).

(** A quotient whose divisor has a relative error *)
Lemma div_rel p q a b ea e k : near p a ea -> fin q -> fval q = b * (1 + e) -> Rabs e <= k -> k <= 6 * u -> 0 < b -> Rabs (a / b) <= 400 -> ea / b <= 1 ->
  near (p /. q) (a / b) ((Rabs (a / b) * (k + u) + ea / b) * (1 + 1 / 1000) + tiny).
Proof.
  intros [Fp Ep] Fq Vq He Hk Pb BA BE. set (A := a / b) in * . set (E := ea / b) in * .
  assert (Pi : 0 < / b) by (apply Rinv_0_lt_compat, Pb). pose proof (Rabs_pos e) as PE. pose proof (Rabs_pos A) as PA.
  assert (E0 : 0 <= E) by (unfold E, Rdiv; apply Rmult_le_pos; [pose proof (Rabs_pos (fval p - a)); lra|lra]).
  apply Rabs_le_inv in He. assert (Ne : 0 < 1 + e) by num.
  assert (Nq : fval q <> 0) by (rewrite Vq; apply Rmult_integral_contrapositive; split; lra).
  set (d := (fval p - a) / b).
  assert (Bd : Rabs d <= E). { unfold d, E, Rdiv. rewrite Rabs_mult, (Rabs_pos_eq (/ b)) by lra. apply Rmult_le_compat_r; lra. }
  assert (Q : fval p / fval q - A = (d - A * e) * / (1 + e)) by (rewrite Vq; unfold A, d; field; split; lra).
  assert (I : 0 < / (1 + e) <= 1 + 1 / 100000).
  { split; [apply Rinv_0_lt_compat, Ne|]. apply Rmult_le_reg_l with (1 + e); [exact Ne|]. rewrite Rinv_r by lra. num. }
  assert (D : Rabs (fval p / fval q - A) <= (Rabs A * k + E) * (1 + 1 / 100000)).
  { rewrite Q, Rabs_mult, (Rabs_pos_eq (/ (1 + e))) by lra. apply Rmult_le_compat; [apply Rabs_pos|lra| |lra].
    apply Rle_trans with (1 := Rabs_triang _ _). rewrite Rabs_Ropp, Rabs_mult.
    assert (Rabs A * Rabs e <= Rabs A * k) by (apply Rmult_le_compat_l; [apply Rabs_pos|apply Rabs_le; lra]). lra. }
  assert (K : 0 <= Rabs A * k <= 400 * (6 * u)) by (split; [apply Rmult_le_pos; lra|apply Rmult_le_compat; lra]).
  assert (B : Rabs (fval p / fval q) <= IZR 1000). { pose proof (abs_within _ _ _ _ D BA). num. }
  apply Rabs_le_inv in B. destruct (Bdiv_ok p q (-1000) 1000 Fp Fq Nq ltac:(sm) ltac:(sm) ltac:(lra)) as [F V].
  split; [exact F|]. cbn [fdiv F32]. rewrite V. pose proof (rnd_near _ _ _ _ D (Rle_refl _)) as R. apply Rle_trans with (1 := R).
  rewrite (Rmult_plus_distr_l (Rabs A) k u). clearbody A E. set (K0 := Rabs A * k) in * . clearbody K0. set (A0 := Rabs A) in * . clearbody A0. clear - K E0 PA. num.
Qed.

Variables (x y z : f32).
Hypothesis (Fx : fin x) (Fy : fin y) (Fz : fin z) (Bx : 0 <= fval x <= 100) (By : / 1000000 <= fval y <= 100) (Bz : 0 <= fval z <= 100).
Let s := fval x + fval y + fval z.
Let S := x +. y +. z.
Let cx_ := x /. S.
Let cy_ := y /. S.

Lemma s_pos : / 1000000 <= s <= 300.
Proof. unfold s. lra. Qed.
Lemma sum_rel : fin S /\ exists e, fval S = s * (1 + e) /\ Rabs e <= 3 * u.
Proof.
  unfold S. destruct (Bplus_ok x y 0 200 Fx Fy ltac:(sm) ltac:(sm) ltac:(lra)) as [F1 V1]. destruct (rnd_plus x y) as [e1 [H1 E1]].
  assert (B1 : 0 <= fval (Bplus mode_NE x y) <= 200) by (rewrite V1; apply (rnd32_bounds _ 0 200 ltac:(sm) ltac:(sm)); lra).
  destruct (Bplus_ok (Bplus mode_NE x y) z 0 300 F1 Fz ltac:(sm) ltac:(sm) ltac:(lra)) as [F2 V2]. destruct (rnd_plus (Bplus mode_NE x y) z) as [e2 [H2 E2]].
  split; [exact F2|]. cbn [fadd F32]. rewrite V2, E2, V1, E1. pose proof s_pos as Ps. apply Rabs_le_inv in H1. apply Rabs_le_inv in H2.
  set (t := (fval x + fval y) / s). assert (T : 0 <= t <= 1).
  { unfold t. split; [apply Rmult_le_pos; [lra|left; apply Rinv_0_lt_compat; lra]|]. apply Rmult_le_reg_r with s; [lra|]. unfold Rdiv. rewrite Rmult_assoc, Rinv_l by lra. unfold s. lra. }
  exists (t * e1 * (1 + e2) + e2). split; [unfold t; unfold s in Ps |- *; field; lra|].
  assert (A : Rabs (t * e1) <= u). { rewrite Rabs_mult, (Rabs_pos_eq t) by lra. assert (Rabs e1 <= u) by (apply Rabs_le; lra). pose proof (Rabs_pos e1). nra. }
  assert (B : Rabs (t * e1 * (1 + e2)) <= u * (1 + u)). { rewrite Rabs_mult. apply Rmult_le_compat; try apply Rabs_pos; [exact A|apply Rabs_le; num]. }
  apply Rabs_le_inv in B. apply Rabs_le. num.
Qed.

Lemma chroma_near v : fin v -> 0 <= fval v <= s -> 0 <= fval v / s <= 1 /\ near (v /. S) (fval v / s) (fval v / s * (4004 / 1000 * u) + tiny).
Proof.
  intros Fv Bv. pose proof s_pos as Ps. destruct sum_rel as [FS [e [VS He]]].
  assert (Q : 0 <= fval v / s <= 1).
  { split; [apply Rmult_le_pos; [lra|left; apply Rinv_0_lt_compat; lra]|]. apply Rmult_le_reg_r with s; [lra|]. unfold Rdiv. rewrite Rmult_assoc, Rinv_l by lra. lra. }
  split; [exact Q|]. pose proof (div_rel v S (fval v) s 0 e (3 * u) (near_self v Fv) FS VS He ltac:(num) ltac:(lra) ltac:(rewrite Rabs_pos_eq; lra) ltac:(unfold Rdiv; rewrite Rmult_0_l; lra)) as N.
  eapply near_weaken; [exact N|]. rewrite Rabs_pos_eq by lra. unfold Rdiv at 2. rewrite Rmult_0_l. num.
Qed.

(** The way back *)
Lemma back_x : near (cx_ *. y /. cy_) (fval x) (s / 1048576).
Proof.
  pose proof s_pos as Ps. destruct (chroma_near x Fx ltac:(unfold s in *; lra)) as [Qx Nx]. destruct (chroma_near y Fy ltac:(unfold s in *; lra)) as [Qy Ny].
  fold cx_ in Nx. fold cy_ in Ny. set (a := fval x / s) in * . set (b := fval y / s) in * .
  assert (Eb : fval y = b * s) by (unfold b; field; lra). assert (Ea : fval x = a * s) by (unfold a; field; lra).
  assert (Pb : / 400000000 <= b). { unfold b. apply Rmult_le_reg_r with s; [lra|]. unfold Rdiv. rewrite (Rmult_assoc _ (/ s)), Rinv_l by lra. lra. }
  assert (Rb : exists e, fval cy_ = b * (1 + e) /\ Rabs e <= 5 * u).
  { exists ((fval cy_ - b) / b). split; [field; lra|]. unfold Rdiv. rewrite Rabs_mult, (Rabs_pos_eq (/ b)) by (left; apply Rinv_0_lt_compat; lra).
    apply Rmult_le_reg_r with b; [lra|]. rewrite Rmult_assoc, Rinv_l by lra. destruct Ny as [_ Ny]. num. }
  destruct Rb as [e [Vb He]].
  assert (M : near (cx_ *. y) (a * fval y) (a * fval y * (501 / 100 * u) + tiny * 103)).
  { destruct Nx as [Fc Ec]. destruct (Bmult_ok cx_ y (-1000) 1000 Fc Fy ltac:(sm) ltac:(sm)) as [F V].
    { apply Rabs_le_inv in Ec. assert (-2 <= fval cx_ <= 2) by num. nra. }
    split; [exact F|]. cbn [fmul F32]. rewrite V.
    assert (D : Rabs (fval cx_ * fval y - a * fval y) <= (a * (4004 / 1000 * u) + tiny) * fval y).
    { replace (fval cx_ * fval y - a * fval y) with ((fval cx_ - a) * fval y) by ring. rewrite Rabs_mult, (Rabs_pos_eq (fval y)) by lra. apply Rmult_le_compat_r; lra. }
    assert (P : 0 <= a * fval y) by (apply Rmult_le_pos; lra).
    pose proof (rnd_near _ _ _ _ D ltac:(rewrite Rabs_pos_eq by lra; apply Rle_refl)) as R. apply Rle_trans with (1 := R).
    assert (tiny * fval y <= tiny * 100) by (apply Rmult_le_compat_l; num).
    replace ((a * (4004 / 1000 * u) + tiny) * fval y) with (a * fval y * (4004 / 1000 * u) + tiny * fval y) by ring. num. }
  assert (Ab : a * fval y / b = fval x) by (rewrite Eb, Ea; field; lra).
  assert (Rec : tiny * 103 / b <= s * (u / 100)).
  { apply Rmult_le_reg_r with b; [lra|]. unfold Rdiv. rewrite Rmult_assoc, Rinv_l by lra.
    replace (s * (u * / 100) * b) with (b * s * (u * / 100)) by ring. rewrite <- Eb. num. }
  assert (Eq : (a * fval y * (501 / 100 * u) + tiny * 103) / b = fval x * (501 / 100 * u) + tiny * 103 / b) by (rewrite Eb, Ea; field; lra).
  pose proof (div_rel (cx_ *. y) cy_ (a * fval y) b _ e (5 * u) M (proj1 Ny) Vb He ltac:(num) ltac:(lra)) as N. rewrite Ab, Eq in N.
  eapply near_weaken; [apply N; [rewrite Rabs_pos_eq; lra|num]|]. rewrite Rabs_pos_eq by lra. assert (fval x <= s) by (unfold s; lra). num.
Qed.

Lemma back_z : near (($1 -. cx_ -. cy_) *. y /. cy_) (fval z) (s / 1048576).
Proof.
  pose proof s_pos as Ps. destruct (chroma_near x Fx ltac:(unfold s in *; lra)) as [Qx Nx]. destruct (chroma_near y Fy ltac:(unfold s in *; lra)) as [Qy Ny].
  fold cx_ in Nx. fold cy_ in Ny. set (a := fval x / s) in * . set (b := fval y / s) in * . set (c := fval z / s).
  assert (Eb : fval y = b * s) by (unfold b; field; lra). assert (Ea : fval x = a * s) by (unfold a; field; lra). assert (Ec : fval z = c * s) by (unfold c; field; lra).
  assert (One : a + b + c = 1) by (unfold a, b, c, s in *; field; lra).
  assert (Pc : 0 <= c) by (unfold c; apply Rmult_le_pos; [lra|left; apply Rinv_0_lt_compat; lra]).
  assert (Pb : / 400000000 <= b). { unfold b. apply Rmult_le_reg_r with s; [lra|]. unfold Rdiv. rewrite (Rmult_assoc _ (/ s)), Rinv_l by lra. lra. }
  assert (Rb : exists e, fval cy_ = b * (1 + e) /\ Rabs e <= 5 * u).
  { exists ((fval cy_ - b) / b). split; [field; lra|]. unfold Rdiv. rewrite Rabs_mult, (Rabs_pos_eq (/ b)) by (left; apply Rinv_0_lt_compat; lra).
    apply Rmult_le_reg_r with b; [lra|]. rewrite Rmult_assoc, Rinv_l by lra. destruct Ny as [_ Ny']. num. }
  destruct Rb as [e [Vb He]].
  pose proof (near_sub o _ _ _ _ _ _ 1 (near_fz o 1 ltac:(sm)) Nx ltac:(apply Rabs_le; lra) ltac:(num)) as N1.
  pose proof (near_sub o _ _ _ _ _ _ 1 N1 Ny ltac:(apply Rabs_le; lra) ltac:(num)) as N2. replace (1 - a - b) with c in N2 by lra.
  assert (N3 : near ($1 -. cx_ -. cy_) c (7 * u)) by (eapply near_weaken; [exact N2|num]).
  clear N1 N2. set (t := $1 -. cx_ -. cy_) in * .
  assert (M : near (t *. y) (c * fval y) (fval y * (801 / 100 * u) + tiny)).
  { destruct N3 as [Fc Et]. destruct (Bmult_ok t y (-1000) 1000 Fc Fy ltac:(sm) ltac:(sm)) as [F V].
    { apply Rabs_le_inv in Et. assert (-2 <= fval t <= 2) by num. nra. }
    split; [exact F|]. cbn [fmul F32]. rewrite V.
    assert (D : Rabs (fval t * fval y - c * fval y) <= 7 * u * fval y).
    { replace (fval t * fval y - c * fval y) with ((fval t - c) * fval y) by ring. rewrite Rabs_mult, (Rabs_pos_eq (fval y)) by lra. apply Rmult_le_compat_r; lra. }
    assert (P : 0 <= c * fval y <= 1 * fval y) by (split; [apply Rmult_le_pos; lra|apply Rmult_le_compat_r; lra]).
    pose proof (rnd_near _ _ _ (fval y) D ltac:(rewrite Rabs_pos_eq by lra; lra)) as R. apply Rle_trans with (1 := R). num. }
  assert (Ab : c * fval y / b = fval z) by (rewrite Eb, Ec; field; lra).
  assert (Rec : tiny / b <= s * (u / 1000)).
  { apply Rmult_le_reg_r with b; [lra|]. unfold Rdiv. rewrite Rmult_assoc, Rinv_l by lra.
    replace (s * (u * / 1000) * b) with (b * s * (u * / 1000)) by ring. rewrite <- Eb. num. }
  assert (Eq : (fval y * (801 / 100 * u) + tiny) / b = s * (801 / 100 * u) + tiny / b) by (rewrite Eb; field; lra).
  pose proof (div_rel (t *. y) cy_ (c * fval y) b _ e (5 * u) M (proj1 Ny) Vb He ltac:(num) ltac:(lra)) as N. rewrite Ab, Eq in N.
  eapply near_weaken; [apply N; [rewrite Rabs_pos_eq; lra|num]|]. rewrite Rabs_pos_eq by lra. assert (fval z <= s) by (unfold s; lra). num.
Qed.
End X.

Lemma xyy_round32 o (h : heap f32) p (c : color f32) x y z : at_addr h p c -> @wf_color f32 (F32 o) XYZ c -> comps c = [x; y; z] -> / 1000000 <= B2R y ->
  forall X Y Z, X = B2R x -> Y = B2R y -> Z = B2R z ->
  @via f32 (@to_xyy f32 (F32 o)) (@to_xyz f32 (F32 o)) h p (fun m d =>
    ty m = XYY /\ rgb_space m = rgb_space c /\
    comp_sat m 0 (approx (X / (X + Y + Z)) (/ 2097152)) /\ comp_sat m 1 (approx (Y / (X + Y + Z)) (/ 2097152)) /\ comp_sat m 2 (fun v => v = y) /\
    ty d = XYZ /\ rgb_space d = rgb_space c /\
    comp_sat d 0 (approx X ((X + Y + Z) / 1048576)) /\ comp_sat d 1 (fun v => v = y) /\ comp_sat d 2 (approx Z ((X + Y + Z) / 1048576))).
Proof.
  intros Hp WF Ec Hy X Y Z -> -> ->. change (@B2R 24 128) with fval in * .
  assert (RR : (fin x /\ 0 <= fval x <= 100) /\ (fin y /\ 0 <= fval y <= 100) /\ (fin z /\ 0 <= fval z <= 100)).
  { pose proof (wf_range _ _ WF) as K. rewrite Ec in K.
    pose proof (proj1 (within32 o 0 100 x ltac:(sm) ltac:(sm)) (K 0%nat x eq_refl)) as K0. pose proof (proj1 (within32 o 0 100 y ltac:(sm) ltac:(sm)) (K 1%nat y eq_refl)) as K1.
    pose proof (proj1 (within32 o 0 100 z ltac:(sm) ltac:(sm)) (K 2%nat z eq_refl)) as K2. tauto. }
  destruct RR as [[Fx Px] [[Fy Py] [Fz Pz]]]. assert (By : / 1000000 <= fval y <= 100) by lra.
  pose proof (s_pos x y z Px By Pz) as Ps.
  pose proof (back_x o x y z Fx Fy Fz Px By Pz) as NX. pose proof (back_z o x y z Fx Fy Fz Px By Pz) as NZ.
  destruct (chroma_near o x y z Fx Fy Fz Px By Pz x Fx ltac:(lra)) as [Qx Cx]. destruct (chroma_near o x y z Fx Fy Fz Px By Pz y Fy ltac:(lra)) as [Qy Cy].
  set (s := fval x + fval y + fval z) in * .
  assert (I : forall v, fin v -> 0 <= fval v <= 100 -> @c100 f32 (F32 o) v = v).
  { intros v Fv Bv. unfold c100. apply clamp_id; try sm. apply within32; try sm. auto. }
  set (S := @fadd f32 (F32 o) (@fadd f32 (F32 o) x y) z) in * . set (qx := @fdiv f32 (F32 o) x S) in * . set (qy := @fdiv f32 (F32 o) y S) in * .
  assert (Pqy : 0 < fval qy).
  { destruct Cy as [_ E]. apply Rabs_le_inv in E. assert (/ 400000000 <= fval y / s); [|num].
    apply Rmult_le_reg_r with s; [lra|]. unfold Rdiv. rewrite (Rmult_assoc _ (/ s)), Rinv_l by lra. lra. }
  assert (Bq : forall v q, fin q -> 0 <= v -> v / s <= 1 -> near q (v / s) (v / s * (4004 / 1000 * u) + tiny) -> fval q <= 2) by (intros v q _ P L [_ E]; apply Rabs_le_inv in E; num).
  assert (Bqx : 0 <= fval qx <= 2).
  { split; [|apply (Bq (fval x) qx (proj1 Cx)); [lra|lra|exact Cx]].
    destruct (sum_rel o x y z Fx Fy Fz Px By Pz) as [FS [e [VS He]]]. fold S in FS, VS. fold s in VS. apply Rabs_le_inv in He.
    assert (PS : 0 < fval S) by (rewrite VS; apply Rmult_lt_0_compat; num).
    assert (Q0 : 0 <= fval x / fval S) by (apply Rmult_le_pos; [lra|left; apply Rinv_0_lt_compat, PS]).
    assert (Q1 : fval x / fval S <= 1000).
    { apply Rmult_le_reg_r with (fval S); [exact PS|]. unfold Rdiv. rewrite Rmult_assoc, Rinv_l, VS by lra.
      assert (s * (1 / 2) <= s * (1 + e)) by (apply Rmult_le_compat_l; num). assert (fval x <= s) by (unfold s; lra). lra. }
    destruct (Bdiv_ok x S 0 1000 Fx FS ltac:(lra) ltac:(sm) ltac:(sm) ltac:(lra)) as [_ V]. unfold qx. cbn [fdiv F32]. rewrite V.
    apply (rnd32_bounds _ 0 1000 ltac:(sm) ltac:(sm)). lra. }
  assert (Bqy : fval qy <= 2) by (apply (Bq (fval y) qy (proj1 Cy)); [lra|lra|exact Cy]).
  destruct (fz_val o 0) as [F0 V0]; [sm|].
  assert (Ny : @feq f32 (F32 o) y (@fz f32 (F32 o) 0) = false) by (cbn [feq F32]; rewrite Beqb_fin by assumption; apply Req_bool_false; rewrite V0; lra).
  assert (Nq : @feq f32 (F32 o) qy (@fz f32 (F32 o) 0) = false) by (cbn [feq F32]; rewrite Beqb_fin by (assumption || exact (proj1 Cy)); apply Req_bool_false; rewrite V0; lra).
  destruct (xyy_made (AF := F32 o) (AL := F32Laws o) qx qy y (@alpha f32 (F32 o) c) (rgb_space c)) as [m [Em [Wm [Am Sm]]]].
  pose proof Em as Em'. rewrite xyy_nf in Em'. rewrite (I qx (proj1 Cx)), (I qy (proj1 Cy)), (I y Fy) in Em' by lra. apply Ok_inj in Em'.
  assert (Cm : comps m = [qx; qy; y]) by (rewrite <- Em'; reflexivity).
  assert (Hm : at_addr (pushed h m) (length (colors h)) m) by apply at_new.
  pose proof (near_cut o _ _ _ 0 100 NX ltac:(sm) ltac:(sm) ltac:(lia)) as CX. pose proof (near_cut o _ _ _ 0 100 NZ ltac:(sm) ltac:(sm) ltac:(lia)) as CZ.
  assert (Id : forall v, 0 <= v <= 100 -> cut (IZR 0) (IZR 100) v = v) by (intros v Bv; unfold cut; rewrite Rmin_right, Rmax_right by lra; reflexivity).
  rewrite Id in CX, CZ by lra.
  destruct (xyz_made (AF := F32 o) (AL := F32Laws o) (@fdiv f32 (F32 o) (@fmul f32 (F32 o) qx y) qy) y
    (@fdiv f32 (F32 o) (@fmul f32 (F32 o) (@fsub f32 (F32 o) (@fsub f32 (F32 o) (@fz f32 (F32 o) 1) qx) qy) y) qy) (@alpha f32 (F32 o) m) (rgb_space m)) as [d [Ed [Wd [_ Sd]]]].
  pose proof Ed as Ed'. rewrite xyz_nf in Ed'. rewrite (I y Fy) in Ed' by lra. apply Ok_inj in Ed'.
  exists (length (colors h)), (length (colors (pushed h m))), m, d, (pushed h m), (pushed (pushed h m) d).
  split.
  { assert (D : dispatches (@to_xyy f32 (F32 o)) XYZ (@xyz_to_xyy f32 (F32 o))) by disp. rewrite (D h p c Hp (wf_ty _ _ WF)).
    unfold xyz_to_xyy, bind. rewrite (load_as_ok h p c XYZ Hp WF). rewrite Ec, Ny, andb_false_r. cbn [andb]. fold S. fold qx qy. unfold lift. rewrite Em. reflexivity. }
  split; [exact Hm|]. split.
  { assert (D : dispatches (@to_xyz f32 (F32 o)) XYY (leaf XYY (@xyy_to_xyz_f f32 (F32 o)))) by disp. rewrite (D _ _ _ Hm (wf_ty _ _ Wm)).
    apply (leaf_run XYY (@xyy_to_xyz_f f32 (F32 o)) _ _ m _ Hm Wm). unfold xyy_to_xyz_f, with3. rewrite Cm, Nq. exact Ed. }
  split; [apply at_new|]. split; [apply (wf_ty _ _ Wm)|]. split; [exact Sm|].
  assert (W1 : near qx (fval x / s) (/ 2097152)) by (eapply near_weaken; [exact Cx|num]).
  assert (W2 : near qy (fval y / s) (/ 2097152)) by (eapply near_weaken; [exact Cy|num]).
  split; [exists qx; split; [rewrite Cm; reflexivity|exact W1]|]. split; [exists qy; split; [rewrite Cm; reflexivity|exact W2]|].
  split; [exists y; split; [rewrite Cm; reflexivity|reflexivity]|]. split; [apply (wf_ty _ _ Wd)|]. split; [rewrite Sd; exact Sm|].
  rewrite <- Ed'. split; [eexists; split; [reflexivity|exact CX]|]. split; [eexists; split; [reflexivity|reflexivity]|]. eexists; split; [reflexivity|exact CZ].
Qed.
