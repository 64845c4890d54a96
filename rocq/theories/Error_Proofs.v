(** * Rounding errors of binary32: how far a float is from a real number *)
From Coq Require Import ZArith QArith Reals Lra Lia List Bool.
From Flocq Require Import Core IEEE754.BinarySingleNaN.
From Flocq Require Relative Plus_error.
From Verif Require Import Arith F32 F32Facts Spec Spec32 Laws NormalForms Core_Proofs Core2_Proofs Core3_Proofs Core4_Proofs.
Import ListNotations.
Local Open Scope R_scope.
Local Notation fin x := (is_finite x = true).

(** Half an ulp of 1, and a bound of the absolute error of tiny results. *)
Definition u : R := / 16777216.
Definition tiny : R := / 1152921504606846976.

Lemma u_bpow : / 2 * bpow radix2 (-24 + 1) = u.
Proof. unfold u. simpl. lra. Qed.
Lemma tiny_bpow : / 2 * bpow radix2 (-149) <= tiny.
Proof.
  apply Rle_trans with (bpow radix2 (-60)); [|unfold tiny; simpl; lra].
  apply Rle_trans with (bpow radix2 (-149)); [pose proof (bpow_gt_0 radix2 (-149)); lra|]. apply bpow_le. lia.
Qed.

Lemma rnd_err x : Rabs (rnd32 x - x) <= u * Rabs x + tiny.
Proof.
  destruct (Relative.error_N_FLT radix2 (-149) 24 eq_refl (fun x => negb (Z.even x)) x) as [e [t [He [Ht [_ E]]]]].
  change (rnd32 x = x * (1 + e) + t) in E. rewrite E. replace (x * (1 + e) + t - x) with (e * x + t) by ring.
  apply Rle_trans with (1 := Rabs_triang _ _). rewrite Rabs_mult. assert (He' : Rabs e <= u) by (rewrite <- u_bpow; exact He).
  apply Rplus_le_compat; [apply Rmult_le_compat_r; [apply Rabs_pos|exact He']|apply Rle_trans with (1 := Ht), tiny_bpow].
Qed.
Lemma rnd_plus (x y : f32) : exists e, Rabs e <= u /\ rnd32 (fval x + fval y) = (fval x + fval y) * (1 + e).
Proof.
  destruct (Plus_error.FLT_plus_error_N_ex radix2 (-149) 24 (fun x => negb (Z.even x)) (fval x) (fval y)) as [e [He E]];
    try apply generic_format_B2R.
  exists e. split; [|exact E]. apply Rle_trans with (1 := He).
  change (Relative.u_ro radix2 24) with (/ 2 * bpow radix2 (-24 + 1)). rewrite u_bpow. unfold u. lra.
Qed.
Lemma rnd_minus (x y : f32) : exists e, Rabs e <= u /\ rnd32 (fval x - fval y) = (fval x - fval y) * (1 + e).
Proof. destruct (rnd_plus x (Bopp y)) as [e [He E]]. exists e. rewrite B2R_Bopp in E. split; [exact He|exact E]. Qed.

Definition near (x : f32) (r e : R) : Prop := fin x /\ Rabs (fval x - r) <= e.

Lemma near_self x : fin x -> near x (fval x) 0.
Proof. intros H. split; [exact H|]. replace (fval x - fval x) with 0 by ring. rewrite Rabs_R0. lra. Qed.
Lemma near_weaken x r e e' : near x r e -> e <= e' -> near x r e'.
Proof. intros [A B] H. split; [exact A|lra]. Qed.
Lemma near_fz o n : small n -> near (@fz f32 (F32 o) n) (IZR n) 0.
Proof. intros S. destruct (fz_val o n S) as [A B]. rewrite <- B. apply near_self, A. Qed.

Lemma bound_small x m : (0 <= m <= 16777216)%Z -> Rabs x <= IZR m -> IZR (- m) <= x <= IZR m.
Proof. intros _ H. rewrite opp_IZR. apply Rabs_le_inv in H. lra. Qed.

(** Rounding a result near [r] that is at most [m]. *)
Lemma rnd_near v r e m : Rabs (v - r) <= e -> Rabs r <= m -> Rabs (rnd32 v - r) <= e + u * (m + e) + tiny.
Proof.
  intros E M. replace (rnd32 v - r) with ((rnd32 v - v) + (v - r)) by ring. apply Rle_trans with (1 := Rabs_triang _ _).
  pose proof (rnd_err v) as K. assert (Rabs v <= m + e).
  { replace v with (r + (v - r)) by ring. apply Rle_trans with (1 := Rabs_triang _ _). lra. }
  assert (u * Rabs v <= u * (m + e)) by (apply Rmult_le_compat_l; [unfold u; lra|assumption]). lra.
Qed.
Lemma abs_within v r e m : Rabs (v - r) <= e -> Rabs r <= m -> Rabs v <= m + e.
Proof. intros E M. replace v with (r + (v - r)) by ring. apply Rle_trans with (1 := Rabs_triang _ _). lra. Qed.

Section Ops.
Context (o : oracle).
Local Notation "x +. y" := (@fadd f32 (F32 o) x y) (at level 50, left associativity).
Local Notation "x -. y" := (@fsub f32 (F32 o) x y) (at level 50, left associativity).
Local Notation "x *. y" := (@fmul f32 (F32 o) x y) (at level 40, left associativity).
Local Notation "x /. y" := (@fdiv f32 (F32 o) x y) (at level 40, left associativity).

(** [m] bounds the exact result; [E] the error. *)
Lemma near_add x y a b e1 e2 m : near x a e1 -> near y b e2 -> Rabs (a + b) <= m -> m + e1 + e2 <= 100000 ->
  near (x +. y) (a + b) (e1 + e2 + u * (m + (e1 + e2)) + tiny).
Proof.
  intros [Fx Ex] [Fy Ey] M L. assert (K : Rabs (fval x + fval y - (a + b)) <= e1 + e2).
  { replace (fval x + fval y - (a + b)) with ((fval x - a) + (fval y - b)) by ring. apply Rle_trans with (1 := Rabs_triang _ _). lra. }
  destruct (Bplus_ok x y (-100000) 100000 Fx Fy) as [F V]; try sm. { pose proof (abs_within _ _ _ _ K M) as W. apply Rabs_le_inv in W. lra. }
  split; [exact F|]. change (@fadd f32 (F32 o) x y) with (Bplus mode_NE x y). rewrite V. apply rnd_near; assumption.
Qed.
Lemma near_sub x y a b e1 e2 m : near x a e1 -> near y b e2 -> Rabs (a - b) <= m -> m + e1 + e2 <= 100000 ->
  near (x -. y) (a - b) (e1 + e2 + u * (m + (e1 + e2)) + tiny).
Proof.
  intros [Fx Ex] [Fy Ey] M L. assert (K : Rabs (fval x - fval y - (a - b)) <= e1 + e2).
  { replace (fval x - fval y - (a - b)) with ((fval x - a) + - (fval y - b)) by ring. apply Rle_trans with (1 := Rabs_triang _ _).
    rewrite Rabs_Ropp. lra. }
  destruct (Bminus_ok x y (-100000) 100000 Fx Fy) as [F V]; try sm. { pose proof (abs_within _ _ _ _ K M) as W. apply Rabs_le_inv in W. lra. }
  split; [exact F|]. change (@fsub f32 (F32 o) x y) with (Bminus mode_NE x y). rewrite V. apply rnd_near; assumption.
Qed.
Lemma mul_err X Y a b e1 e2 ma mb : Rabs (X - a) <= e1 -> Rabs (Y - b) <= e2 -> Rabs a <= ma -> Rabs b <= mb ->
  Rabs (X * Y - a * b) <= ma * e2 + mb * e1 + e1 * e2.
Proof.
  intros Ex Ey Ma Mb. replace (X * Y - a * b) with (a * (Y - b) + b * (X - a) + (X - a) * (Y - b)) by ring.
  pose proof (Rabs_pos (X - a)). pose proof (Rabs_pos (Y - b)). pose proof (Rabs_pos a). pose proof (Rabs_pos b).
  apply Rle_trans with (1 := Rabs_triang _ _). apply Rplus_le_compat.
  - apply Rle_trans with (1 := Rabs_triang _ _). rewrite !Rabs_mult. apply Rplus_le_compat; apply Rmult_le_compat; lra.
  - rewrite Rabs_mult. apply Rmult_le_compat; lra.
Qed.
Lemma near_mul x y a b e1 e2 ma mb m : near x a e1 -> near y b e2 -> Rabs a <= ma -> Rabs b <= mb -> Rabs (a * b) <= m ->
  let e := ma * e2 + mb * e1 + e1 * e2 in m + e <= 100000 ->
  near (x *. y) (a * b) (e + u * (m + e) + tiny).
Proof.
  intros [Fx Ex] [Fy Ey] Ma Mb M e L.
  assert (K : Rabs (fval x * fval y - a * b) <= e) by (apply mul_err; assumption).
  destruct (Bmult_ok x y (-100000) 100000 Fx Fy) as [F V]; try sm. { pose proof (abs_within _ _ _ _ K M) as W. apply Rabs_le_inv in W. lra. }
  split; [exact F|]. change (@fmul f32 (F32 o) x y) with (Bmult mode_NE x y). rewrite V. apply rnd_near; assumption.
Qed.
(** Division by an integer literal. *)
Lemma near_quot x a e n m : near x a e -> (1 <= n <= 1000)%Z -> Rabs (a / IZR n) <= m -> m + e / IZR n <= 100000 ->
  near (x /. @fz f32 (F32 o) n) (a / IZR n) (e / IZR n + u * (m + e / IZR n) + tiny).
Proof.
  intros [Fx Ex] Hn M L. destruct (fz_val o n) as [Fn Vn]; [sm|].
  assert (P : 1 <= IZR n) by (apply IZR_le; lia).
  assert (K : Rabs (fval x / fval (@fz f32 (F32 o) n) - a / IZR n) <= e / IZR n).
  { rewrite Vn. replace (fval x / IZR n - a / IZR n) with ((fval x - a) / IZR n) by (field; lra).
    unfold Rdiv. rewrite Rabs_mult, (Rabs_pos_eq (/ IZR n)) by (left; apply Rinv_0_lt_compat; lra).
    apply Rmult_le_compat_r; [left; apply Rinv_0_lt_compat; lra|exact Ex]. }
  destruct (Bdiv_ok x (@fz f32 (F32 o) n) (-100000) 100000 Fx Fn) as [F V]; try sm; [lra| |].
  { pose proof (abs_within _ _ _ _ K M) as W. apply Rabs_le_inv in W. lra. }
  split; [exact F|]. change (@fdiv f32 (F32 o) x ?y) with (Bdiv mode_NE x y). rewrite V. apply rnd_near; assumption.
Qed.

(** Differences of floats have a small relative error, and so have their quotients. *)
Definition rel (x : f32) (r k : R) : Prop := fin x /\ exists e, Rabs e <= k /\ fval x = r * (1 + e).
Lemma rel_sub x y : fin x -> fin y -> Rabs (fval x) <= 1000 -> Rabs (fval y) <= 1000 -> rel (x -. y) (fval x - fval y) u.
Proof.
  intros Fx Fy Bx By. apply Rabs_le_inv in Bx. apply Rabs_le_inv in By.
  destruct (Bminus_ok x y (-100000) 100000 Fx Fy) as [F V]; try sm; [lra|].
  split; [exact F|]. destruct (rnd_minus x y) as [e [He E]]. exists e. split; [exact He|].
  change (@fsub f32 (F32 o) x y) with (Bminus mode_NE x y). rewrite V. exact E.
Qed.
Lemma rel_self x : fin x -> rel x (fval x) 0.
Proof. intros Fx. split; [exact Fx|]. exists 0. rewrite Rabs_R0. split; [lra|ring]. Qed.
(** The quotient of two such numbers. *)
Lemma near_div x y a b k l : rel x a k -> rel y b l -> b <> 0 -> Rabs (a / b) <= 1 -> 0 <= k <= u -> 0 <= l <= u ->
  near (x /. y) (a / b) (4 * u) /\ fval (x /. y) = rnd32 (fval x / fval y) /\ fval y <> 0.
Proof.
  intros [Fx [e1 [He1 Vx]]] [Fy [e2 [He2 Vy]]] Nb B Hk Hl.
  apply Rabs_le_inv in He1. apply Rabs_le_inv in He2.
  assert (U : u = / 16777216) by reflexivity.
  assert (N2 : 1 + e2 <> 0) by lra.
  assert (E : fval x / fval y = a / b * ((1 + e1) / (1 + e2))) by (rewrite Vx, Vy; field; auto).
  assert (Q : (1 + e1) / (1 + e2) = 1 + (e1 - e2) / (1 + e2)) by (field; exact N2).
  assert (D : Rabs ((e1 - e2) / (1 + e2)) <= 21 / 10 * u).
  { apply Rabs_le. assert (I : 0 < / (1 + e2)) by (apply Rinv_0_lt_compat; lra).
    assert (I2 : / (1 + e2) <= 1 + 1 / 100). { apply (Rmult_le_reg_l (1 + e2)); [lra|]. rewrite Rinv_r by exact N2. lra. }
    assert (- (2 * u) <= e1 - e2 <= 2 * u) by lra. unfold Rdiv.
    assert (T : forall z, 0 <= z <= 2 * u -> 0 <= z * / (1 + e2) <= 21 / 10 * u).
    { intros z Hz. split; [apply Rmult_le_pos; lra|]. apply Rle_trans with (2 * u * (1 + 1 / 100)); [apply Rmult_le_compat; lra|lra]. }
    destruct (Rle_dec 0 (e1 - e2)).
    - pose proof (T (e1 - e2) ltac:(lra)). lra.
    - pose proof (T (- (e1 - e2)) ltac:(lra)) as T'. rewrite Ropp_mult_distr_l_reverse in T'. lra. }
  assert (K : Rabs (fval x / fval y - a / b) <= 21 / 10 * u).
  { rewrite E, Q. replace (a / b * (1 + (e1 - e2) / (1 + e2)) - a / b) with (a / b * ((e1 - e2) / (1 + e2))) by ring.
    rewrite Rabs_mult. rewrite <- (Rmult_1_l (21 / 10 * u)). apply Rmult_le_compat; auto using Rabs_pos. }
  assert (Ny : fval y <> 0) by (rewrite Vy; apply Rmult_integral_contrapositive_currified; auto).
  destruct (Bdiv_ok x y (-100000) 100000 Fx Fy Ny) as [F V]; try sm.
  { pose proof (abs_within _ _ _ _ K B) as W. apply Rabs_le_inv in W. lra. }
  split; [|split; [exact V|exact Ny]]. split; [exact F|]. change (@fdiv f32 (F32 o) x y) with (Bdiv mode_NE x y). rewrite V.
  apply Rle_trans with (1 := rnd_near _ _ _ _ K B). clear - U; rewrite U; unfold tiny; lra.
Qed.

Lemma near_min x y a b e : near x a e -> near y b e -> near (@fmin f32 (F32 o) x y) (Rmin a b) e.
Proof.
  intros [Fx Ex] [Fy Ey]. destruct (fmin32_fin x y Fx Fy) as [F V]. split; [exact F|].
  change (@fmin f32 (F32 o) x y) with (fmin32 x y). rewrite V. apply Rabs_le_inv in Ex. apply Rabs_le_inv in Ey. apply Rabs_le.
  unfold Rmin. destruct (Rle_dec (fval x) (fval y)), (Rle_dec a b); lra.
Qed.
Lemma near_max x y a b e : near x a e -> near y b e -> near (@fmax f32 (F32 o) x y) (Rmax a b) e.
Proof.
  intros [Fx Ex] [Fy Ey]. destruct (fmax32_fin x y Fx Fy) as [F V]. split; [exact F|].
  change (@fmax f32 (F32 o) x y) with (fmax32 x y). rewrite V. apply Rabs_le_inv in Ex. apply Rabs_le_inv in Ey. apply Rabs_le.
  unfold Rmax. destruct (Rle_dec (fval x) (fval y)), (Rle_dec a b); lra.
Qed.
Lemma near_abs x a e : near x a e -> near (@fabs f32 (F32 o) x) (Rabs a) e.
Proof.
  intros [Fx Ex]. split; [cbn [fabs F32]; rewrite is_finite_Babs; exact Fx|]. cbn [fabs F32]. rewrite B2R_Babs.
  apply Rle_trans with (2 := Ex). apply Rabs_triang_inv2.
Qed.
Lemma near_c01 x a e : near x a e -> 0 <= e -> near (@c01 f32 (F32 o) x) (Rmax (Rmin a 1) 0) e.
Proof.
  intros H He. apply near_max; [apply near_min; [exact H|]|]; eapply near_weaken; try (apply near_fz; sm); exact He.
Qed.
End Ops.
