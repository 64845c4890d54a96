(** * Premultiplication in binary32 (C206, C207) *)
From Coq Require Import ZArith QArith Reals Lra Lia List Bool.
From Flocq Require Import Core IEEE754.BinarySingleNaN.
From Verif Require Import Arith Outcome ColorModel F32 F32Facts RArith Spec Spec32 History Laws NormalForms Alpha8 Core_Proofs Core2_Proofs Core3_Proofs Core4_Proofs
  Spec_Round Round_Proofs Round2_Proofs Error_Proofs Error2_Proofs Spec_Error Tame_Proofs.
Import ListNotations.
Local Open Scope R_scope.

Local Notation fin x := (is_finite x = true).
Local Notation fval := (@B2R 24 128).

Section A.
Variable o : oracle.

Lemma times (v a : f32) : fin v -> fin a -> Rabs (fval v) <= 512 -> 0 <= fval a <= 1 ->
  fin (Bmult mode_NE v a) /\ Rabs (fval (Bmult mode_NE v a) - fval v * fval a) <= u * (Rabs (fval v) * fval a) + tiny /\ Rabs (fval (Bmult mode_NE v a)) <= Rabs (fval v) /\
  (fval a = 1 -> fval (Bmult mode_NE v a) = fval v) /\ (fval a = 0 -> fval (Bmult mode_NE v a) = 0).
Proof.
  intros Fv Fa Bv Ba. assert (P : Rabs (fval v * fval a) <= Rabs (fval v)). { rewrite Rabs_mult, (Rabs_pos_eq (fval a)) by lra. rewrite <- (Rmult_1_r (Rabs (fval v))) at 2. apply Rmult_le_compat_l; [apply Rabs_pos|lra]. }
  pose proof P as P'. apply Rabs_le_inv in P'. destruct (Bmult_ok v a (-512) 512 Fv Fa) as [F V]; try sm; [lra|]. rewrite V. split; [exact F|].
  pose proof (rnd_err (fval v * fval a)) as E. rewrite Rabs_mult, (Rabs_pos_eq (fval a)) in E by lra. split; [exact E|]. split; [|split].
  - assert (AB : forall z, Rabs (rnd32 z) = rnd32 (Rabs z)) by (intros z; unfold rnd32; symmetry; apply round_NE_abs; typeclasses eauto).
    rewrite AB. rewrite <- (rnd32_id v) at 2. rewrite AB. apply rnd32_le. exact P.
  - intros ->. rewrite Rmult_1_r. apply rnd32_id.
  - intros ->. rewrite Rmult_0_r. apply rnd32_0.
Qed.
Lemma again (v a : f32) : fin v -> fin a -> Rabs (fval v) <= 512 -> / 1048576 <= fval a <= 1 ->
  fin (Bdiv mode_NE (Bmult mode_NE v a) a) /\ Rabs (fval (Bdiv mode_NE (Bmult mode_NE v a) a) - fval v) <= 3 * u * Rabs (fval v) + / 549755813888 /\
  (fval a = 1 -> fval (Bdiv mode_NE (Bmult mode_NE v a) a) = fval v).
Proof.
  intros Fv Fa Bv Ba. destruct (times v a Fv Fa Bv ltac:(lra)) as [Fm [Em [Bm [Om _]]]]. set (m := Bmult mode_NE v a) in *. clearbody m.
  assert (Q : Rabs (fval m / fval a - fval v) <= u * Rabs (fval v) + 1048576 * tiny).
  { replace (fval m / fval a - fval v) with ((fval m - fval v * fval a) * / fval a) by (field; lra). rewrite Rabs_mult, (Rabs_pos_eq (/ fval a)) by (apply Rlt_le, Rinv_0_lt_compat; lra).
    apply Rle_trans with ((u * (Rabs (fval v) * fval a) + tiny) * / fval a); [apply Rmult_le_compat_r; [apply Rlt_le, Rinv_0_lt_compat; lra|exact Em]|].
    replace ((u * (Rabs (fval v) * fval a) + tiny) * / fval a) with (u * Rabs (fval v) + tiny * / fval a) by (field; lra). apply Rplus_le_compat_l. rewrite Rmult_comm. apply Rmult_le_compat_r; [unfold tiny; lra|].
    replace 1048576 with (/ / 1048576) by field. apply Rinv_le_contravar; lra. }
  pose proof (Rabs_pos (fval v)) as Pv. pose proof (Rabs_triang_inv (fval m / fval a) (fval v)) as T. pose proof (Rle_trans _ _ _ T Q) as T2.
  assert (B : Rabs (fval m / fval a) <= 1024) by (unfold tiny in T2; num).
  pose proof B as B'. apply Rabs_le_inv in B'. destruct (Bdiv_ok m a (-1024) 1024 Fm Fa) as [F V]; try sm; [lra|lra|]. rewrite V. split; [exact F|].
  split.
  - pose proof (rnd_err (fval m / fval a)) as E. replace (rnd32 (fval m / fval a) - fval v) with ((rnd32 (fval m / fval a) - fval m / fval a) + (fval m / fval a - fval v)) by ring.
    eapply Rle_trans; [apply Rabs_triang|]. set (q := fval m / fval a) in *. clearbody q. unfold tiny in *. num.
  - intros A1. rewrite A1 in *. rewrite (Om eq_refl). replace (fval v / 1) with (fval v) by field. apply rnd32_id.
Qed.

Lemma comp_512 (c : color f32) i x : @reachable f32 (F32 o) c -> nth_error (comps c) i = Some x -> fin x /\ Rabs (fval x) <= 512.
Proof.
  intros H E. destruct (components_in_range o c H) as [_ [_ [_ R]]]. destruct (R i x E) as [F B]. split; [exact F|]. change (@B2R 24 128) with fval in B.
  apply Rabs_le. destruct (cls c), i as [|[|[|i]]]; cbn [comp_range fst snd] in B; lra.
Qed.

Lemma alpha_times : forall (c : color f32) i x, @reachable f32 (F32 o) c -> in_interval 0 1 (m_alpha c) -> nth_error (comps c) i = Some x ->
  comp_sat (@alpha_multiply f32 (F32 o) c) i (fun y => is_finite y = true /\ Rabs (B2R y - B2R x * B2R (m_alpha c)) <= / 16777216 * (Rabs (B2R x) * B2R (m_alpha c)) + / 2 ^ 60 /\
    Rabs (B2R y) <= Rabs (B2R x) /\ (B2R (m_alpha c) = 1 -> B2R y = B2R x) /\ (B2R (m_alpha c) = 0 -> B2R y = 0)).
Proof.
  intros c i x H [Fa Ba] E. destruct (comp_512 c i x H E) as [Fx Bx]. destruct (times x (m_alpha c) Fx Fa Bx Ba) as [F [Er [Bo [O1 O0]]]].
  exists (Bmult mode_NE x (m_alpha c)). split; [unfold alpha_multiply; cbn [comps with_comps]; rewrite nth_error_map, E; reflexivity|].
  change (@B2R 24 128) with fval. split; [exact F|]. split; [|auto]. replace (/ 2 ^ 60) with tiny by (unfold tiny; f_equal; simpl; ring). replace (/ 16777216) with u by (unfold u; lra). exact Er.
Qed.
Lemma alpha_again : forall (c : color f32) i x, @reachable f32 (F32 o) c -> is_finite (m_alpha c) = true -> / 1048576 <= B2R (m_alpha c) <= 1 -> nth_error (comps c) i = Some x ->
  comp_sat (@alpha_divide f32 (F32 o) (@alpha_multiply f32 (F32 o) c)) i (fun y => is_finite y = true /\ Rabs (B2R y - B2R x) <= 3 / 16777216 * Rabs (B2R x) + / 2 ^ 39 /\ (B2R (m_alpha c) = 1 -> B2R y = B2R x)).
Proof.
  intros c i x H Fa Ba E. destruct (comp_512 c i x H E) as [Fx Bx]. destruct (again x (m_alpha c) Fx Fa Bx Ba) as [F [Er O1]].
  assert (Z : @feq f32 (F32 o) (m_alpha (@alpha_multiply f32 (F32 o) c)) (@fz f32 (F32 o) 0) = false).
  { destruct (fz_val o 0) as [F0 V0]; [sm|]. cbn [feq F32 alpha_multiply with_comps m_alpha]. rewrite Beqb_fin by auto. apply Req_bool_false. change (@B2R 24 128) with fval in *. rewrite V0. lra. }
  unfold alpha_divide. rewrite Z. exists (Bdiv mode_NE (Bmult mode_NE x (m_alpha c)) (m_alpha c)).
  split; [unfold alpha_multiply; cbn [comps with_comps m_alpha]; rewrite !nth_error_map, E; reflexivity|].
  change (@B2R 24 128) with fval. split; [exact F|]. split; [|exact O1]. replace (/ 2 ^ 39) with (/ 549755813888) by (f_equal; simpl; ring). replace (3 / 16777216) with (3 * u) by (unfold u; lra). exact Er.
Qed.
(** with alpha 0 everything is lost *)
Lemma alpha_lost : forall (c : color f32) i x, @reachable f32 (F32 o) c -> is_value (m_alpha c) 0 -> nth_error (comps c) i = Some x ->
  comp_sat (@alpha_divide f32 (F32 o) (@alpha_multiply f32 (F32 o) c)) i (fun y => is_value y 0).
Proof.
  intros c i x H [Fa Va] E. change (@B2R 24 128) with fval in Va. destruct (comp_512 c i x H E) as [Fx Bx]. destruct (times x (m_alpha c) Fx Fa Bx) as [F [_ [_ [_ O0]]]]; [rewrite Va; lra|].
  assert (Z : @feq f32 (F32 o) (m_alpha (@alpha_multiply f32 (F32 o) c)) (@fz f32 (F32 o) 0) = true).
  { destruct (fz_val o 0) as [F0 V0]; [sm|]. cbn [feq F32 alpha_multiply with_comps m_alpha]. rewrite Beqb_fin by auto. apply Req_bool_true. change (@B2R 24 128) with fval in *. rewrite V0. lra. }
  rewrite alpha_div_zero by exact Z. exists (Bmult mode_NE x (m_alpha c)). split; [unfold alpha_multiply; cbn [comps with_comps]; rewrite nth_error_map, E; reflexivity|]. split; [exact F|exact (O0 Va)].
Qed.
End A.

(** ** C207: Lab white with alpha 1/3 *)
Lemma third_val : is_finite (lit32 (1 # 3)) = true /\ 1 / 4 <= fval (lit32 (1 # 3)) <= 1 / 2.
Proof. destruct (fval_SF (lit32 (1 # 3)) false 11184811 (-25)) as [F V]; [vm_compute; reflexivity|]. split; [exact F|]. rewrite V. unfold F2R. cbn. lra. Qed.
Lemma white_third : let q := Bdiv mode_NE (Bmult mode_NE (lit32 (100 # 1)) (lit32 (1 # 3))) (lit32 (1 # 3)) in is_finite q = true /\ 100 < fval q.
Proof. cbv zeta. destruct (fval_SF (Bdiv mode_NE (Bmult mode_NE (lit32 (100 # 1)) (lit32 (1 # 3))) (lit32 (1 # 3))) false 13107201 (-17)) as [F V]; [vm_compute; reflexivity|]. split; [exact F|]. rewrite V. unfold F2R. cbn. lra. Qed.

Lemma again_refuted o : exists c, @reachable f32 (F32 o) c /\ cls c = LAB /\ in_interval 0 1 (m_alpha c) /\ comp_sat c 0 (fun x => is_value x 100) /\
  comp_sat (@alpha_divide f32 (F32 o) (@alpha_multiply f32 (F32 o) c)) 0 (fun x => is_finite x = true /\ 100 < B2R x).
Proof.
  destruct third_val as [H V]. destruct (fz_val o 0) as [F0 V0]; [sm|]. destruct (fz_val o 100) as [F1 V1]; [sm|].
  pose proof (@lab_nf f32 (F32 o) (@fz f32 (F32 o) 100) (@fz f32 (F32 o) 0) (@fz f32 (F32 o) 0) (lit32 (1 # 3)) None) as N.
  assert (E : @c100 f32 (F32 o) (@fz f32 (F32 o) 100) = @fz f32 (F32 o) 100) by (apply clamp_id; try sm; apply within32; try sm; rewrite V1; split; auto; lra).
  eexists. split; [apply r_new; eapply mk_lab; exact N|]. split; [reflexivity|]. split; [split; [exact H|cbn [m_alpha]; change (@B2R 24 128) with fval; lra]|]. split; [eexists; split; [reflexivity|]; rewrite E; split; [exact F1|exact V1]|].
  unfold alpha_divide. cbn [m_alpha alpha_multiply with_comps].
  assert (Z : @feq f32 (F32 o) (lit32 (1 # 3)) (@fz f32 (F32 o) 0) = false) by (cbn [feq F32]; rewrite Beqb_fin by auto; apply Req_bool_false; rewrite V0; lra).
  rewrite Z. eexists. split; [reflexivity|]. cbn [fdiv fmul F32]. rewrite E, fz32. exact white_third.
Qed.

(** whole bytes *)
Lemma byte_again o : forall (c : color f32) i x n, @reachable f32 (F32 o) c -> is_finite (m_alpha c) = true -> / 256 <= B2R (m_alpha c) <= 1 -> nth_error (comps c) i = Some x -> is_byte n -> is_value x (IZR n) ->
  comp_sat (@alpha_divide f32 (F32 o) (@alpha_multiply f32 (F32 o) c)) i (fun y => is_finite y = true /\ Rabs (B2R y - IZR n) <= / 16384).
Proof.
  intros c i x n H Fa Ba E Hn [Fx Vx]. destruct (alpha_again o c i x H Fa ltac:(lra) E) as [y [Ey [Fy [B _]]]]. exists y. split; [exact Ey|]. split; [exact Fy|].
  rewrite Vx in B. replace (/ 2 ^ 39) with (/ 549755813888) in B by (f_equal; simpl; ring). destruct Hn as [L U]. apply IZR_le in L. apply IZR_le in U. rewrite (Rabs_pos_eq (IZR n)) in B by lra. lra.
Qed.
