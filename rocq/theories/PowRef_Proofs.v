(** * A correctly rounded powf: the accuracy assumption of C153 - C155 can be met *)
From Coq Require Import ZArith Reals Lra Lia List Bool.
From Flocq Require Import Core IEEE754.BinarySingleNaN.
From Verif Require Import Arith F32 F32Facts Spec32 Spec_Error Core4_Proofs Error_Proofs Pow_Proofs.
Local Open Scope R_scope.
Local Notation fin x := (is_finite x = true).

(** the float nearest to a real number *)
Definition nearest (r : R) : f32 :=
  normalize (ZnearestE (scaled_mantissa radix2 (SpecFloat.fexp 24 128) r)) (cexp radix2 (SpecFloat.fexp 24 128) r) false.
Lemma nearest_val r : Rabs r <= 100000 -> fin (nearest r) /\ fval (nearest r) = rnd32 r.
Proof.
  intros B. apply Rabs_le_inv in B. pose proof (rnd32_bounds r (-100000) 100000 ltac:(red; lia) ltac:(red; lia) B) as K.
  unfold nearest. set (f := Float radix2 (ZnearestE (scaled_mantissa radix2 (SpecFloat.fexp 24 128) r)) (cexp radix2 (SpecFloat.fexp 24 128) r)).
  assert (V : F2R f = rnd32 r) by reflexivity.
  destruct (normalize_exact (Fnum f) (Fexp f) false) as [A C].
  - change (generic_format radix2 (SpecFloat.fexp 24 128) (F2R f)). rewrite V. apply generic_format_round; [apply (fexp_correct 24 128), prec_gt_0_32|apply valid_rnd_N].
  - change (Rabs (F2R f) < bpow radix2 128). rewrite V. apply Rle_lt_trans with 100000; [apply Rabs_le, K|].
    apply Rlt_le_trans with (bpow radix2 20); [simpl; lra|apply bpow_le; lia].
  - split; [exact C|exact A].
Qed.
Definition ref_pow (x y : f32) : f32 := if Req_EM_T (fval x) 0 then B754_zero false else nearest (Rpower (fval x) (fval y)).
Definition ref_oracle : oracle := Oracle ref_pow (o_cos nan_oracle) (o_sin nan_oracle) (o_atan2 nan_oracle) (o_exp nan_oracle) (o_log10 nan_oracle).
Lemma ref_accurate : accurate_pow ref_oracle.
Proof.
  intros x y Fx Fy. change (@B2R 24 128) with fval. intros Bx By. cbn [ref_oracle o_pow]. unfold ref_pow. destruct (Req_EM_T (fval x) 0) as [Z0|NZ].
  { split; [reflexivity|]. split; [reflexivity|]. intros H. exfalso. lra. }
  set (r := Rpower (fval x) (fval y)). assert (P : 0 < r) by apply exp_pos.
  assert (R16 : r <= 16).
  { apply Rle_trans with (Rpower 2 4); [|replace 4 with (INR 4) by (simpl; lra); rewrite Rpower_pow; lra].
    apply Rle_trans with (Rpower 2 (fval y)); [apply Rp_le_base; lra|apply Rle_Rpower; lra]. }
  destruct (nearest_val r) as [F V]; [rewrite Rabs_pos_eq; lra|]. split; [exact F|]. split; [intros E; contradiction|]. intros _. rewrite V.
  destruct (Relative.error_N_FLT radix2 (-149) 24 eq_refl (fun x => negb (Z.even x)) r) as [e [t [He [Ht [_ E]]]]].
  change (rnd32 r = r * (1 + e) + t) in E. rewrite E. replace (r * (1 + e) + t - r) with (e * r + t) by ring.
  apply Rle_trans with (1 := Rabs_triang _ _). rewrite Rabs_mult, (Rabs_pos_eq r) by lra.
  assert (He' : Rabs e <= u) by (rewrite <- u_bpow; exact He).
  assert (Rabs e * r <= u * r) by (apply Rmult_le_compat_r; lra).
  assert (Rabs t <= / 2 ^ 149).
  { apply Rle_trans with (1 := Ht). replace (/ 2 ^ 149) with (bpow radix2 (-149)); [pose proof (bpow_gt_0 radix2 (-149)); lra|].
    change (-149)%Z with (- (149))%Z. rewrite bpow_opp. f_equal. change 149%Z with (Z.of_nat 149). rewrite bpow_powerRZ, <- pow_powerRZ. reflexivity. }
  assert (u * r <= r / 1048576) by (unfold u; lra). lra.
Qed.
