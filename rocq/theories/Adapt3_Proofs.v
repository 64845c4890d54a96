(** * The full Bradford and CMCCAT97 adaptations; white points of the same value *)
From Coq Require Import ZArith QArith Reals Lra Lia List Bool.
From Flocq Require Import Core.
From Verif Require Import Arith Outcome ColorModel GammaModel MatrixModel SpaceModel Heap Converter Calculation Adapt
  Spec RArith Laws NormalForms Core_Proofs Convert_Proofs Alpha8
  Spec_Matrix Spec_Space Spec_Conv Spec_Calc Spec_Blend Spec_Adapt
  Conv_Proofs Conv2_Proofs Conv3_Proofs Gamma2_Proofs Space_Proofs Total_Proofs HueR_Proofs Calc_Proofs Blend_Proofs Distance_Proofs Adapt_Proofs Adapt2_Proofs.
Import ListNotations.
Local Open Scope R_scope.

Lemma pow_one x : 0 <= x -> Rpow_c x 1 = x.
Proof.
  intros [P|<-].
  - rewrite Rpow_c_pos by lra. apply Rpower_1. exact P.
  - apply Rpow_c_zero. lra.
Qed.
Lemma pow_1 y : Rpow_c 1 y = 1.
Proof.
  unfold Rpow_c. destruct (Req_EM_T y 2); [ring|]. destruct (Req_EM_T y 3); [ring|]. destruct (Rlt_dec 0 1); [|lra].
  unfold Rpower. rewrite ln_1, Rmult_0_r. apply exp_0.
Qed.

(** The white point divided by its luminance *)
Definition unit_white (w : white_point R) : R * R * R := scale3 (/ ty_ w) (white_vec w).
Lemma normalized_mat l w : ty_ w <> 0 -> mat3 l (tx w / ty_ w, ty_ w / ty_ w, tz w / ty_ w) = scale3 (/ ty_ w) (mat3 l (white_vec w)).
Proof.
  intros H. unfold white_vec.
  assert (Zr : (0, 0, 0) = scale3 (/ ty_ w) (0, 0, 0)) by (unfold scale3; f_equal; [f_equal|]; ring).
  unfold mat3. destruct l as [|a [|b [|c [|e [|f [|g [|hh [|i [|j [|]]]]]]]]]]; try exact Zr.
  unfold scale3. f_equal; [f_equal|]; field; exact H.
Qed.

(** What the full Bradford adaptation computes. *)
Lemma bradford_value w0 w (x c : color R) v n : comps_are x v -> raw_comp c 1 = Ok n -> ty_ w0 <> 0 -> ty_ w <> 0 ->
  method_f Bradford w0 w x c = Ok (mat3 m_inverted_bradford
    (let '(r0, r1, r2) := mat3 m_bradford v in
     let '(s0, s1, s2) := scale3 (/ ty_ w0) (responses Bradford w0) in
     let '(d0, d1, d2) := scale3 (/ ty_ w) (responses Bradford w) in
     let p := Rpow_c (s2 / d2) (Q2R (834 # 10000)) in
     let div := r2 / n / s2 in
     let t2 := d2 * Rpow_c (Rabs div) p * n in
     (d0 * (r0 / n / s0) * n, d1 * (r1 / n / s1) * n, if Rltb div 0 then t2 * -1 else t2))).
Proof.
  intros C En Y0 Y1. cbn [method_f]. unfold bradford_f, normalized_white. destruct v as [[x0 x1] x2]. unfold comps_are in C. rewrite C.
  rewrite apply_staticR by (apply (matrix_nine Bradford)). rewrite En. cbn [obind].
  rewrite !apply_staticR by (apply (matrix_nine Bradford)). cbn [fdiv RArith]. rewrite !normalized_mat by assumption. unfold responses. cbn [method_matrix obind].
  destruct (mat3 m_bradford (x0, x1, x2)) as [[r0 r1] r2]. destruct (scale3 _ _) as [[s0 s1] s2]. destruct (scale3 _ _) as [[d0 d1] d2]. cbv zeta. cbn [obind].
  rewrite apply_staticR by (apply (inverse_nine Bradford)). rewrite !fzR. reflexivity.
Qed.

Lemma cmccat97_value f La w0 w (x c : color R) v n : comps_are x v -> raw_comp c 1 = Ok n -> ty_ w0 <> 0 -> ty_ w <> 0 ->
  exists D, 0 <= D <= 1 /\ method_f (Cmccat97 f La) w0 w x c = Ok (mat3 m_inverted_cmccat97
    (let '(r0, r1, r2) := mat3 m_cmccat97 v in
     let '(s0, s1, s2) := scale3 (/ ty_ w0) (responses Cmccat97Simplified w0) in
     let '(d0, d1, d2) := scale3 (/ ty_ w) (responses Cmccat97Simplified w) in
     let p := Rpow_c (s2 / d2) (Q2R (834 # 10000)) in
     let t2 := n * (Rpow_c (Rabs (r2 / n)) p * (D * (d2 / Rpow_c s2 p) + 1 - D)) in
     (n * (r0 / n * (D * (d0 / s0) + 1 - D)), n * (r1 / n * (D * (d1 / s1) + 1 - D)), if Rltb (r2 / n) 0 then t2 * -1 else t2))).
Proof.
  intros C En Y0 Y1. cbn [method_f]. unfold cmccat97_f, normalized_white. set (D := degree _). exists D. split; [unfold D; rewrite degreeR; apply unit_clamp_range|].
  clearbody D. destruct v as [[x0 x1] x2]. unfold comps_are in C. rewrite C.
  rewrite apply_staticR by (apply (matrix_nine Cmccat97Simplified)). rewrite En. cbn [obind].
  rewrite !apply_staticR by (apply (matrix_nine Cmccat97Simplified)). cbn [fdiv RArith]. rewrite !normalized_mat by assumption. unfold responses. cbn [method_matrix obind].
  destruct (mat3 m_cmccat97 (x0, x1, x2)) as [[r0 r1] r2]. destruct (scale3 _ _) as [[s0 s1] s2]. destruct (scale3 _ _) as [[d0 d1] d2]. cbv zeta. cbn [obind].
  rewrite apply_staticR by (apply (inverse_nine Cmccat97Simplified)). rewrite !fzR. reflexivity.
Qed.

(** The full Bradford adaptation maps the source white to the target white with the luminance of the source white. *)
Lemma bradford_white (h : heap R) p c s a w0 b w B : at_addr h p c -> wf_color XYZ c -> has_white h c s a w0 -> a <> b ->
  comps_are c (white_vec w0) -> nonzero3 (responses Bradford w0) -> ty_ w0 <> 0 -> ty_ w <> 0 -> B <= 100 -> bounded3 B (scale3 (ty_ w0 / ty_ w) (white_vec w)) ->
  exists q r h', adaptation Bradford (Some p) (Some (b, w)) h = (Ok (Some q), h') /\ at_addr h' q r /\
    comps_near (inv_err * B) r (scale3 (ty_ w0 / ty_ w) (white_vec w)).
Proof.
  intros Hp W HW N C NZ Y0 Y1 HB B1.
  assert (En : raw_comp c 1 = Ok (ty_ w0)) by (unfold comps_are, white_vec in C; unfold raw_comp; rewrite C; reflexivity).
  destruct (adapt_xyz Bradford h p c s a w0 b w _ Hp W HW N (bradford_value w0 w c c _ _ C En Y0 Y1)) as [q [r [h' [E [A [Cr _]]]]]].
  exists q, r, h'. split; [exact E|]. split; [exact A|]. apply (comps_near_of _ _ _ _ Cr). clear Cr E A.
  apply near_clamp; [unfold scale3, white_vec, bounded3 in *; lra|].
  match goal with |- near3 _ (mat3 _ ?v) _ => replace v with (mat3 (method_matrix Bradford) (scale3 (ty_ w0 / ty_ w) (white_vec w))) end.
  { apply (inverse_near Bradford). exact B1. }
  replace (scale3 (ty_ w0 / ty_ w) (white_vec w)) with (add3 (scale3 (ty_ w0 / ty_ w) (white_vec w)) (scale3 0 (white_vec w))).
  2: { unfold scale3, add3, white_vec. f_equal; [f_equal|]; ring. }
  rewrite mat3_lin. fold (responses Bradford w). change (mat3 m_bradford (white_vec w0)) with (responses Bradford w0).
  destruct (responses Bradford w) as [[d0 d1] d2], (responses Bradford w0) as [[s0 s1] s2]. destruct NZ as [Z0 [Z1 Z2]]. unfold scale3 at 3 4. cbv beta iota zeta.
  replace (s2 / ty_ w0 / (/ ty_ w0 * s2)) with 1 by (field; auto). rewrite Rabs_R1, pow_1.
  unfold Rltb. destruct (Rlt_dec 1 0); [lra|]. unfold add3, scale3. f_equal; [f_equal|]; field; auto.
Qed.

(** ** A white point of the same value at another address *)
Lemma same_value m w0 (c : color R) v : comps_are c v -> positive3 (responses m w0) -> 0 < ty_ w0 -> (second_component m = true -> snd (fst v) <> 0) ->
  method_f m w0 w0 c c = Ok (mat3 (method_inverse m) (mat3 (method_matrix m) v)).
Proof.
  intros C P YP NZ. assert (Y : ty_ w0 <> 0) by lra. assert (P' := P). destruct (responses m w0) as [[s0 s1] s2] eqn:Er in P'. destruct P' as [P0 [P1 P2]].
  assert (En : raw_comp c 1 = Ok (snd (fst v))) by (destruct v as [[x0 x1] x2]; unfold comps_are in C; unfold raw_comp; rewrite C; reflexivity).
  assert (L : simplified m = true -> method_f m w0 w0 c c = Ok (mat3 (method_inverse m) (mat3 (method_matrix m) v))).
  { intros S. rewrite (linear_value m w0 w0 c c v S C). do 2 f_equal. rewrite Er. destruct (mat3 (method_matrix m) v) as [[m0 m1] m2].
    unfold div3, mul3. f_equal; [f_equal|]; field; lra. }
  destruct m as [| | | | | | | |f La|f La Lr|f La]; try (apply L; reflexivity).
  - specialize (NZ eq_refl). rewrite (bradford_value w0 w0 c c v _ C En Y Y). rewrite Er. cbn [method_matrix method_inverse].
    set (n := snd (fst v)) in *. destruct (mat3 m_bradford v) as [[r0 r1] r2]. unfold scale3. cbv beta iota zeta.
    assert (Q : / ty_ w0 * s2 / (/ ty_ w0 * s2) = 1) by (field; split; lra). rewrite Q, pow_1, pow_one by apply Rabs_pos.
    f_equal. f_equal. f_equal; [f_equal; field; lra|].
    unfold Rltb. destruct (Rlt_dec (r2 / n / (/ ty_ w0 * s2)) 0).
    + rewrite Rabs_left by assumption. field; lra.
    + rewrite Rabs_right by lra. field; lra.
  - specialize (NZ eq_refl). destruct (cmccat97_value f La w0 w0 c c v _ C En Y Y) as [D [_ E]]. rewrite E.
    change (responses Cmccat97Simplified w0) with (responses (Cmccat97 f La) w0). rewrite Er. cbn [method_matrix method_inverse].
    set (n := snd (fst v)) in *. destruct (mat3 m_cmccat97 v) as [[r0 r1] r2]. unfold scale3. cbv beta iota zeta.
    assert (Ps : 0 < / ty_ w0 * s2) by (apply Rmult_lt_0_compat; [apply Rinv_0_lt_compat; exact YP|exact P2]).
    assert (Q : / ty_ w0 * s2 / (/ ty_ w0 * s2) = 1) by (field; split; lra). rewrite Q, pow_1, pow_one by apply Rabs_pos.
    rewrite (pow_one (/ ty_ w0 * s2)) by lra. rewrite Q.
    f_equal. f_equal. f_equal; [f_equal; field; lra|].
    unfold Rltb. destruct (Rlt_dec (r2 / n) 0).
    + rewrite Rabs_left by assumption. field; lra.
    + rewrite Rabs_right by lra. field; lra.
  - rewrite (cmccat2000_value f La Lr w0 w0 c c v C). change (responses Cmccat2000Simplified w0) with (responses (Cmccat2000 f La Lr) w0). rewrite Er.
    cbn [method_matrix method_inverse]. destruct (mat3 m_cmccat2000 v) as [[r0 r1] r2]. unfold div3, mul3. cbv zeta. f_equal. f_equal. f_equal; [f_equal|]; field; lra.
  - rewrite (cat02_value f La w0 w0 c c v C). change (responses Cat02Simplified w0) with (responses (Cat02 f La) w0). rewrite Er.
    cbn [method_matrix method_inverse]. destruct (mat3 m_cat02 v) as [[r0 r1] r2]. unfold div3, mul3. cbv zeta. f_equal. f_equal. f_equal; [f_equal|]; field; lra.
Qed.

Lemma wf_xyz_range (c : color R) v : wf_color XYZ c -> comps_are c v -> bounded3 100 v.
Proof.
  intros W. destruct v as [[x0 x1] x2]. unfold comps_are. intros C.
  assert (K : forall i x, nth_error (comps c) i = Some x -> 0 <= x <= 100).
  { intros i x Hx. pose proof (wf_range _ _ W i x Hx) as [A B]. cbn [fst snd comp_range] in A, B. rewrite !fzR in *. cbn [fle RArith] in *.
    apply Rleb_true in A, B. lra. }
  rewrite C in K. split; [apply (K 0%nat); reflexivity|]. split; [apply (K 1%nat); reflexivity|apply (K 2%nat); reflexivity].
Qed.

Lemma same_white_near m (h : heap R) p c s a w0 b v B : at_addr h p c -> wf_color XYZ c -> has_white h c s a w0 -> a <> b -> comps_are c v ->
  positive3 (responses m w0) -> 0 < ty_ w0 -> (second_component m = true -> snd (fst v) <> 0) -> bounded3 B v ->
  exists q r h', adaptation m (Some p) (Some (b, w0)) h = (Ok (Some q), h') /\ at_addr h' q r /\ comps_near (inv_err * B) r v.
Proof.
  intros Hp W HW N C P Y NZ HB. destruct (adapt_xyz m h p c s a w0 b w0 _ Hp W HW N (same_value m w0 c v C P Y NZ)) as [q [r [h' [E [A [Cr _]]]]]].
  exists q, r, h'. split; [exact E|]. split; [exact A|]. apply (comps_near_of _ _ _ _ Cr). apply near_clamp; [|apply inverse_near; exact HB].
  apply (wf_xyz_range c); assumption.
Qed.

(** All consistent white points of the library have positive cone responses. *)
Lemma presets_box w : In w good_whites -> 8 / 10 <= tx w <= 12 / 10 /\ ty_ w = 1 /\ 2 / 10 <= tz w <= 14 / 10.
Proof.
  intros I. unfold good_whites in I. cbn [In] in I.
  repeat match type of I with _ \/ _ => destruct I as [<-|I] end; try contradiction;
    (match goal with |- context [tx ?w] => let v := eval hnf in w in change w with v end; cbn [tx ty_ tz lit RArith]; unfold Q2R; cbn [Qnum Qden]; repeat split; lra).
Qed.
Lemma presets_positive m w : In w good_whites -> positive3 (responses m w) /\ 0 < ty_ w.
Proof.
  intros H. destruct (presets_box w H) as [X [Y Zz]]. unfold responses, white_vec. rewrite Y. generalize dependent (tx w). generalize dependent (tz w).
  intros z Hz x Hx. split; [|lra]. destruct m; lits; unfold positive3; repeat split; lra.
Qed.
Lemma presets_bounded w : In w good_whites -> bounded3 (14 / 10) (white_vec w).
Proof. intros H. destruct (presets_box w H) as [X [Y Zz]]. unfold white_vec, bounded3. lra. Qed.
