(** * Distances of arbitrary colours in binary32 (C205) *)
From Coq Require Import ZArith QArith Reals Lra Lia List Bool.
From Flocq Require Import Core IEEE754.BinarySingleNaN.
From Verif Require Import Arith Outcome ColorModel GammaModel MatrixModel SpaceModel Heap Converter Distance F32 F32Facts RArith
  Spec Spec32 Laws NormalForms Alpha8 Core_Proofs Core2_Proofs Core3_Proofs Core4_Proofs Hue32 Spec_Matrix Spec_Conv Spec_Calc Spec_Round
  Conv_Proofs Conv2_Proofs Conv3_Proofs Run_Proofs Round_Proofs Round2_Proofs Error_Proofs Error2_Proofs Spec_Error
  Spec_Distance Distance_Proofs Distance2_Proofs Spec_Rank Spec_Mix Rank_Proofs Tame_Proofs Mix_Proofs Distance5_Proofs Spec_Metric.
Import ListNotations.
Local Open Scope R_scope.

Local Notation fin x := (is_finite x = true).
Local Notation fval := (@B2R 24 128).

Section Metric.
Variable o : oracle.
Local Notation "$ n" := (@fz f32 (F32 o) n) (at level 0, n at level 0, format "$ n").
Local Notation "x +. y" := (@fadd f32 (F32 o) x y) (at level 50, left associativity).
Local Notation "x -. y" := (@fsub f32 (F32 o) x y) (at level 50, left associativity).
Local Notation sq x := (@fpow f32 (F32 o) x (@fz f32 (F32 o) 2)).
Let e60 := / 1152921504606846976.

Section Accurate.
Hypothesis AS : accurate_square o.
Hypothesis PO : positive_square o.

Lemma term (x y : f32) : fin x -> fin y -> Rabs (fval x) <= 256 -> Rabs (fval y) <= 256 ->
  fin (sq (x -. y)) /\ 0 <= fval (sq (x -. y)) <= 300000 /\ Rabs (fval (sq (x -. y)) - (fval x - fval y) * (fval x - fval y)) <= 1802 / 100 * u * ((fval x - fval y) * (fval x - fval y)) + e60 /\
  (fval x = fval y -> fval (sq (x -. y)) = 0).
Proof.
  intros Fx Fy Bx By. apply Rabs_le_inv in Bx. apply Rabs_le_inv in By.
  destruct (Bminus_ok x y (-512) 512 Fx Fy) as [Fd Vd]; try sm; [lra|]. change (x -. y) with (Bminus mode_NE x y). set (d := Bminus mode_NE x y) in *. clearbody d.
  assert (Bd : -512 <= fval d <= 512) by (rewrite Vd; apply (rnd32_bounds _ (-512) 512); try sm; lra).
  assert (L : Rabs (fval d) <= 1024) by (apply Rabs_le; lra).
  destruct (AS d Fd L) as [Fs [Zs Es]]. pose proof (PO d Fd L) as Ps. change (o_pow o d $2) with (sq d) in *. change (@B2R 24 128) with fval in *.
  set (s := sq d) in *. clearbody s. destruct (rnd_minus x y) as [e [He E]]. rewrite <- Vd in E.
  set (D := fval x - fval y) in *. assert (QD : 0 <= D * D) by apply Rle_0_sqr.
  assert (DD : D * D <= 262144) by (replace 262144 with (512 * 512) by ring; rewrite <- (Rabs_pos_eq (D * D)), Rabs_mult by exact QD; apply Rmult_le_compat; try apply Rabs_pos; apply Rabs_le; unfold D; lra).
  assert (ED : fval d * fval d = D * D + (2 * e + e * e) * (D * D)) by (rewrite E; ring).
  apply Rabs_le_inv in He. assert (E2 : 0 <= e * e <= u * u) by (split; [apply Rle_0_sqr|rewrite <- (Rabs_pos_eq (e * e)), Rabs_mult by apply Rle_0_sqr; apply Rmult_le_compat; try apply Rabs_pos; apply Rabs_le; lra]).
  assert (C : Rabs (2 * e + e * e) <= 201 / 100 * u) by (apply Rabs_le; num).
  assert (M : Rabs ((2 * e + e * e) * (D * D)) <= 201 / 100 * u * (D * D)) by (rewrite Rabs_mult, (Rabs_pos_eq (D * D)) by exact QD; apply Rmult_le_compat_r; assumption).
  split; [exact Fs|].
  replace (/ 2 ^ 60) with e60 in Es by (unfold e60; f_equal; simpl; ring). rewrite ED in Es. set (m := (2 * e + e * e) * (D * D)) in *. clearbody m. apply Rabs_le_inv in M. apply Rabs_le_inv in Es.
  assert (P60 : 0 < e60 < / 1000000) by (unfold e60; lra).
  split; [split; [exact Ps|num]|]. split; [apply Rabs_le; num|].
  intros EQ. apply Zs. rewrite E. unfold D. rewrite EQ. ring.
Qed.

Lemma three (s1 s2 s3 : f32) q1 q2 q3 : fin s1 -> fin s2 -> fin s3 -> 0 <= fval s1 <= 300000 -> 0 <= fval s2 <= 300000 -> 0 <= fval s3 <= 300000 -> 0 <= q1 -> 0 <= q2 -> 0 <= q3 ->
  Rabs (fval s1 - q1) <= 1802 / 100 * u * q1 + e60 -> Rabs (fval s2 - q2) <= 1802 / 100 * u * q2 + e60 -> Rabs (fval s3 - q3) <= 1802 / 100 * u * q3 + e60 ->
  fin ($0 +. s1 +. s2 +. s3) /\ 0 <= fval ($0 +. s1 +. s2 +. s3) /\
  Rabs (fval ($0 +. s1 +. s2 +. s3) - (q1 + q2 + q3)) <= 201 / 10 * u * (q1 + q2 + q3) + / 536870912 * / 536870912 /\
  (fval s1 = 0 -> fval s2 = 0 -> fval s3 = 0 -> fval ($0 +. s1 +. s2 +. s3) = 0).
Proof.
  intros F1 F2 F3 B1 B2 B3 P1 P2 P3 E1 E2 E3. destruct (fz_val o 0) as [F0 V0]; [sm|].
  destruct (Bplus_ok $0 s1 0 300000 F0 F1) as [Fa Va]; try sm; [rewrite V0; lra|]. change ($0 +. s1) with (Bplus mode_NE $0 s1). rewrite V0, Rplus_0_l, rnd32_id in Va.
  set (a := Bplus mode_NE $0 s1) in *. clearbody a.
  destruct (Bplus_ok a s2 0 600000 Fa F2) as [Fb Vb]; try sm; [lra|]. change (a +. s2) with (Bplus mode_NE a s2). destruct (rnd_plus a s2) as [f [Hf Ef]]. rewrite <- Vb in Ef.
  assert (Bb : 0 <= fval (Bplus mode_NE a s2) <= 600000) by (rewrite Vb; apply (rnd32_bounds _ 0 600000); try sm; lra).
  set (b := Bplus mode_NE a s2) in *. clearbody b.
  destruct (Bplus_ok b s3 0 900000 Fb F3) as [Fc Vc]; try sm; [lra|]. change (b +. s3) with (Bplus mode_NE b s3). destruct (rnd_plus b s3) as [g [Hg Eg]]. rewrite <- Vc in Eg.
  assert (Bc : 0 <= fval (Bplus mode_NE b s3)) by (rewrite Vc; apply rnd_nonneg; lra).
  set (c := Bplus mode_NE b s3) in *. clearbody c. split; [exact Fc|]. split; [exact Bc|]. rewrite Va in *.
  assert (P60 : 0 < e60) by (unfold e60; lra).
  split.
  - apply Rabs_le_inv in E1. apply Rabs_le_inv in E2. apply Rabs_le_inv in E3.
    assert (G1 : Rabs (fval b - (fval s1 + fval s2)) <= u * (fval s1 + fval s2)).
    { rewrite Ef. replace ((fval s1 + fval s2) * (1 + f) - (fval s1 + fval s2)) with (f * (fval s1 + fval s2)) by ring. rewrite Rabs_mult, (Rabs_pos_eq (fval s1 + fval s2)) by lra. apply Rmult_le_compat_r; lra. }
    assert (G2 : Rabs (fval c - (fval b + fval s3)) <= u * (fval b + fval s3)).
    { rewrite Eg. replace ((fval b + fval s3) * (1 + g) - (fval b + fval s3)) with (g * (fval b + fval s3)) by ring. rewrite Rabs_mult, (Rabs_pos_eq (fval b + fval s3)) by lra. apply Rmult_le_compat_r; lra. }
    apply Rabs_le_inv in G1. apply Rabs_le_inv in G2. clear Ef Eg Vb Vc. unfold e60 in *. apply Rabs_le. num.
  - intros Z1 Z2 Z3. rewrite Vc, Vb, Z1, Z2, Z3. replace (0 + 0) with 0 by ring. rewrite rnd32_0. replace (0 + 0) with 0 by ring. apply rnd32_0.
Qed.

Lemma bound3 X (c : color f32) i x : X = LAB \/ X = RGB_DEEP \/ X = CIELUV -> @wf_color f32 (F32 o) X c -> nth_error (comps c) i = Some x -> fin x /\ Rabs (fval x) <= 128.
Proof.
  intros HX W E. pose proof (wf_range _ _ W i x E) as H.
  apply within_in_interval in H; [|destruct HX as [-> |[-> | ->]]; destruct i; cbn [comp_range fst snd]; sm|destruct HX as [-> |[-> | ->]]; destruct i; cbn [comp_range fst snd]; sm].
  destruct H as [F B]. change (@B2R 24 128) with fval in B. split; [exact F|]. apply Rabs_le. destruct HX as [-> |[-> | ->]]; destruct i; cbn [comp_range fst snd] in B; lra.
Qed.
Lemma arity3 X : X = LAB \/ X = RGB_DEEP \/ X = CIELUV -> arity X = 3%nat.
Proof. intros [-> |[-> | ->]]; reflexivity. Qed.

Lemma squared_near X (c1 c2 : color f32) : X = LAB \/ X = RGB_DEEP \/ X = CIELUV -> @wf_color f32 (F32 o) X c1 -> @wf_color f32 (F32 o) X c2 ->
  exists v, @squared_f f32 (F32 o) c1 c2 = Ok v /\ fin v /\ 0 <= fval v /\ 0 <= squared_distance (numbers c1) (numbers c2) /\
    Rabs (fval v - squared_distance (numbers c1) (numbers c2)) <= 201 / 10 * u * squared_distance (numbers c1) (numbers c2) + / 536870912 * / 536870912 /\
    (numbers c1 = numbers c2 -> fval v = 0).
Proof.
  intros HX W1 W2. destruct (Conv_Proofs.comps3 (AF := F32 o) _ _ W1 (arity3 X HX)) as [x1 [y1 [z1 C1]]]. destruct (Conv_Proofs.comps3 (AF := F32 o) _ _ W2 (arity3 X HX)) as [x2 [y2 [z2 C2]]].
  assert (K : forall (c : color f32) i x, @wf_color f32 (F32 o) X c -> nth_error (comps c) i = Some x -> fin x /\ Rabs (fval x) <= 256).
  { intros c i x W E. destruct (bound3 X c i x HX W E) as [F B]. split; [exact F|lra]. }
  destruct (K c1 0%nat x1 W1) as [Fx1 Bx1]; [rewrite C1; reflexivity|]. destruct (K c1 1%nat y1 W1) as [Fy1 By1]; [rewrite C1; reflexivity|]. destruct (K c1 2%nat z1 W1) as [Fz1 Bz1]; [rewrite C1; reflexivity|].
  destruct (K c2 0%nat x2 W2) as [Fx2 Bx2]; [rewrite C2; reflexivity|]. destruct (K c2 1%nat y2 W2) as [Fy2 By2]; [rewrite C2; reflexivity|]. destruct (K c2 2%nat z2 W2) as [Fz2 Bz2]; [rewrite C2; reflexivity|].
  destruct (term x1 x2 Fx1 Fx2 Bx1 Bx2) as [Fs1 [Bs1 [Es1 Zs1]]]. destruct (term y1 y2 Fy1 Fy2 By1 By2) as [Fs2 [Bs2 [Es2 Zs2]]]. destruct (term z1 z2 Fz1 Fz2 Bz1 Bz2) as [Fs3 [Bs3 [Es3 Zs3]]].
  destruct (three _ _ _ _ _ _ Fs1 Fs2 Fs3 Bs1 Bs2 Bs3 (Rle_0_sqr _) (Rle_0_sqr _) (Rle_0_sqr _) Es1 Es2 Es3) as [Fv [Pv [Ev Zv]]].
  unfold numbers. rewrite C1, C2.
  assert (SD : squared_distance (map fval [x1; y1; z1]) (map fval [x2; y2; z2]) = (fval x1 - fval x2) * (fval x1 - fval x2) + (fval y1 - fval y2) * (fval y1 - fval y2) + (fval z1 - fval z2) * (fval z1 - fval z2)).
  { unfold squared_distance. cbn [map map2 fold_right]. ring. }
  rewrite SD. unfold squared_f. rewrite C1, C2. cbn [sum_squares]. eexists. split; [reflexivity|]. split; [exact Fv|]. split; [exact Pv|]. split; [|split; [exact Ev|]].
  - pose proof (Rle_0_sqr (fval x1 - fval x2)) as Q1. pose proof (Rle_0_sqr (fval y1 - fval y2)) as Q2. pose proof (Rle_0_sqr (fval z1 - fval z2)) as Q3. unfold Rsqr in *. lra.
  - cbn [map]. intros EQ. apply Zv; [apply Zs1|apply Zs2|apply Zs3]; congruence.
Qed.

Lemma root_near2 X (c1 c2 : color f32) : X = LAB \/ X = RGB_DEEP \/ X = CIELUV -> @wf_color f32 (F32 o) X c1 -> @wf_color f32 (F32 o) X c2 ->
  exists v, @squared_f f32 (F32 o) c1 c2 = Ok v /\ measures (euclid (numbers c1) (numbers c2)) (@fsqrt f32 (F32 o) v) /\ 0 <= fval (@fsqrt f32 (F32 o) v) /\
    (numbers c1 = numbers c2 -> fval (@fsqrt f32 (F32 o) v) = 0).
Proof.
  intros HX W1 W2. destruct (squared_near X c1 c2 HX W1 W2) as [v [E [Fv [Pv [PN [Ev Zv]]]]]]. exists v. split; [exact E|].
  change (@fsqrt f32 (F32 o) v) with (Bsqrt mode_NE v). destruct (Bsqrt_ok v Fv Pv) as [Fr Vr]. unfold euclid.
  set (N := squared_distance (numbers c1) (numbers c2)) in *. clearbody N.
  pose proof (sqrt_close (fval v) N (201 / 10) (/ 536870912) Pv PN ltac:(lra) ltac:(lra) Ev) as Q.
  pose proof (rnd_err (sqrt (fval v))) as R. rewrite <- Vr in R. pose proof (sqrt_pos (fval v)) as P1. pose proof (sqrt_pos N) as P2. rewrite (Rabs_pos_eq (sqrt (fval v))) in R by exact P1.
  split; [split; [exact Fr|]|split].
  - change (@B2R 24 128) with fval. apply Rabs_le_inv in Q. apply Rabs_le_inv in R. set (s := sqrt (fval v)) in *. set (n := sqrt N) in *. clearbody s n. apply Rabs_le. num.
  - rewrite Vr. apply rnd_nonneg, P1.
  - intros Z. rewrite Vr, (Zv Z), sqrt_0. apply rnd32_0.
Qed.

Lemma plain_compared (d : distance_fun f32) : plain_distance d -> (compared_in d = LAB \/ compared_in d = RGB_DEEP \/ compared_in d = CIELUV) /\
  forall c1 c2, @on_components f32 (F32 o) d c1 c2 = (let! v := @squared_f f32 (F32 o) c1 c2 in Ok (@fsqrt f32 (F32 o) v)).
Proof. intros [-> |[s ->]]; split; auto. Qed.
End Accurate.
End Metric.

Lemma metric_accuracy : forall o, accurate_square o -> positive_square o -> forall d X1 X2 (h : heap f32) p1 c1 p2 c2, plain_distance d -> p1 <> p2 ->
  at_addr h p1 c1 -> at_addr h p2 c2 -> @wf_color f32 (F32 o) X1 c1 -> @wf_color f32 (F32 o) X2 c2 ->
  (needs_space X1 (compared_in d) = true -> has_space h c1) -> (needs_space X2 (compared_in d) = true -> has_space h c2) ->
  exists h' d1 d2 x, @converted_pair f32 (F32 o) (compared_in d) h p1 p2 h' d1 d2 /\ @distance f32 (F32 o) d (Some p1) (Some p2) h = (Ok x, h') /\
    measures (euclid (numbers d1) (numbers d2)) x /\ 0 <= B2R x /\ (numbers d1 = numbers d2 -> B2R x = 0) /\ (X1 = compared_in d -> d1 = c1) /\ (X2 = compared_in d -> d2 = c2).
Proof.
  intros o AS PO d X1 X2 h p1 c1 p2 c2 Hd NP H1 H2 W1 W2 N1 N2.
  destruct (distance_run (AF := F32 o) d X1 X2 h p1 c1 p2 c2 NP H1 H2 W1 W2 N1 N2) as [h' [d1 [d2 [C [Wd1 [Wd2 [E [_ [_ [I1 [I2 _]]]]]]]]]]].
  destruct (plain_compared o d Hd) as [HX P]. destruct (root_near2 o AS PO _ d1 d2 HX Wd1 Wd2) as [v [Ev [M [Pv Z]]]].
  exists h', d1, d2, (@fsqrt f32 (F32 o) v). split; [exact C|]. split; [rewrite E, P, Ev; reflexivity|]. auto 10.
Qed.

Lemma metric_squared : forall o, accurate_square o -> positive_square o -> forall s X1 X2 (h : heap f32) p1 c1 p2 c2, p1 <> p2 ->
  at_addr h p1 c1 -> at_addr h p2 c2 -> @wf_color f32 (F32 o) X1 c1 -> @wf_color f32 (F32 o) X2 c2 ->
  (needs_space X1 (@compared_in f32 (Squared s)) = true -> has_space h c1) -> (needs_space X2 (@compared_in f32 (Squared s)) = true -> has_space h c2) ->
  exists h' d1 d2 x, @converted_pair f32 (F32 o) (@compared_in f32 (Squared s)) h p1 p2 h' d1 d2 /\ @distance f32 (F32 o) (Squared s) (Some p1) (Some p2) h = (Ok x, h') /\
    measures2 (squared_distance (numbers d1) (numbers d2)) x /\ 0 <= B2R x /\ (numbers d1 = numbers d2 -> B2R x = 0).
Proof.
  intros o AS PO s X1 X2 h p1 c1 p2 c2 NP H1 H2 W1 W2 N1 N2.
  destruct (distance_run (AF := F32 o) (Squared s) X1 X2 h p1 c1 p2 c2 NP H1 H2 W1 W2 N1 N2) as [h' [d1 [d2 [C [Wd1 [Wd2 [E _]]]]]]].
  assert (HX : let X := @compared_in f32 (Squared s) in X = LAB \/ X = RGB_DEEP \/ X = CIELUV) by (destruct s; cbn; auto).
  destruct (squared_near o AS PO _ d1 d2 HX Wd1 Wd2) as [v [Ev [Fv [Pv [PN [Nv Z]]]]]].
  exists h', d1, d2, v. split; [exact C|]. split; [rewrite E; cbn [on_components]; rewrite Ev; reflexivity|]. split; [|auto]. split; [exact Fv|]. eapply Rle_trans; [exact Nv|]. num.
Qed.

(** ** Symmetry to the last bit *)
Lemma opposite2 o (x y : f32) : even_square o -> fin x -> fin y -> Rabs (fval x) <= 128 -> Rabs (fval y) <= 128 ->
  o_pow o (Bminus mode_NE x y) (@fz f32 (F32 o) 2) = o_pow o (Bminus mode_NE y x) (@fz f32 (F32 o) 2).
Proof.
  intros E Fx Fy Bx By. apply Rabs_le_inv in Bx. apply Rabs_le_inv in By.
  destruct (Bminus_ok x y (-256) 256 Fx Fy) as [Fa Va]; try sm; [lra|]. destruct (Bminus_ok y x (-256) 256 Fy Fx) as [Fb Vb]; try sm; [lra|].
  assert (V : fval (Bminus mode_NE y x) = - fval (Bminus mode_NE x y)).
  { rewrite Va, Vb. replace (fval y - fval x) with (- (fval x - fval y)) by ring. unfold rnd32. apply round_NE_opp. }
  revert Fa Fb V. generalize (Bminus mode_NE x y) (Bminus mode_NE y x). intros a b Fa Fb V.
  assert (K : forall f : f32, fin f -> fval f = 0 -> f = B754_zero false \/ f = B754_zero true).
  { intros f Ff Vf. destruct f as [s|s| |s k e B]; try discriminate Ff; [destruct s; auto|]. exfalso. apply (F2R_neq_0 radix2 (Float radix2 (cond_Zopp s (Zpos k)) e)); [destruct s; discriminate|exact Vf]. }
  destruct (Req_dec (fval a) 0) as [Z|NZ].
  - pose proof (E (B754_zero false) eq_refl) as E0. cbn [Bopp negb] in E0. destruct (K a Fa Z) as [-> | ->]; destruct (K b Fb ltac:(lra)) as [-> | ->]; congruence.
  - assert (S : forall y : f32, fin y -> fval y <> 0 -> is_finite_strict y = true) by (intros [s|s| |s m e B] Fz N; try reflexivity; try discriminate Fz; exfalso; apply N; reflexivity).
    rewrite <- (E a Fa). f_equal. symmetry. apply B2R_inj; [apply S; [exact Fb|lra]|rewrite is_finite_strict_Bopp; apply S; assumption|]. rewrite B2R_Bopp. exact V.
Qed.
Lemma squared_swap2 o X (c1 c2 : color f32) : even_square o -> X = LAB \/ X = RGB_DEEP \/ X = CIELUV -> @wf_color f32 (F32 o) X c1 -> @wf_color f32 (F32 o) X c2 ->
  @squared_f f32 (F32 o) c1 c2 = @squared_f f32 (F32 o) c2 c1.
Proof.
  intros E HX W1 W2. destruct (Conv_Proofs.comps3 (AF := F32 o) _ _ W1 (arity3 X HX)) as [x1 [y1 [z1 C1]]]. destruct (Conv_Proofs.comps3 (AF := F32 o) _ _ W2 (arity3 X HX)) as [x2 [y2 [z2 C2]]].
  destruct (bound3 o X c1 0%nat x1 HX W1) as [Fx1 Bx1]; [rewrite C1; reflexivity|]. destruct (bound3 o X c1 1%nat y1 HX W1) as [Fy1 By1]; [rewrite C1; reflexivity|]. destruct (bound3 o X c1 2%nat z1 HX W1) as [Fz1 Bz1]; [rewrite C1; reflexivity|].
  destruct (bound3 o X c2 0%nat x2 HX W2) as [Fx2 Bx2]; [rewrite C2; reflexivity|]. destruct (bound3 o X c2 1%nat y2 HX W2) as [Fy2 By2]; [rewrite C2; reflexivity|]. destruct (bound3 o X c2 2%nat z2 HX W2) as [Fz2 Bz2]; [rewrite C2; reflexivity|].
  unfold squared_f. rewrite C1, C2. cbn [sum_squares]. cbn [fpow fsub F32].
  rewrite (opposite2 o x1 x2 E Fx1 Fx2 Bx1 Bx2), (opposite2 o y1 y2 E Fy1 Fy2 By1 By2), (opposite2 o z1 z2 E Fz1 Fz2 Bz1 Bz2). reflexivity.
Qed.
Lemma metric_symmetric : forall o, even_square o -> forall d (h : heap f32) p1 c1 p2 c2, plain_distance d \/ (exists s, d = Squared s) ->
  at_addr h p1 c1 -> at_addr h p2 c2 -> @wf_color f32 (F32 o) (compared_in d) c1 -> @wf_color f32 (F32 o) (compared_in d) c2 ->
  (cie (compared_in d) = true -> has_space h c1 /\ has_space h c2) ->
  @distance f32 (F32 o) d (Some p1) (Some p2) h = @distance f32 (F32 o) d (Some p2) (Some p1) h.
Proof.
  intros o E d h p1 c1 p2 c2 Hd H1 H2 W1 W2 S. destruct (Nat.eq_dec p1 p2) as [-> |NP]; [reflexivity|].
  assert (NS : needs_space (compared_in d) (compared_in d) = true -> has_space h c1 /\ has_space h c2) by (unfold needs_space; rewrite orb_diag; exact S).
  destruct (distance_run (AF := F32 o) d _ _ h p1 c1 p2 c2 NP H1 H2 W1 W2 (fun n => proj1 (NS n)) (fun n => proj2 (NS n))) as [h' [d1 [d2 [_ [_ [_ [E1 [_ [_ [I1 [I2 [I3 _]]]]]]]]]]]].
  destruct (distance_run (AF := F32 o) d _ _ h p2 c2 p1 c1 (not_eq_sym NP) H2 H1 W2 W1 (fun n => proj2 (NS n)) (fun n => proj1 (NS n))) as [h2 [e2 [e1 [_ [_ [_ [E2 [_ [_ [J1 [J2 [J3 _]]]]]]]]]]]].
  rewrite E1, E2. rewrite (I1 eq_refl), (I2 eq_refl), (J1 eq_refl), (J2 eq_refl), (I3 eq_refl eq_refl), (J3 eq_refl eq_refl).
  assert (HX : compared_in d = LAB \/ compared_in d = RGB_DEEP \/ compared_in d = CIELUV).
  { destruct Hd as [[-> |[s ->]]|[s ->]]; [|destruct s|destruct s]; cbn; auto. }
  pose proof (squared_swap2 o _ c1 c2 E HX W1 W2) as Q.
  destruct Hd as [Hd|[s ->]]; [destruct (plain_compared o d Hd) as [_ P]; rewrite !P, Q; reflexivity|]. cbn [on_components]. rewrite Q. reflexivity.
Qed.

(** ** The triangle inequality, up to rounding *)
Lemma metric_triangle : forall o, accurate_square o -> positive_square o -> forall d (h : heap f32) p1 c1 p2 c2 p3 c3, plain_distance d -> p1 <> p2 -> p2 <> p3 -> p1 <> p3 ->
  at_addr h p1 c1 -> at_addr h p2 c2 -> at_addr h p3 c3 -> @wf_color f32 (F32 o) (compared_in d) c1 -> @wf_color f32 (F32 o) (compared_in d) c2 -> @wf_color f32 (F32 o) (compared_in d) c3 ->
  (cie (compared_in d) = true -> has_space h c1 /\ has_space h c2 /\ has_space h c3) ->
  exists x y z, @distance f32 (F32 o) d (Some p1) (Some p2) h = (Ok x, h) /\ @distance f32 (F32 o) d (Some p2) (Some p3) h = (Ok y, h) /\ @distance f32 (F32 o) d (Some p1) (Some p3) h = (Ok z, h) /\
    is_finite x = true /\ is_finite y = true /\ is_finite z = true /\ B2R z <= (B2R x + B2R y) * (1 + / 262144) + / 67108864.
Proof.
  intros o AS PO d h p1 c1 p2 c2 p3 c3 Hd N12 N23 N13 H1 H2 H3 W1 W2 W3 S.
  assert (NS : needs_space (compared_in d) (compared_in d) = true -> has_space h c1 /\ has_space h c2 /\ has_space h c3) by (unfold needs_space; rewrite orb_diag; exact S).
  destruct (plain_compared o d Hd) as [HX P].
  assert (K : forall p q a b, p <> q -> at_addr h p a -> at_addr h q b -> @wf_color f32 (F32 o) (compared_in d) a -> @wf_color f32 (F32 o) (compared_in d) b -> (needs_space (compared_in d) (compared_in d) = true -> has_space h a) -> (needs_space (compared_in d) (compared_in d) = true -> has_space h b) ->
    exists x, @distance f32 (F32 o) d (Some p) (Some q) h = (Ok x, h) /\ measures (euclid (numbers a) (numbers b)) x).
  { intros p q a b N Ha Hb Wa Wb Sa Sb. destruct (distance_run (AF := F32 o) d _ _ h p a q b N Ha Hb Wa Wb Sa Sb) as [h' [d1 [d2 [_ [_ [_ [E [_ [_ [I1 [I2 [I3 _]]]]]]]]]]]].
    rewrite (I1 eq_refl), (I2 eq_refl), (I3 eq_refl eq_refl), P in E. destruct (root_near2 o AS PO _ a b HX Wa Wb) as [v [Ev [M _]]]. rewrite Ev in E. eexists. split; [exact E|exact M]. }
  destruct (K p1 p2 c1 c2 N12 H1 H2 W1 W2 (fun n => proj1 (NS n)) (fun n => proj1 (proj2 (NS n)))) as [x [Ex [Fx Mx]]]. destruct (K p2 p3 c2 c3 N23 H2 H3 W2 W3 (fun n => proj1 (proj2 (NS n))) (fun n => proj2 (proj2 (NS n)))) as [y [Ey [Fy My]]]. destruct (K p1 p3 c1 c3 N13 H1 H3 W1 W3 (fun n => proj1 (NS n)) (fun n => proj2 (proj2 (NS n)))) as [z [Ez [Fz Mz]]].
  exists x, y, z. do 6 (split; [assumption|]).
  assert (T : euclid (numbers c1) (numbers c3) <= euclid (numbers c1) (numbers c2) + euclid (numbers c2) (numbers c3)).
  { assert (L : forall c, @wf_color f32 (F32 o) (compared_in d) c -> length (numbers c) = 3%nat) by (intros c W; unfold numbers; rewrite map_length, <- (arity3 _ HX); apply (wf_len _ _ W)). apply euclid_triangle; auto. }
  assert (P1 : 0 <= euclid (numbers c1) (numbers c2)) by apply sqrt_pos. assert (P2 : 0 <= euclid (numbers c2) (numbers c3)) by apply sqrt_pos.
  set (a := euclid (numbers c1) (numbers c2)) in *. set (b := euclid (numbers c2) (numbers c3)) in *. set (c := euclid (numbers c1) (numbers c3)) in *. clearbody a b c.
  change (@B2R 24 128) with fval in *. apply Rabs_le_inv in Mx. apply Rabs_le_inv in My. apply Rabs_le_inv in Mz. lra.
Qed.

(** ** Nearer colours have smaller distances *)
Lemma metric_order : forall o, accurate_square o -> positive_square o -> forall d (h : heap f32) p1 c1 p2 c2 p3 c3, plain_distance d -> p1 <> p2 -> p1 <> p3 ->
  at_addr h p1 c1 -> at_addr h p2 c2 -> at_addr h p3 c3 -> @wf_color f32 (F32 o) (compared_in d) c1 -> @wf_color f32 (F32 o) (compared_in d) c2 -> @wf_color f32 (F32 o) (compared_in d) c3 ->
  (cie (compared_in d) = true -> has_space h c1 /\ has_space h c2 /\ has_space h c3) ->
  euclid (numbers c1) (numbers c2) * (1 + / 262144) + / 67108864 < euclid (numbers c1) (numbers c3) ->
  exists x y, @distance f32 (F32 o) d (Some p1) (Some p2) h = (Ok x, h) /\ @distance f32 (F32 o) d (Some p1) (Some p3) h = (Ok y, h) /\
    is_finite x = true /\ is_finite y = true /\ B2R x < B2R y.
Proof.
  intros o AS PO d h p1 c1 p2 c2 p3 c3 Hd N12 N13 H1 H2 H3 W1 W2 W3 S L.
  assert (NS : needs_space (compared_in d) (compared_in d) = true -> has_space h c1 /\ has_space h c2 /\ has_space h c3) by (unfold needs_space; rewrite orb_diag; exact S).
  destruct (plain_compared o d Hd) as [HX P].
  destruct (metric_accuracy o AS PO d _ _ h p1 c1 p2 c2 Hd N12 H1 H2 W1 W2 (fun n => proj1 (NS n)) (fun n => proj1 (proj2 (NS n)))) as [h1 [a1 [a2 [x [_ [Ex [[Fx Mx] [_ [_ [I1 I2]]]]]]]]]].
  destruct (metric_accuracy o AS PO d _ _ h p1 c1 p3 c3 Hd N13 H1 H3 W1 W3 (fun n => proj1 (NS n)) (fun n => proj2 (proj2 (NS n)))) as [h2 [b1 [b2 [y [_ [Ey [[Fy My] [_ [_ [J1 J2]]]]]]]]]].
  rewrite (I1 eq_refl), (I2 eq_refl) in Mx. rewrite (J1 eq_refl), (J2 eq_refl) in My.
  destruct (distance_run (AF := F32 o) d _ _ h p1 c1 p2 c2 N12 H1 H2 W1 W2 (fun n => proj1 (NS n)) (fun n => proj1 (proj2 (NS n)))) as [k1 [? [? [_ [_ [_ [E1 [_ [_ [_ [_ [K1 _]]]]]]]]]]]].
  destruct (distance_run (AF := F32 o) d _ _ h p1 c1 p3 c3 N13 H1 H3 W1 W3 (fun n => proj1 (NS n)) (fun n => proj2 (proj2 (NS n)))) as [k2 [? [? [_ [_ [_ [E2 [_ [_ [_ [_ [K2 _]]]]]]]]]]]].
  assert (Q1 : h1 = h) by (rewrite E1 in Ex; inversion Ex; subst; apply K1; reflexivity). assert (Q2 : h2 = h) by (rewrite E2 in Ey; inversion Ey; subst; apply K2; reflexivity).
  subst h1 h2. exists x, y. do 4 (split; [assumption|]).
  assert (P1 : 0 <= euclid (numbers c1) (numbers c2)) by apply sqrt_pos. assert (P2 : 0 <= euclid (numbers c1) (numbers c3)) by apply sqrt_pos.
  set (a := euclid (numbers c1) (numbers c2)) in *. set (c := euclid (numbers c1) (numbers c3)) in *. clearbody a c. change (@B2R 24 128) with fval in *. apply Rabs_le_inv in Mx. apply Rabs_le_inv in My. lra.
Qed.

(** Examples. *)
Lemma metric_oracle : exists o, accurate_square o /\ positive_square o /\ even_square o.
Proof.
  exists (Oracle (fun x _ => Bmult mode_NE x x) (fun x => x) (fun x => x) (fun x _ => x) (fun x => x) (fun x => x)).
  assert (K : forall x : f32, fin x -> Rabs (fval x) <= 1024 -> fin (Bmult mode_NE x x) /\ fval (Bmult mode_NE x x) = rnd32 (fval x * fval x)).
  { intros x Fx B. apply (Bmult_ok x x (- 2 ^ 20) (2 ^ 20) Fx Fx); try sm.
    apply Rabs_le_inv in B. pose proof (Rle_0_sqr (fval x)) as Q. unfold Rsqr in Q. change (IZR (- 2 ^ 20)) with (-1048576). change (IZR (2 ^ 20)) with 1048576. split; [lra|].
    rewrite <- (Rabs_pos_eq (fval x * fval x)) by exact Q. rewrite Rabs_mult. apply Rle_trans with (1024 * 1024); [|lra]. apply Rmult_le_compat; try apply Rabs_pos; apply Rabs_le; exact B. }
  split; [|split].
  - intros x Fx B; cbn [o_pow]; change (@B2R 24 128) with fval in * ; destruct (K x Fx B) as [Fm Vm]. split; [exact Fm|]. rewrite Vm. split; [intros ->; rewrite Rmult_0_l; apply rnd32_0|]. eapply Rle_trans; [apply rnd_err|].
    rewrite (Rabs_pos_eq (fval x * fval x)) by apply Rle_0_sqr. pose proof (Rle_0_sqr (fval x)) as Q. unfold Rsqr in Q.
    assert (u * (fval x * fval x) <= / 1048576 * (fval x * fval x)) by (apply Rmult_le_compat_r; [exact Q|num]). unfold tiny. lra.
  - intros x Fx B; cbn [o_pow]; change (@B2R 24 128) with fval in * ; destruct (K x Fx B) as [Fm Vm]. rewrite Vm. apply rnd_nonneg. apply Rle_0_sqr.
  - intros x Fx. cbn [o_pow]. destruct x as [a|a| |a m e B]; try discriminate Fx; [destruct a; reflexivity|]. apply B2SF_inj. cbn [Bopp]. unfold Bmult. rewrite !B2SF_SF2B. destruct a; reflexivity.
Qed.
Lemma metric_five : forall o, accurate_square o -> positive_square o ->
  exists (h : heap f32) c1 c2 x, at_addr h 0%nat c1 /\ at_addr h 1%nat c2 /\ @wf_color f32 (F32 o) LAB c1 /\ @wf_color f32 (F32 o) LAB c2 /\
    numbers c1 = [50; 0; 0] /\ numbers c2 = [50; 3; 4] /\ @distance f32 (F32 o) Cie76 (Some 0%nat) (Some 1%nat) h = (Ok x, h) /\ measures 5 x.
Proof.
  intros o AS PO. destruct (lab_pair32 o 50 0 0 50 3 4) as [h [c1 [c2 [H1 [H2 [W1 [W2 [S1 [S2 [_ [_ [C1 C2]]]]]]]]]]]]; try (repeat constructor; lia).
  assert (V : forall n, (-100 <= n <= 100)%Z -> fval (@fz f32 (F32 o) n) = IZR n) by (intros n Hn; apply fz_val; unfold small; change (2 ^ 24)%Z with 16777216%Z; lia).
  assert (N1 : numbers c1 = [50; 0; 0]) by (unfold numbers; rewrite C1; cbn [map]; rewrite !V by lia; reflexivity).
  assert (N2 : numbers c2 = [50; 3; 4]) by (unfold numbers; rewrite C2; cbn [map]; rewrite !V by lia; reflexivity).
  destruct (distance_run (AF := F32 o) Cie76 LAB LAB h 0%nat c1 1%nat c2 ltac:(discriminate) H1 H2 W1 W2 (fun _ => S1) (fun _ => S2)) as [h' [d1 [d2 [_ [_ [_ [E [_ [_ [I1 [I2 [I3 _]]]]]]]]]]]].
  rewrite (I1 eq_refl), (I2 eq_refl), (I3 eq_refl eq_refl) in E.
  destruct (plain_compared o Cie76 (or_introl eq_refl)) as [_ P]. rewrite P in E. destruct (root_near2 o AS PO LAB c1 c2 (or_introl eq_refl) W1 W2) as [v [Ev [M _]]]. rewrite Ev in E.
  exists h, c1, c2. eexists. do 6 (split; [assumption|]). split; [exact E|]. rewrite N1, N2 in M.
  assert (Q : euclid [50; 0; 0] [50; 3; 4] = 5). { unfold euclid, squared_distance. cbn [map2 fold_right]. replace ((50 - 50) * (50 - 50) + ((0 - 3) * (0 - 3) + ((0 - 4) * (0 - 4) + 0))) with (5 * 5) by ring. apply sqrt_square. lra. }
  rewrite Q in M. exact M.
Qed.
