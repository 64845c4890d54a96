(** * Rounding errors of the two matrix products between linear RGB and XYZ (C153) *)
From Coq Require Import ZArith QArith Qreals Qabs Qminmax Reals Lra Lia List Bool.
From Flocq Require Import Core IEEE754.BinarySingleNaN.
From Verif Require Import Arith Outcome ColorModel GammaModel MatrixModel SpaceModel F32 F32Facts Spec Spec32 Laws NormalForms
  Core_Proofs Core2_Proofs Core3_Proofs Core4_Proofs Error_Proofs Error2_Proofs Run_Proofs.
Import ListNotations.
Local Open Scope R_scope.
Local Notation fin x := (is_finite x = true).

(** ** A bound of the error, computed in the same way from rational and real numbers *)
Record ops (T : Type) := Ops { o_add : T -> T -> T; o_mul : T -> T -> T; o_neg : T -> T; o_max : T -> T -> T; o_0 : T; o_1 : T; o_u : T; o_t : T }.
Arguments o_add {T}. Arguments o_mul {T}. Arguments o_neg {T}. Arguments o_max {T}. Arguments o_0 {T}. Arguments o_1 {T}. Arguments o_u {T}. Arguments o_t {T}.
Section Bound.
Context {T : Type} (X : ops T).
Local Notation "x + y" := (o_add X x y). Local Notation "x * y" := (o_mul X x y).
Definition v3 := (T * T * T)%type.
Definition pos (a : T) := o_max X a (o_0 X).
Definition abs_ (a : T) := o_max X a (o_neg X a).
Definition psum (c w : v3) := let '(a, b, d) := c in let '(p, q, r) := w in pos a * p + pos b * q + pos d * r.
Definition vneg (c : v3) : v3 := let '(a, b, d) := c in (o_neg X a, o_neg X b, o_neg X d).
(** the largest absolute value of c . l for 0 <= l <= w *)
Definition top (c w : v3) := o_max X (psum c w) (psum (vneg c) w).
Definition vadd (c d : v3) : v3 := let '(a, b, e) := c in let '(p, q, r) := d in (a + p, b + q, e + r).
Definition vscale (k : T) (c : v3) : v3 := let '(a, b, e) := c in (k * a, k * b, k * e).
(** the error of a rounded operation with exact result below [m] from operands with error [e] *)
Definition rnd_b (m e : T) := e + o_u X * (m + e) + o_t X.
(** the error of a rounded row times column product: coefficients [c], the column being
    given by three linear forms of [l] with errors [e] *)
Definition dot_b (c : v3) (f0 f1 f2 : v3) (e w : v3) : T :=
  let '(c0, c1, c2) := c in let '(e0, e1, e2) := e in
  let p (k : T) (f : v3) (d : T) := rnd_b (top (vscale k f) w) (abs_ k * d) in
  let s2 := rnd_b (top (vadd (vscale c0 f0) (vscale c1 f1)) w) (p c0 f0 e0 + p c1 f1 e1) in
  rnd_b (top (vadd (vadd (vscale c0 f0) (vscale c1 f1)) (vscale c2 f2)) w) (s2 + p c2 f2 e2).
Definition unit0 : v3 := (o_1 X, o_0 X, o_0 X).
Definition unit1 : v3 := (o_0 X, o_1 X, o_0 X).
Definition unit2 : v3 := (o_0 X, o_0 X, o_1 X).
(** the error of one tristimulus value, cut at 0 *)
Definition row_b (c w : v3) : T := dot_b c unit0 unit1 unit2 (o_0 X, o_0 X, o_0 X) w + psum (vneg c) w.
(** the error of a linear channel [unit] after both products *)
Definition trip_b (A0 A1 A2 B unit w : v3) : T :=
  let '(b0, b1, b2) := B in
  dot_b B A0 A1 A2 (row_b A0 w, row_b A1 w, row_b A2 w) w +
  top (vadd (vadd (vadd (vscale b0 A0) (vscale b1 A1)) (vscale b2 A2)) (vneg unit)) w.
End Bound.
Definition opsR : ops R := Ops R Rplus Rmult Ropp Rmax 0 1 u tiny.
Definition qadd (a b : Q) : Q := Qred (a + b).
Definition qmul (a b : Q) : Q := Qred (a * b).
Lemma Q2R_add a b : Q2R (qadd a b) = Q2R a + Q2R b.
Proof. unfold qadd. rewrite (Qeq_eqR _ _ (Qred_correct _)). apply Q2R_plus. Qed.
Lemma Q2R_mul a b : Q2R (qmul a b) = Q2R a * Q2R b.
Proof. unfold qmul. rewrite (Qeq_eqR _ _ (Qred_correct _)). apply Q2R_mult. Qed.
Global Opaque qadd qmul.
Definition opsQ : ops Q := Ops Q qadd qmul Qopp Qmax 0%Q 1%Q (1 # 16777216) (1 # 1152921504606846976).

(** The rational computation is the real one. *)
Lemma Q2R_max a b : Q2R (Qmax a b) = Rmax (Q2R a) (Q2R b).
Proof.
  destruct (Qlt_le_dec a b) as [H|H].
  - apply Qlt_le_weak in H. rewrite (Qeq_eqR _ _ (Q.max_r _ _ H)). rewrite Rmax_right; [reflexivity|apply Qle_Rle, H].
  - rewrite (Qeq_eqR _ _ (Q.max_l _ _ H)). rewrite Rmax_left; [reflexivity|apply Qle_Rle, H].
Qed.
Definition mapv (v : v3 (T := Q)) : v3 (T := R) := let '(a, b, c) := v in (Q2R a, Q2R b, Q2R c).
Lemma Q2R_u : Q2R (1 # 16777216) = u. Proof. unfold Q2R, u. cbn. lra. Qed.
Lemma Q2R_tiny : Q2R (1 # 1152921504606846976) = tiny. Proof. unfold Q2R, tiny. cbn. lra. Qed.
Lemma Q2R_0' : Q2R 0 = 0. Proof. unfold Q2R. cbn. lra. Qed.
Lemma Q2R_1' : Q2R 1 = 1. Proof. unfold Q2R. cbn. lra. Qed.
Ltac q2r := repeat first [rewrite Q2R_add|rewrite Q2R_mul|rewrite Q2R_opp|rewrite Q2R_max|rewrite Q2R_u|rewrite Q2R_tiny|rewrite Q2R_0'|rewrite Q2R_1'].
Lemma psum_Q c w : Q2R (psum opsQ c w) = psum opsR (mapv c) (mapv w).
Proof. destruct c as [[a b] d], w as [[p q] r]. unfold psum, pos, mapv, opsQ, opsR. cbn [o_add o_mul o_max o_0]. q2r. reflexivity. Qed.
Lemma vneg_Q c : mapv (vneg opsQ c) = vneg opsR (mapv c).
Proof. destruct c as [[a b] d]. unfold vneg, mapv. cbn [opsQ opsR o_neg]. q2r. reflexivity. Qed.
Lemma vadd_Q c d : mapv (vadd opsQ c d) = vadd opsR (mapv c) (mapv d).
Proof. destruct c as [[a b] e], d as [[p q] r]. unfold vadd, mapv. cbn [opsQ opsR o_add]. q2r. reflexivity. Qed.
Lemma vscale_Q k c : mapv (vscale opsQ k c) = vscale opsR (Q2R k) (mapv c).
Proof. destruct c as [[a b] d]. unfold vscale, mapv. cbn [opsQ opsR o_mul]. q2r. reflexivity. Qed.
Lemma top_Q c w : Q2R (top opsQ c w) = top opsR (mapv c) (mapv w).
Proof. unfold top. change (o_max opsQ) with Qmax. rewrite Q2R_max, !psum_Q, vneg_Q. reflexivity. Qed.
Lemma rnd_Q m e : Q2R (rnd_b opsQ m e) = rnd_b opsR (Q2R m) (Q2R e).
Proof. unfold rnd_b. cbn [opsQ opsR o_add o_mul o_u o_t]. q2r. reflexivity. Qed.
Lemma abs_Q a : Q2R (abs_ opsQ a) = abs_ opsR (Q2R a).
Proof. unfold abs_. cbn [opsQ opsR o_max o_neg]. q2r. reflexivity. Qed.
Lemma dot_Q c f0 f1 f2 e w : Q2R (dot_b opsQ c f0 f1 f2 e w) = dot_b opsR (mapv c) (mapv f0) (mapv f1) (mapv f2) (mapv e) (mapv w).
Proof.
  destruct c as [[c0 c1] c2], e as [[e0 e1] e2]. unfold dot_b. cbn [mapv].
  change (o_add opsQ) with qadd. change (o_mul opsQ) with qmul. change (o_add opsR) with Rplus. change (o_mul opsR) with Rmult.
  repeat first [rewrite rnd_Q|rewrite Q2R_add|rewrite Q2R_mul|rewrite abs_Q|rewrite top_Q|rewrite vadd_Q|rewrite vscale_Q]. reflexivity.
Qed.
Lemma row_Q c w : Q2R (row_b opsQ c w) = row_b opsR (mapv c) (mapv w).
Proof.
  unfold row_b. change (o_add opsQ) with qadd. change (o_add opsR) with Rplus. rewrite Q2R_add, dot_Q, psum_Q, vneg_Q.
  unfold unit0, unit1, unit2. cbn [mapv opsQ o_0 o_1]. q2r. reflexivity.
Qed.
Lemma trip_Q A0 A1 A2 B un w : Q2R (trip_b opsQ A0 A1 A2 B un w) = trip_b opsR (mapv A0) (mapv A1) (mapv A2) (mapv B) (mapv un) (mapv w).
Proof.
  destruct B as [[b0 b1] b2]. unfold trip_b. cbn [mapv]. change (o_add opsQ) with qadd. change (o_add opsR) with Rplus.
  rewrite Q2R_add, dot_Q, top_Q. cbn [mapv]. rewrite !row_Q, !vadd_Q, !vscale_Q, vneg_Q. reflexivity.
Qed.

(** ** The bound is correct *)
Definition lin (c l : R * R * R) : R := let '(a, b, d) := c in let '(p, q, r) := l in a * p + b * q + d * r.
Definition below (l w : R * R * R) : Prop := let '(a, b, d) := l in let '(p, q, r) := w in 0 <= a <= p /\ 0 <= b <= q /\ 0 <= d <= r.
Lemma pos_mul a l w : 0 <= l <= w -> a * l <= Rmax a 0 * w.
Proof.
  intros H. apply Rle_trans with (Rmax a 0 * l); [apply Rmult_le_compat_r; [lra|apply Rmax_l]|apply Rmult_le_compat_l; [apply Rmax_r|lra]].
Qed.
Lemma psum_top c l w : below l w -> lin c l <= psum opsR c w.
Proof.
  destruct c as [[a b] d], l as [[p q] r], w as [[x y] z]. intros [H1 [H2 H3]]. unfold lin, psum, pos. cbn.
  pose proof (pos_mul a p x H1). pose proof (pos_mul b q y H2). pose proof (pos_mul d r z H3). lra.
Qed.
Lemma lin_neg c l : lin (vneg opsR c) l = - lin c l.
Proof. destruct c as [[a b] d], l as [[p q] r]. cbn. lra. Qed.
Lemma top_sound c l w : below l w -> Rabs (lin c l) <= top opsR c w.
Proof.
  intros H. unfold top. cbn [opsR o_max]. pose proof (psum_top c l w H) as A. pose proof (psum_top (vneg opsR c) l w H) as B. rewrite lin_neg in B.
  apply Rabs_le. pose proof (Rmax_l (psum opsR c w) (psum opsR (vneg opsR c) w)). pose proof (Rmax_r (psum opsR c w) (psum opsR (vneg opsR c) w)). lra.
Qed.
Lemma abs_R a : abs_ opsR a = Rabs a.
Proof. unfold abs_. cbn. unfold Rmax, Rabs. destruct (Rle_dec _ _), (Rcase_abs _); lra. Qed.
Lemma lin_add c d l : lin (vadd opsR c d) l = lin c l + lin d l.
Proof. destruct c as [[a b] e], d as [[p q] r], l as [[x y] z]. cbn. lra. Qed.
Lemma lin_scale k c l : lin (vscale opsR k c) l = k * lin c l.
Proof. destruct c as [[a b] e], l as [[x y] z]. cbn. ring. Qed.

Section Float.
Context (o : oracle).
Local Notation "x +. y" := (@fadd f32 (F32 o) x y) (at level 50, left associativity).
Local Notation "x *. y" := (@fmul f32 (F32 o) x y) (at level 40, left associativity).
Local Notation "$ n" := (@fz f32 (F32 o) n) (at level 0).

(** a factor that is exact *)
Lemma near_coef (a x : f32) r e : fin a -> near x r e -> 0 <= e -> forall m, Rabs (fval a * r) <= m -> m + Rabs (fval a) * e <= 100000 ->
  near (a *. x) (fval a * r) (rnd_b opsR m (Rabs (fval a) * e)).
Proof.
  intros Fa [Fx Ex] He m M L. unfold rnd_b. cbn [opsR o_add o_mul o_u o_t].
  assert (K : Rabs (fval a * fval x - fval a * r) <= Rabs (fval a) * e).
  { rewrite <- Rmult_minus_distr_l, Rabs_mult. apply Rmult_le_compat_l; [apply Rabs_pos|exact Ex]. }
  destruct (Bmult_ok a x (-100000) 100000 Fa Fx) as [F V]; try sm. { pose proof (abs_within _ _ _ _ K M) as W. apply Rabs_le_inv in W. lra. }
  split; [exact F|]. change (@fmul f32 (F32 o) a x) with (Bmult mode_NE a x). rewrite V. apply rnd_near; assumption.
Qed.
Lemma near_plus x y a b e m : forall e1 e2, near x a e1 -> near y b e2 -> Rabs (a + b) <= m -> e = e1 + e2 -> m + e <= 100000 -> near (x +. y) (a + b) (rnd_b opsR m e).
Proof. intros e1 e2 N1 N2 M -> L. apply near_add; auto. lra. Qed.
Lemma near_0plus x a e : near x a e -> near ($0 +. x) a e.
Proof.
  intros [Fx Ex]. destruct (fz_val o 0) as [F0 V0]; [sm|].
  assert (Fs : fin (Bplus mode_NE $0 x) /\ fval (Bplus mode_NE $0 x) = fval x).
  { pose proof (Bplus_correct 24 128 prec_gt_0_32 prec_lt_emax_32 mode_NE $0 x F0 Fx) as C.
    assert (Z0 : rnd32 (fval $0 + fval x) = fval x) by (rewrite V0, Rplus_0_l; apply rnd32_id).
    change (round radix2 (SpecFloat.fexp 24 128) (round_mode mode_NE) (B2R $0 + B2R x)) with (rnd32 (fval $0 + fval x)) in C.
    rewrite Z0 in C. rewrite Rlt_bool_true in C by (apply abs_B2R_lt_emax). destruct C as [C1 [C2 _]]. auto. }
  destruct Fs as [F V]. split; [exact F|]. change (Rabs (fval (Bplus mode_NE $0 x) - a) <= e). rewrite V. exact Ex.
Qed.

Definition dot (a b c x y z : f32) : f32 := $0 +. a *. x +. b *. y +. c *. z.
Lemma dot_near (a b c x y z : f32) f0 f1 f2 e0 e1 e2 l w : fin a -> fin b -> fin c -> below l w ->
  near x (lin f0 l) e0 -> near y (lin f1 l) e1 -> near z (lin f2 l) e2 -> 0 <= e0 -> 0 <= e1 -> 0 <= e2 ->
  let D := dot_b opsR (fval a, fval b, fval c) f0 f1 f2 (e0, e1, e2) w in
  D <= 1 -> top opsR (vscale opsR (fval a) f0) w <= 1000 -> top opsR (vscale opsR (fval b) f1) w <= 1000 -> top opsR (vscale opsR (fval c) f2) w <= 1000 ->
  near (dot a b c x y z) (fval a * lin f0 l + fval b * lin f1 l + fval c * lin f2 l) D.
Proof.
  intros Fa Fb Fc Bl Nx Ny Nz H0 H1 H2 D HD T0 T1 T2.
  assert (U : 0 < u) by (unfold u; lra). assert (Ti : 0 < tiny) by (unfold tiny; lra).
  assert (TP : forall c', 0 <= top opsR c' w) by (intros c'; apply Rle_trans with (Rabs (lin c' l)); [apply Rabs_pos|apply top_sound, Bl]).
  assert (G : forall m e, 0 <= m -> 0 <= e -> e <= rnd_b opsR m e /\ m * u <= rnd_b opsR m e).
  { intros m e Hm He. unfold rnd_b. cbn. assert (0 <= u * (m + e)) by (apply Rmult_le_pos; lra). assert (u * m <= u * (m + e)) by (apply Rmult_le_compat_l; lra). split; lra. }
  unfold dot_b in D.
  set (p0 := rnd_b opsR (top opsR (vscale opsR (fval a) f0) w) (o_mul opsR (abs_ opsR (fval a)) e0)) in * .
  set (p1 := rnd_b opsR (top opsR (vscale opsR (fval b) f1) w) (o_mul opsR (abs_ opsR (fval b)) e1)) in * .
  set (p2 := rnd_b opsR (top opsR (vscale opsR (fval c) f2) w) (o_mul opsR (abs_ opsR (fval c)) e2)) in * .
  set (m2 := top opsR (vadd opsR (vscale opsR (fval a) f0) (vscale opsR (fval b) f1)) w) in * .
  set (m3 := top opsR (vadd opsR (vadd opsR (vscale opsR (fval a) f0) (vscale opsR (fval b) f1)) (vscale opsR (fval c) f2)) w) in * .
  set (s2 := rnd_b opsR m2 (o_add opsR p0 p1)) in * .
  change (o_mul opsR) with Rmult in * . change (o_add opsR) with Rplus in * .
  assert (Q0 : 0 <= abs_ opsR (fval a) * e0) by (rewrite abs_R; apply Rmult_le_pos; [apply Rabs_pos|lra]).
  assert (Q1 : 0 <= abs_ opsR (fval b) * e1) by (rewrite abs_R; apply Rmult_le_pos; [apply Rabs_pos|lra]).
  assert (Q2 : 0 <= abs_ opsR (fval c) * e2) by (rewrite abs_R; apply Rmult_le_pos; [apply Rabs_pos|lra]).
  destruct (G _ _ (TP (vscale opsR (fval a) f0)) Q0) as [G0 _]. fold p0 in G0.
  destruct (G _ _ (TP (vscale opsR (fval b) f1)) Q1) as [G1 _]. fold p1 in G1.
  destruct (G _ _ (TP (vscale opsR (fval c) f2)) Q2) as [G2 _]. fold p2 in G2.
  assert (M2 : 0 <= m2) by apply TP. assert (M3 : 0 <= m3) by apply TP.
  destruct (G m2 (p0 + p1) M2 ltac:(lra)) as [G3 G3']. fold s2 in G3, G3'.
  destruct (G m3 (s2 + p2) M3 ltac:(lra)) as [G4 G4']. fold D in G4, G4'.
  assert (B2 : m2 <= 20000000) by (unfold u in *; lra). assert (B3 : m3 <= 20000000) by (unfold u in *; lra).
  assert (TS : forall k f, Rabs (k * lin f l) <= top opsR (vscale opsR k f) w) by (intros k f; rewrite <- lin_scale; apply top_sound, Bl).
  assert (N0 : near (a *. x) (fval a * lin f0 l) p0) by (unfold p0 in *; rewrite abs_R in *; apply near_coef; auto; lra).
  assert (N1 : near (b *. y) (fval b * lin f1 l) p1) by (unfold p1 in *; rewrite abs_R in *; apply near_coef; auto; lra).
  assert (N2 : near (c *. z) (fval c * lin f2 l) p2) by (unfold p2 in *; rewrite abs_R in *; apply near_coef; auto; lra).
  pose proof (TS (fval a) f0). pose proof (TS (fval b) f1). pose proof (TS (fval c) f2).
  assert (S2 : Rabs (fval a * lin f0 l + fval b * lin f1 l) <= m2) by (rewrite <- !lin_scale, <- lin_add; apply top_sound, Bl).
  assert (S3 : Rabs (fval a * lin f0 l + fval b * lin f1 l + fval c * lin f2 l) <= m3) by (rewrite <- !lin_scale, <- !lin_add; apply top_sound, Bl).
  assert (S2' : near ($0 +. a *. x +. b *. y) (fval a * lin f0 l + fval b * lin f1 l) s2).
  { destruct (near_0plus _ _ _ N0) as [F1 E1]. destruct N1 as [F2 E2].
    assert (K : Rabs (fval ($0 +. a *. x) + fval (b *. y) - (fval a * lin f0 l + fval b * lin f1 l)) <= p0 + p1).
    { replace (fval ($0 +. a *. x) + fval (b *. y) - (fval a * lin f0 l + fval b * lin f1 l)) with
        ((fval ($0 +. a *. x) - fval a * lin f0 l) + (fval (b *. y) - fval b * lin f1 l)) by ring. apply Rle_trans with (1 := Rabs_triang _ _). lra. }
    assert (S2b : Rabs (fval a * lin f0 l + fval b * lin f1 l) <= 2000) by (apply Rle_trans with (1 := Rabs_triang _ _); lra).
    destruct (Bplus_ok ($0 +. a *. x) (b *. y) (-100000) 100000 F1 F2) as [F V]; try sm. { pose proof (abs_within _ _ _ _ K S2b) as W. apply Rabs_le_inv in W. lra. }
    split; [exact F|]. change (@fadd f32 (F32 o) ($0 +. a *. x) (b *. y)) with (Bplus mode_NE ($0 +. a *. x) (b *. y)). rewrite V. apply rnd_near; assumption. }
  destruct S2' as [F1 E1]. destruct N2 as [F2 E2].
  assert (K : Rabs (fval ($0 +. a *. x +. b *. y) + fval (c *. z) - (fval a * lin f0 l + fval b * lin f1 l + fval c * lin f2 l)) <= s2 + p2).
  { replace (fval ($0 +. a *. x +. b *. y) + fval (c *. z) - (fval a * lin f0 l + fval b * lin f1 l + fval c * lin f2 l)) with
      ((fval ($0 +. a *. x +. b *. y) - (fval a * lin f0 l + fval b * lin f1 l)) + (fval (c *. z) - fval c * lin f2 l)) by ring.
    apply Rle_trans with (1 := Rabs_triang _ _). lra. }
  assert (S3b : Rabs (fval a * lin f0 l + fval b * lin f1 l + fval c * lin f2 l) <= 3000).
  { apply Rle_trans with (1 := Rabs_triang _ _). pose proof (Rabs_triang (fval a * lin f0 l) (fval b * lin f1 l)). lra. }
  destruct (Bplus_ok ($0 +. a *. x +. b *. y) (c *. z) (-100000) 100000 F1 F2) as [F V]; try sm. { pose proof (abs_within _ _ _ _ K S3b) as W. apply Rabs_le_inv in W. lra. }
  split; [exact F|]. unfold dot. change (@fadd f32 (F32 o) ?p ?q) with (Bplus mode_NE p q) at 1. rewrite V. apply rnd_near; assumption.
Qed.
End Float.
