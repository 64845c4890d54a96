(** * From linear RGB to XYZ and back with the matrices of the preset spaces (C153) *)
From Coq Require Import ZArith QArith Qreals Qabs Qminmax Reals Lra Lia List Bool.
From Flocq Require Import Core IEEE754.BinarySingleNaN.
From Verif Require Import Arith Outcome ColorModel GammaModel MatrixModel SpaceModel Heap Converter F32 F32Facts Spec Spec32 Laws NormalForms
  Core_Proofs Core2_Proofs Core3_Proofs Core4_Proofs Error_Proofs Error2_Proofs Run_Proofs Linear_Proofs.
Import ListNotations.
Local Open Scope R_scope.
Local Notation fin x := (is_finite x = true).

(** ** The rational number a float stands for *)
Definition f2Q (x : f32) : Q :=
  match x with
  | B754_finite s m e _ => let n := if s then Zneg m else Zpos m in
      if (e <? 0)%Z then n # Z.to_pos (2 ^ (- e)) else inject_Z (n * 2 ^ e)
  | _ => 0%Q
  end.
Lemma f2Q_val x : Q2R (f2Q x) = fval x.
Proof.
  destruct x as [s|s| |s m e H]; try apply Q2R_0'. unfold fval. cbn [f2Q B2R]. unfold F2R. cbn [Fnum Fexp].
  replace (SpecFloat.cond_Zopp s (Z.pos m)) with (if s then Z.neg m else Z.pos m) by (destruct s; reflexivity).
  set (n := if s then Z.neg m else Z.pos m). destruct (Z.ltb_spec e 0) as [L|L].
  - unfold Q2R. cbn [Qnum Qden]. assert (P : (0 < 2 ^ (- e))%Z) by (apply Z.pow_pos_nonneg; lia).
    rewrite Z2Pos.id by exact P. rewrite (IZR_Zpower radix2) by lia. f_equal. rewrite bpow_opp, Rinv_inv; reflexivity.
  - unfold Q2R, inject_Z. cbn [Qnum Qden]. rewrite mult_IZR. rewrite (IZR_Zpower radix2) by lia. field.
Qed.

(** ** Conditions, checked in rational numbers *)
Definition le_b (a b : Q) : bool := Qle_bool a b.
Section Check.
Variables (A0 A1 A2 : Q * Q * Q) (w : Q * Q * Q).
Definition row_ok (c : Q * Q * Q) : bool := let '(a, b, d) := c in
  le_b (dot_b opsQ c (unit0 opsQ) (unit1 opsQ) (unit2 opsQ) (0, 0, 0)%Q w) 1 && le_b (psum opsQ (vneg opsQ c) w) 1 && le_b (psum opsQ c w) 100 &&
  le_b (top opsQ (vscale opsQ a (unit0 opsQ)) w) 1000 && le_b (top opsQ (vscale opsQ b (unit1 opsQ)) w) 1000 && le_b (top opsQ (vscale opsQ d (unit2 opsQ)) w) 1000.
Definition trip_ok (B un : Q * Q * Q) (E : Q) : bool := let '(a, b, d) := B in
  row_ok A0 && row_ok A1 && row_ok A2 &&
  le_b (dot_b opsQ B A0 A1 A2 (row_b opsQ A0 w, row_b opsQ A1 w, row_b opsQ A2 w) w) 1 &&
  le_b (top opsQ (vscale opsQ a A0) w) 1000 && le_b (top opsQ (vscale opsQ b A1) w) 1000 && le_b (top opsQ (vscale opsQ d A2) w) 1000 &&
  le_b (trip_b opsQ A0 A1 A2 B un w) E.
End Check.
Lemma le_bR a b : le_b a b = true -> Q2R a <= Q2R b.
Proof. intros H. apply Qle_Rle, Qle_bool_iff, H. Qed.

Definition q3 (v : f32 * f32 * f32) : Q * Q * Q := let '(a, b, c) := v in (f2Q a, f2Q b, f2Q c).
Definition r3 (v : f32 * f32 * f32) : R * R * R := let '(a, b, c) := v in (fval a, fval b, fval c).
Lemma q3_r3 v : mapv (q3 v) = r3 v.
Proof. destruct v as [[a b] c]. unfold mapv, q3, r3. rewrite !f2Q_val. reflexivity. Qed.
Definition fin3 (v : f32 * f32 * f32) : Prop := let '(a, b, c) := v in fin a /\ fin b /\ fin c.

Section Float.
Context (o : oracle).
Local Notation "$ n" := (@fz f32 (F32 o) n) (at level 0).
Local Notation c100 := (@c100 f32 (F32 o)).

Definition dot3 (a x : f32 * f32 * f32) : f32 := let '(a0, a1, a2) := a in let '(x0, x1, x2) := x in dot o a0 a1 a2 x0 x1 x2.
Lemma near_c100 x v e n : near x v e -> - n <= v <= 100 -> 0 <= n -> 0 <= e -> near (c100 x) v (e + n).
Proof.
  intros [Fx Ex] B Hn He. destruct (clamp_val o x 0 100) as [F V]; try sm; auto; try lia. split; [exact F|].
  unfold NormalForms.c100. change (fval (@clamp f32 (F32 o) x $100 $0)) with (B2R (@clamp f32 (F32 o) x $100 $0)). rewrite V.
  apply Rabs_le_inv in Ex. apply Rabs_le. unfold Rmax, Rmin. destruct (Rle_dec (fval x) 100), (Rle_dec _ 0); lra.
Qed.
Lemma lin_units l : lin (unit0 opsR) l = fst (fst l) /\ lin (unit1 opsR) l = snd (fst l) /\ lin (unit2 opsR) l = snd l.
Proof. destruct l as [[a b] c]. cbn. repeat split; ring. Qed.

Lemma row_near a l w : fin3 a -> fin3 l -> row_ok w (q3 a) = true -> below (r3 l) (mapv w) ->
  near (c100 (dot3 a l)) (lin (r3 a) (r3 l)) (row_b opsR (r3 a) (mapv w)) /\ 0 <= row_b opsR (r3 a) (mapv w).
Proof.
  destruct a as [[a b] c], l as [[x y] z]. intros [Fa [Fb Fc]] [Fx [Fy Fz]] H Bl. unfold row_ok in H. cbn [q3] in H.
  rewrite !andb_true_iff in H. destruct H as [[[[[H1 H2] H3] H4] H5] H6]. apply le_bR in H1, H2, H3, H4, H5, H6.
  rewrite dot_Q in H1. rewrite psum_Q, vneg_Q in H2. rewrite psum_Q in H3. rewrite top_Q, vscale_Q in H4, H5, H6. rewrite f2Q_val in H4, H5, H6.
  change (f2Q a, f2Q b, f2Q c) with (q3 (a, b, c)) in * . rewrite q3_r3 in H1, H2, H3. cbn [r3] in H1, H2, H3.
  assert (Z0 : mapv (0, 0, 0)%Q = (0, 0, 0)) by (unfold mapv; rewrite Q2R_0'; reflexivity).
  assert (U0 : mapv (unit0 opsQ) = unit0 opsR) by (unfold mapv, unit0; cbn [opsQ o_0 o_1]; rewrite Q2R_0', Q2R_1'; reflexivity).
  assert (U1 : mapv (unit1 opsQ) = unit1 opsR) by (unfold mapv, unit1; cbn [opsQ o_0 o_1]; rewrite Q2R_0', Q2R_1'; reflexivity).
  assert (U2 : mapv (unit2 opsQ) = unit2 opsR) by (unfold mapv, unit2; cbn [opsQ o_0 o_1]; rewrite Q2R_0', Q2R_1'; reflexivity).
  rewrite Z0, U0, U1, U2 in * . replace (Q2R 1000) with 1000 in * by (unfold Q2R; cbn; lra). replace (Q2R 100) with 100 in * by (unfold Q2R; cbn; lra).
  rewrite Q2R_1' in * .
  destruct (lin_units (r3 (x, y, z))) as [L0 [L1 L2]]. cbn [r3 fst snd] in L0, L1, L2.
  assert (N : near (dot o a b c x y z) (lin (r3 (a, b, c)) (r3 (x, y, z))) (dot_b opsR (fval a, fval b, fval c) (unit0 opsR) (unit1 opsR) (unit2 opsR) (0, 0, 0) (mapv w))).
  { replace (lin (r3 (a, b, c)) (r3 (x, y, z))) with (fval a * lin (unit0 opsR) (r3 (x, y, z)) + fval b * lin (unit1 opsR) (r3 (x, y, z)) + fval c * lin (unit2 opsR) (r3 (x, y, z))).
    - apply dot_near; auto; try lra; cbn [r3]; rewrite ?L0, ?L1, ?L2; apply near_self; assumption.
    - cbn [r3]. rewrite L0, L1, L2. reflexivity. }
  pose proof (psum_top (r3 (a, b, c)) _ _ Bl) as P1. pose proof (psum_top (vneg opsR (r3 (a, b, c))) _ _ Bl) as P2. rewrite lin_neg in P2.
  assert (E0 : 0 <= dot_b opsR (fval a, fval b, fval c) (unit0 opsR) (unit1 opsR) (unit2 opsR) (0, 0, 0) (mapv w)).
  { destruct N as [_ N]. apply Rle_trans with (2 := N). apply Rabs_pos. }
  assert (P0 : 0 <= psum opsR (vneg opsR (r3 (a, b, c))) (mapv w)).
  { unfold psum, pos. cbn [r3 vneg opsR o_neg o_max o_0 o_mul o_add]. destruct w as [[p q] r]. cbn [mapv] in * . destruct Bl as [Q1 [Q2 Q3]].
    assert (T : forall s t, 0 <= t -> 0 <= Rmax s 0 * t) by (intros s t Ht; apply Rmult_le_pos; [apply Rmax_r|exact Ht]).
    pose proof (T (- fval a) (Q2R p) ltac:(lra)). pose proof (T (- fval b) (Q2R q) ltac:(lra)). pose proof (T (- fval c) (Q2R r) ltac:(lra)). lra. }
  cbn [r3] in * . unfold row_b. cbn [opsR o_add o_0]. split; [|lra].
  apply near_c100; auto. lra.
Qed.

Lemma trip_near A0 A1 A2 B un l w E : fin3 A0 -> fin3 A1 -> fin3 A2 -> fin3 B -> fin3 l ->
  trip_ok (q3 A0) (q3 A1) (q3 A2) w (q3 B) un E = true -> below (r3 l) (mapv w) ->
  near (dot3 B (c100 (dot3 A0 l), c100 (dot3 A1 l), c100 (dot3 A2 l))) (lin (mapv un) (r3 l)) (Q2R E).
Proof.
  intros F0 F1 F2 FB Fl H Bl. destruct B as [[b0 b1] b2]. destruct FB as [Fb0 [Fb1 Fb2]]. unfold trip_ok in H. cbn [q3] in H.
  rewrite !andb_true_iff in H. destruct H as [[[[[[[R0 R1] R2] H1] H2] H3] H4] H5]. apply le_bR in H1, H2, H3, H4, H5.
  destruct (row_near A0 l w F0 Fl R0 Bl) as [N0 P0]. destruct (row_near A1 l w F1 Fl R1 Bl) as [N1 P1]. destruct (row_near A2 l w F2 Fl R2 Bl) as [N2 P2].
  change (f2Q b0, f2Q b1, f2Q b2) with (q3 (b0, b1, b2)) in * .
  rewrite dot_Q in H1. rewrite top_Q, vscale_Q in H2, H3, H4. rewrite f2Q_val in H2, H3, H4. rewrite trip_Q in H5.
  cbn [mapv] in H1. rewrite !row_Q in H1. change (Q2R (f2Q b0), Q2R (f2Q b1), Q2R (f2Q b2)) with (mapv (q3 (b0, b1, b2))) in * .
  rewrite !q3_r3 in * . unfold trip_b in H5. cbn [r3] in H5. cbn [opsR o_add] in H5.
  replace (Q2R 1000) with 1000 in * by (unfold Q2R; cbn; lra). rewrite Q2R_1' in * .
  assert (K := dot_near o b0 b1 b2 _ _ _ (r3 A0) (r3 A1) (r3 A2) _ _ _ _ _ Fb0 Fb1 Fb2 Bl N0 N1 N2 P0 P1 P2 H1 H2 H3 H4).
  cbv zeta in K. cbn [dot3 r3 mapv q3] in * . rewrite ?q3_r3 in * .
  match type of H5 with ?d + top _ ?c _ <= _ => pose proof (top_sound c _ _ Bl) as T; set (TT := top opsR c _) in *; set (D := d) in * end.
  rewrite !lin_add, !lin_scale, lin_neg in T. destruct K as [FK EK]. split; [exact FK|].
  eapply Rle_trans; [|exact H5]. cbn [r3] in EK.
  eapply Rle_trans; [|apply Rplus_le_compat; [exact EK|exact T]].
  eapply Rle_trans; [|apply Rabs_triang]. right. f_equal. ring.
Qed.

Lemma near_c01x x v e : near x v e -> 0 <= v <= 1 -> near (@c01x f32 (F32 o) x) v e.
Proof.
  intros N B. pose proof (Rle_trans _ _ _ (Rabs_pos _) (proj2 N)) as He.
  assert (I : Rmax (Rmin v 1) 0 = v) by (rewrite Rmin_left, Rmax_left; lra).
  pose proof (near_c01 o x v e N He) as N1. rewrite I in N1. unfold c01x, clamp_float.
  pose proof (near_weaken _ _ _ e (near_fz o 0 ltac:(sm)) He) as Z0. pose proof (near_weaken _ _ _ e (near_fz o 1 ltac:(sm)) He) as Z1.
  pose proof (near_min o _ _ _ _ _ (near_max o _ _ _ _ _ N1 Z0) Z1) as N2. rewrite (Rmax_left v 0), (Rmin_left v 1) in N2 by lra.
  pose proof (near_c01 o _ v e N2 He) as N3. rewrite I in N3. exact N3.
Qed.

(** ** The matrices of a space *)
Definition rows3 (m : matrix f32) : option ((f32 * f32 * f32) * (f32 * f32 * f32) * (f32 * f32 * f32)) :=
  match m with
  | Mat 3 3 [[a; b; c]; [d; e; f]; [g; h; i]] => Some ((a, b, c), (d, e, f), (g, h, i))
  | _ => None
  end.
Definition finite3 (v : f32 * f32 * f32) : bool := let '(a, b, c) := v in is_finite a && is_finite b && is_finite c.
(** the errors of the three channels are at most [E], and at most [Z] for a channel that is 0 *)
Definition space_ok (E Z : Q) (s : space_def f32) : bool :=
  match rows3 (s_matrix s), rows3 (s_inverse s) with
  | Some (A0, A1, A2), Some (B0, B1, B2) =>
      finite3 A0 && finite3 A1 && finite3 A2 && finite3 B0 && finite3 B1 && finite3 B2 &&
      trip_ok (q3 A0) (q3 A1) (q3 A2) (1, 1, 1)%Q (q3 B0) (unit0 opsQ) E &&
      trip_ok (q3 A0) (q3 A1) (q3 A2) (1, 1, 1)%Q (q3 B1) (unit1 opsQ) E &&
      trip_ok (q3 A0) (q3 A1) (q3 A2) (1, 1, 1)%Q (q3 B2) (unit2 opsQ) E &&
      trip_ok (q3 A0) (q3 A1) (q3 A2) (0, 1, 1)%Q (q3 B0) (unit0 opsQ) Z &&
      trip_ok (q3 A0) (q3 A1) (q3 A2) (1, 0, 1)%Q (q3 B1) (unit1 opsQ) Z &&
      trip_ok (q3 A0) (q3 A1) (q3 A2) (1, 1, 0)%Q (q3 B2) (unit2 opsQ) Z
  | _, _ => false
  end.
Definition ok_space (E Z : Q) (s : outcome (space_def f32)) : bool := match s with Ok s => space_ok E Z s | _ => false end.

Lemma rows3_ok m A0 A1 A2 x y z : rows3 m = Some (A0, A1, A2) ->
  @mulvec f32 (F32 o) m [x; y; z] = Ok [dot3 A0 (x, y, z); dot3 A1 (x, y, z); dot3 A2 (x, y, z)].
Proof.
  destruct m as [r c v]. unfold rows3. destruct r as [|[|[|[|r]]]]; try discriminate. destruct c as [|[|[|[|c]]]]; try discriminate.
  destruct v as [|[|a [|b [|d [|? ?]]]] [|[|a' [|b' [|d' [|? ?]]]] [|[|a2 [|b2 [|d2 [|? ?]]]] [|? ?]]]]; try discriminate.
  intros H. injection H as <- <- <-. reflexivity.
Qed.
Lemma finite3_ok v : finite3 v = true -> fin3 v.
Proof. destruct v as [[a b] c]. unfold finite3. rewrite !andb_true_iff. intros [[A B] C]. repeat split; assumption. Qed.
Definition unitf (x : f32) : Prop := fin x /\ 0 <= fval x <= 1.
(** the error of a channel *)
Definition chan_err (E Z : R) (x : f32) (e : R) : Prop := e <= E /\ (fval x = 0 -> e <= Z).
Lemma space_trip E Z s x y z : space_ok E Z s = true -> unitf x -> unitf y -> unitf z ->
  exists X Y V x' y' z', @mulvec f32 (F32 o) (s_matrix s) [x; y; z] = Ok [X; Y; V] /\
    @mulvec f32 (F32 o) (s_inverse s) [c100 X; c100 Y; c100 V] = Ok [x'; y'; z'] /\
    (exists e, near (@c01x f32 (F32 o) x') (fval x) e /\ chan_err (Q2R E) (Q2R Z) x e) /\
    (exists e, near (@c01x f32 (F32 o) y') (fval y) e /\ chan_err (Q2R E) (Q2R Z) y e) /\
    (exists e, near (@c01x f32 (F32 o) z') (fval z) e /\ chan_err (Q2R E) (Q2R Z) z e).
Proof.
  unfold space_ok. destruct (rows3 (s_matrix s)) as [[[A0 A1] A2]|] eqn:EA; [|discriminate].
  destruct (rows3 (s_inverse s)) as [[[B0 B1] B2]|] eqn:EB; [|discriminate].
  rewrite !andb_true_iff. intros [[[[[[[[[[[F0 F1] F2] G0] G1] G2] H0] H1] H2] K0] K1] K2] [Fx Bx] [Fy By] [Fz Bz].
  apply finite3_ok in F0, F1, F2, G0, G1, G2.
  do 6 eexists. split; [apply (rows3_ok _ _ _ _ _ _ _ EA)|]. split; [apply (rows3_ok _ _ _ _ _ _ _ EB)|].
  set (l := (x, y, z)). assert (Fl : fin3 l) by (repeat split; assumption).
  assert (V1 : Q2R 1 = 1) by apply Q2R_1'. assert (V0 : Q2R 0 = 0) by apply Q2R_0'.
  assert (L1 : below (r3 l) (mapv (1, 1, 1)%Q)) by (cbn [below r3 l mapv]; rewrite V1; auto).
  assert (U0 : mapv (unit0 opsQ) = unit0 opsR) by (unfold mapv, unit0; cbn [opsQ o_0 o_1]; rewrite V0, V1; reflexivity).
  assert (U1 : mapv (unit1 opsQ) = unit1 opsR) by (unfold mapv, unit1; cbn [opsQ o_0 o_1]; rewrite V0, V1; reflexivity).
  assert (U2 : mapv (unit2 opsQ) = unit2 opsR) by (unfold mapv, unit2; cbn [opsQ o_0 o_1]; rewrite V0, V1; reflexivity).
  destruct (lin_units (r3 l)) as [I0 [I1 I2]]. cbn [r3 l fst snd] in I0, I1, I2.
  assert (MN : forall t v e1 e2, near t v e1 -> near t v e2 -> near t v (Rmin e1 e2)).
  { intros t v e1 e2 [A N1] [_ N2]. split; [exact A|]. apply Rmin_glb; assumption. }
  split; [|split].
  - pose proof (trip_near _ _ _ _ _ l _ _ F0 F1 F2 G0 Fl H0 L1) as N. rewrite U0 in N. cbn [r3 l] in N. rewrite I0 in N.
    destruct (Req_dec (fval x) 0) as [E0|E0].
    + assert (L0 : below (r3 l) (mapv (0, 1, 1)%Q)) by (cbn [below r3 l mapv]; rewrite V1, V0; repeat split; lra).
      pose proof (trip_near _ _ _ _ _ l _ _ F0 F1 F2 G0 Fl K0 L0) as N'. rewrite U0 in N'. cbn [r3 l] in N'. rewrite I0 in N'.
      exists (Rmin (Q2R E) (Q2R Z)). split; [apply near_c01x; auto|]. split; [apply Rmin_l|intros _; apply Rmin_r].
    + exists (Q2R E). split; [apply near_c01x; auto|]. split; [lra|intros; contradiction].
  - pose proof (trip_near _ _ _ _ _ l _ _ F0 F1 F2 G1 Fl H1 L1) as N. rewrite U1 in N. cbn [r3 l] in N. rewrite I1 in N.
    destruct (Req_dec (fval y) 0) as [E0|E0].
    + assert (L0 : below (r3 l) (mapv (1, 0, 1)%Q)) by (cbn [below r3 l mapv]; rewrite V1, V0; repeat split; lra).
      pose proof (trip_near _ _ _ _ _ l _ _ F0 F1 F2 G1 Fl K1 L0) as N'. rewrite U1 in N'. cbn [r3 l] in N'. rewrite I1 in N'.
      exists (Rmin (Q2R E) (Q2R Z)). split; [apply near_c01x; auto|]. split; [apply Rmin_l|intros _; apply Rmin_r].
    + exists (Q2R E). split; [apply near_c01x; auto|]. split; [lra|intros; contradiction].
  - pose proof (trip_near _ _ _ _ _ l _ _ F0 F1 F2 G2 Fl H2 L1) as N. rewrite U2 in N. cbn [r3 l] in N. rewrite I2 in N.
    destruct (Req_dec (fval z) 0) as [E0|E0].
    + assert (L0 : below (r3 l) (mapv (1, 1, 0)%Q)) by (cbn [below r3 l mapv]; rewrite V1, V0; repeat split; lra).
      pose proof (trip_near _ _ _ _ _ l _ _ F0 F1 F2 G2 Fl K2 L0) as N'. rewrite U2 in N'. cbn [r3 l] in N'. rewrite I2 in N'.
      exists (Rmin (Q2R E) (Q2R Z)). split; [apply near_c01x; auto|]. split; [apply Rmin_l|intros _; apply Rmin_r].
    + exists (Q2R E). split; [apply near_c01x; auto|]. split; [lra|intros; contradiction].
Qed.

(** ** The presets *)
Definition e26 : Q := 26 # 16777216.
Definition z16 : Q := 16 # 16777216.
Lemma all_ok addr : forallb (ok_space e26 z16) (firstn 18 (@space_presets f32 (F32 o) addr)) && ok_space e26 z16 (@space_cieXYZ f32 (F32 o) addr) = true.
Proof. vm_compute. reflexivity. Qed.
End Float.
