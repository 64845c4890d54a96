(** * Averages of colours of the deep types in binary32 (C213) *)
From Coq Require Import ZArith QArith Reals Lra Lia List Bool.
From Flocq Require Import Core IEEE754.BinarySingleNaN.
From Verif Require Import Arith Outcome ColorModel GammaModel MatrixModel SpaceModel Heap Converter Calculation F32 F32Facts RArith
  Spec Spec32 Laws NormalForms Alpha8 Core_Proofs Core2_Proofs Core3_Proofs Core4_Proofs Hue32 Spec_Matrix Spec_Conv
  Conv_Proofs Conv2_Proofs Conv3_Proofs Run_Proofs Round_Proofs Round2_Proofs Error_Proofs Error2_Proofs Error7_Proofs Error8_Proofs Spec_Error
  Calc_Proofs Calc3_Proofs Calc4_Proofs Spec_Byte Mean_Proofs Spec_Calc Spec_Mean.
Import ListNotations.
Local Open Scope R_scope.
Local Notation fin x := (is_finite x = true).
Local Notation fval := (@B2R 24 128).

Section Mean.
Variable o : oracle.
Local Notation "$ n" := (@fz f32 (F32 o) n) (at level 0, n at level 0, format "$ n").
Local Notation "x +. y" := (@fadd f32 (F32 o) x y) (at level 50, left associativity).
Local Notation "x /. y" := (@fdiv f32 (F32 o) x y) (at level 40, left associativity).
Local Notation alpha := (@alpha f32 (F32 o)).
Local Notation fofZ := (@fofZ f32 (F32 o)).
Local Notation wf_color := (@wf_color f32 (F32 o)).

(** ** Sums *)
Definition rsum (f : color f32 -> f32) (cs : list (color f32)) : R := fold_right Rplus 0 (map (fun c => fval (f c)) cs).
Definition bounded (M : R) (f : color f32 -> f32) (c : color f32) : Prop := fin (f c) /\ Rabs (fval (f c)) <= M.
Definition off (k M : R) (x : f32) (S : R) : Prop := fin x /\ Rabs (fval x - S) <= (k * k + k) * M * u /\ Rabs S <= k * M.
Definition gather (f : color f32 -> f32) (cs : list (color f32)) (x y : f32) : Prop := forall M k S, 1 <= M <= 359 -> 0 <= k -> k + INR (length cs) <= 16384 ->
  Forall (bounded M f) cs -> off k M x S -> off (k + INR (length cs)) M y (S + rsum f cs) /\ (0 <= fval x -> Forall (fun c => 0 <= fval (f c)) cs -> 0 <= fval y).

Lemma off_add k M x v S : 1 <= M <= 359 -> 0 <= k -> k + 1 <= 16384 -> off k M x S -> fin v -> Rabs (fval v) <= M ->
  off (k + 1) M (x +. v) (S + fval v) /\ (0 <= fval x -> 0 <= fval v -> 0 <= fval (x +. v)).
Proof.
  intros HM Hk Hn [Fx [Dx Bs]] Fv Bv.
  assert (T : 0 <= k * M <= 16383 * 359) by (split; [apply Rmult_le_pos; lra|apply Rmult_le_compat; lra]).
  set (D := (k * k + k) * M * u) in *.
  assert (HD : 0 <= D <= k * M / 1024).
  { assert (A : 0 <= (k + 1) * u <= / 1024) by num. unfold D. replace ((k * k + k) * M * u) with (k * M * ((k + 1) * u)) by ring. split; [apply Rmult_le_pos; lra|].
    apply Rle_trans with (k * M * / 1024); [apply Rmult_le_compat_l; lra|right; field]. }
  assert (B : Rabs (fval x + fval v) <= k * M + D + M).
  { apply Rabs_le_inv in Dx, Bs, Bv. apply Rabs_le. lra. }
  destruct (Bplus_ok x v (-16777216) 16777216 Fx Fv) as [F V]; try sm; [apply Rabs_le_inv in B; lra|].
  pose proof (rnd_err (fval x + fval v)) as E. rewrite <- V in E. change (Bplus mode_NE x v) with (x +. v) in *.
  assert (E' : Rabs (fval (x +. v) - (fval x + fval v)) <= 2 * u * (k * M) + 2 * u * M).
  { eapply Rle_trans; [exact E|]. apply Rle_trans with (u * (k * M + D + M) + tiny); [apply Rplus_le_compat_r, Rmult_le_compat_l; [num|exact B]|]. num. }
  split.
  - split; [exact F|]. split.
    + replace (((k + 1) * (k + 1) + (k + 1)) * M * u) with (D + (2 * u * (k * M) + 2 * u * M)) by (unfold D; ring).
      apply Rabs_le_inv in Dx, E'. apply Rabs_le. lra.
    + apply Rabs_le_inv in Bs, Bv. apply Rabs_le. lra.
  - intros P Q. rewrite V. apply rnd_pos0. lra.
Qed.
Lemma gather_nil f x : gather f [] x x.
Proof. intros M k S HM Hk Hn B O. cbn. rewrite !Rplus_0_r. auto. Qed.
Lemma gather_cons f c cs x y : gather f cs (x +. f c) y -> gather f (c :: cs) x y.
Proof.
  intros G M k S HM Hk Hn B O. inversion B as [|? ? [Fc Bc] B']; subst. pose proof (pos_INR (length cs)) as L. change (length (c :: cs)) with (Datatypes.S (length cs)) in *. rewrite S_INR in *.
  destruct (off_add k M x (f c) S) as [O' P]; auto; try lra.
  destruct (G M (k + 1) (S + fval (f c))) as [O2 P2]; auto; try lra.
  split.
  - replace (k + (INR (length cs) + 1)) with (k + 1 + INR (length cs)) by ring. unfold rsum in *. cbn [map fold_right]. rewrite <- Rplus_assoc. exact O2.
  - intros Px Q. inversion Q; subst. auto.
Qed.

(** ** The quotient *)
Lemma gathered f cs y M : gather f cs $0 y -> cs <> [] -> INR (length cs) <= 16384 -> 1 <= M <= 359 -> Forall (bounded M f) cs ->
  near (y /. fofZ (Z.of_nat (length cs))) (rsum f cs / INR (length cs)) ((INR (length cs) + 3) * M * u) /\ Rabs (rsum f cs / INR (length cs)) <= M /\
  (Forall (fun c => 0 <= fval (f c)) cs -> 0 <= fval (y /. fofZ (Z.of_nat (length cs)))).
Proof.
  intros G Ne L HM B. destruct (fz_val o 0) as [F0 V0]; [sm|].
  destruct (G M 0 0) as [[Fy [Dy Bs]] P]; auto; try lra.
  { split; [exact F0|]. change (fval $0 = 0) in V0. rewrite V0. replace (0 - 0) with 0 by ring. rewrite Rabs_R0. split; [|lra]. replace ((0 * 0 + 0) * M * u) with 0 by ring. lra. }
  rewrite !Rplus_0_l in *. set (n := INR (length cs)) in *.
  assert (N1 : 1 <= n). { unfold n. destruct cs; [congruence|]. change (length (c :: cs)) with (Datatypes.S (length cs)). rewrite S_INR. pose proof (pos_INR (length cs)). lra. }
  destruct (size_val o (Z.of_nat (length cs))) as [Fs Vs]. { split; [lia|]. apply le_IZR. rewrite <- INR_IZR_INZ. fold n. lra. }
  rewrite <- INR_IZR_INZ in Vs. fold n in Vs. change (fval (fofZ (Z.of_nat (length cs))) = n) in Vs. set (z := fofZ (Z.of_nat (length cs))) in *.
  assert (BM : Rabs (rsum f cs / n) <= M).
  { unfold Rdiv. rewrite Rabs_mult, (Rabs_pos_eq (/ n)) by (left; apply Rinv_0_lt_compat; lra). apply (Rmult_le_reg_r n); [lra|]. rewrite Rmult_assoc, Rinv_l by lra. lra. }
  assert (A : 0 <= (n + 1) * u <= / 512) by num.
  assert (DM : Rabs (fval y / n - rsum f cs / n) <= (n + 1) * u * M).
  { replace (fval y / n - rsum f cs / n) with ((fval y - rsum f cs) / n) by (field; lra). unfold Rdiv. rewrite Rabs_mult, (Rabs_pos_eq (/ n)) by (left; apply Rinv_0_lt_compat; lra).
    apply (Rmult_le_reg_r n); [lra|]. rewrite Rmult_assoc, Rinv_l by lra. replace ((n + 1) * u * M * n) with ((n * n + n) * M * u) by ring. lra. }
  assert (HE : 0 <= (n + 1) * u * M <= M / 512). { split; [apply Rmult_le_pos; lra|]. apply Rle_trans with (/ 512 * M); [apply Rmult_le_compat_r; lra|lra]. }
  destruct (Bdiv_ok y z (-1000) 1000 Fy Fs) as [F V]; try sm; [lra|rewrite Vs; apply Rabs_le_inv in BM, DM; lra|].
  rewrite Vs in V. change (Bdiv mode_NE y z) with (y /. z) in *. split; [|split; [exact BM|]].
  - split; [exact F|]. pose proof (rnd_err (fval y / n)) as E. rewrite <- V in E.
    assert (E' : Rabs (fval (y /. z) - fval y / n) <= 2 * u * M).
    { eapply Rle_trans; [exact E|]. apply Rle_trans with (u * (M + M / 512) + tiny); [apply Rplus_le_compat_r, Rmult_le_compat_l; [num|]|num].
      apply Rabs_le_inv in BM, DM. apply Rabs_le. lra. }
    replace ((n + 3) * M * u) with ((n + 1) * u * M + 2 * u * M) by ring. apply Rabs_le_inv in DM, E'. apply Rabs_le. lra.
  - intros Q. rewrite V. apply rnd_pos0. apply Rmult_le_pos; [|left; apply Rinv_0_lt_compat; lra]. apply P; [|exact Q]. change (fval $0 = 0) in V0. lra.
Qed.

(** ** The setters *)
Lemma near_clampZ x a e lo hi : small lo -> small hi -> (lo <= hi)%Z -> near x a e -> IZR lo <= a <= IZR hi -> 0 <= e -> near (@clamp f32 (F32 o) x $hi $lo) a e.
Proof.
  intros Sl Sh L [Fx Dx] B He. destruct (clamp_val o x lo hi Sl Sh L Fx) as [F V]. split; [exact F|].
  change (fval (@clamp f32 (F32 o) x $hi $lo) = Rmax (Rmin (fval x) (IZR hi)) (IZR lo)) in V. rewrite V. apply Rabs_le_inv in Dx. apply Rabs_le.
  unfold Rmax, Rmin. destruct (Rle_dec (fval x) (IZR hi)); destruct (Rle_dec _ (IZR lo)); lra.
Qed.
Lemma near_hue x a e : near x a e -> 0 <= fval x -> 0 <= a <= 359 -> 0 <= e < 1 -> near (@hue_norm f32 (F32 o) x) a e.
Proof.
  intros [Fx Dx] P B He. destruct (hue_norm32 o x Fx) as [k [m [E [Bm [[F V] X]]]]]. specialize (X P). rewrite X in V.
  assert (k = 0)%Z as ->. { apply Rabs_le_inv in Dx. assert (-1 < k < 1)%Z; [|lia]. split; apply lt_IZR; lra. }
  split; [exact F|]. change (fval (@hue_norm f32 (F32 o) x) = Rmin m 359) in V. rewrite V. apply Rabs_le_inv in Dx. apply Rabs_le. unfold Rmin. destruct (Rle_dec m 359); lra.
Qed.

Lemma part_bounded X i c : wf_color X c -> (i < arity X)%nat -> fin (part o i c) /\ IZR (fst (comp_range X i)) <= fval (part o i c) <= IZR (snd (comp_range X i)).
Proof.
  intros W L. pose proof (wf_len _ _ W) as N. assert (E : nth_error (comps c) i = Some (part o i c)) by (apply nth_error_nth'; lia).
  apply (wf_range _ _ W) in E. apply within32 in E; [exact E| |]; destruct X; destruct i as [|[|[|i]]]; cbn; sm.
Qed.
Lemma mag_pos X i : In X all_types -> 1 <= IZR (magnitude X i) <= 359.
Proof. intros H. unfold magnitude. split; apply IZR_le; destruct X; destruct i as [|[|[|i]]]; cbn in *; try lia; repeat (destruct H as [H|H]; try discriminate H); contradiction. Qed.
Lemma part_mag X i c : wf_color X c -> (i < arity X)%nat -> bounded (IZR (magnitude X i)) (part o i) c.
Proof.
  intros W L. destruct (part_bounded X i c W L) as [F B]. split; [exact F|]. unfold magnitude.
  assert (A : forall a b x, IZR a <= x <= IZR b -> Rabs x <= IZR (Z.max (Z.abs a) (Z.abs b))).
  { intros a b x H. apply Rabs_le. split.
    - apply Rle_trans with (IZR a); [|lra]. rewrite <- opp_IZR. apply IZR_le. lia.
    - apply Rle_trans with (IZR b); [lra|]. apply IZR_le. lia. }
  apply A, B.
Qed.
Lemma rsum_range f cs lo hi : cs <> [] -> Forall (fun c => lo <= fval (f c) <= hi) cs -> lo <= rsum f cs / INR (length cs) <= hi.
Proof.
  intros Ne H. assert (A : INR (length cs) * lo <= rsum f cs <= INR (length cs) * hi).
  { clear Ne. induction H as [|c cs Hc _ IH]; [cbn; lra|]. change (length (c :: cs)) with (Datatypes.S (length cs)). rewrite S_INR. unfold rsum in *. cbn [map fold_right]. lra. }
  assert (N : 0 < INR (length cs)) by (apply lt_0_INR; destruct cs; [congruence|cbn; lia]).
  split; apply (Rmult_le_reg_r (INR (length cs))); auto; unfold Rdiv; rewrite Rmult_assoc, Rinv_l, Rmult_1_r by lra; lra.
Qed.
Lemma mean_rsum f cs : mean (map B2R (map f cs)) = rsum f cs / INR (length cs).
Proof. unfold mean, rsum. rewrite map_map, !map_length. reflexivity. Qed.
Lemma err_u n m : (INR n + 3) * IZR m * u = mean_error n m.
Proof. unfold mean_error, u. field. Qed.

(** What the loop gives for one component *)
Lemma part_done X i cs y : In X all_types -> (i < arity X)%nat -> cs <> [] -> (Z.of_nat (length cs) <= 16384)%Z -> Forall (wf_color X) cs -> gather (part o i) cs $0 y ->
  near (y /. fofZ (Z.of_nat (length cs))) (mean (map B2R (@components f32 (F32 o) i cs))) (mean_error (length cs) (magnitude X i)) /\
  IZR (fst (comp_range X i)) <= mean (map B2R (@components f32 (F32 o) i cs)) <= IZR (snd (comp_range X i)) /\
  ((0 <= fst (comp_range X i))%Z -> 0 <= fval (y /. fofZ (Z.of_nat (length cs)))).
Proof.
  intros HX L Ne N W G. unfold components. change (map (fun c => nth i (comps c) $0) cs) with (map (part o i) cs). rewrite mean_rsum, <- err_u.
  apply IZR_le in N. rewrite <- INR_IZR_INZ in N.
  destruct (gathered (part o i) cs y (IZR (magnitude X i)) G Ne) as [A [B C]]; [exact N|apply mag_pos, HX| |].
  { eapply Forall_impl; [|exact W]. intros c Wc. apply part_mag; assumption. }
  split; [exact A|]. split.
  - apply rsum_range; [exact Ne|]. eapply Forall_impl; [|exact W]. intros c Wc. apply (part_bounded X i c Wc L).
  - intros P. apply C. eapply Forall_impl; [|exact W]. intros c Wc. destruct (part_bounded X i c Wc L) as [_ [Q _]]. apply IZR_le in P. lra.
Qed.
Lemma alpha_done cs y : cs <> [] -> (Z.of_nat (length cs) <= 16384)%Z -> Forall (@alpha_ok f32 (F32 o)) cs -> gather m_alpha cs $0 y ->
  approx (mean (map B2R (map m_alpha cs))) (mean_error (length cs) 1) (y /. fofZ (Z.of_nat (length cs))).
Proof.
  intros Ne N W G. rewrite mean_rsum, <- err_u. apply IZR_le in N. rewrite <- INR_IZR_INZ in N.
  destruct (gathered m_alpha cs y 1 G Ne) as [A _]; [exact N|lra| |].
  { eapply Forall_impl; [|exact W]. intros c Wc. apply within32 in Wc; try sm. destruct Wc as [F B]. split; [exact F|]. apply Rabs_le. lra. }
  exact A.
Qed.
Definition tailed (ia : bool) (a0 : f32) (cs : list (color f32)) (x y : f32) : Prop :=
  (ia = true -> gather m_alpha cs x y) /\ (ia = false -> (cs = [] -> y = x) /\ (cs <> [] -> y = a0)).
Lemma tailed_nil ia a0 x : tailed ia a0 [] x x.
Proof. split; [intros _; apply gather_nil|]. intros _. split; [reflexivity|congruence]. Qed.
Lemma tailed_cons ia a0 c cs x y : alpha c = m_alpha c -> tailed ia a0 cs (if ia then x +. alpha c else a0) y -> tailed ia a0 (c :: cs) x y.
Proof.
  intros Ea [A B]. split.
  - intros E. rewrite E in A. rewrite Ea in A. apply gather_cons, A, eq_refl.
  - intros E. specialize (B E). rewrite E in B. split; [discriminate|]. intros _. destruct B as [B1 B2]. destruct cs as [|d cs]; [auto|apply B2; discriminate].
Qed.
End Mean.
