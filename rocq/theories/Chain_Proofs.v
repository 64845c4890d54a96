(** * Adapting twice (C191) *)
From Coq Require Import ZArith QArith Qreals Reals Lra Lia List Bool.
From Flocq Require Import Core.
From Verif Require Import Arith Outcome ColorModel GammaModel MatrixModel SpaceModel Heap Converter Calculation Adapt
  Spec RArith Laws NormalForms Core_Proofs Convert_Proofs Alpha8
  Spec_Matrix Spec_Space Spec_Conv Spec_Calc Spec_Blend Spec_Adapt Spec_Algebra
  Conv_Proofs Conv2_Proofs Conv3_Proofs Gamma2_Proofs Space_Proofs Total_Proofs HueR_Proofs Round_Proofs Calc_Proofs Calc3_Proofs Blend_Proofs Distance_Proofs Adapt_Proofs Adapt2_Proofs.
Import ListNotations.
Local Open Scope R_scope.

Definition sized (t : R) (v : R * R * R) : Prop := let '(x, y, z) := v in Rabs x <= t /\ Rabs y <= t /\ Rabs z <= t.

Lemma matrix_size m v B : bounded3 B v -> sized (184 / 100 * B) (mat3 (method_matrix m) v).
Proof.
  destruct v as [[x y] z]. intros [Hx [Hy Hz]]. destruct m; lits; (split; [|split]); apply Rabs_le; lra.
Qed.
Lemma inverse_size m v t : sized t v -> sized (322 / 100 * t) (mat3 (method_inverse m) v).
Proof.
  destruct v as [[x y] z]. intros [Hx [Hy Hz]]. apply Rabs_le_inv in Hx. apply Rabs_le_inv in Hy. apply Rabs_le_inv in Hz.
  destruct m; lits; (split; [|split]); apply Rabs_le; lra.
Qed.
Lemma right_inverse_near m v t : sized t v -> near3 (16 / 1000000 * t) (mat3 (method_matrix m) (mat3 (method_inverse m) v)) v.
Proof.
  destruct v as [[x y] z]. intros [Hx [Hy Hz]]. apply Rabs_le_inv in Hx. apply Rabs_le_inv in Hy. apply Rabs_le_inv in Hz.
  destruct m; lits; unfold near3; (split; [|split]); apply Rabs_le; lra.
Qed.

Lemma sized_weaken a b v : sized a v -> a <= b -> sized b v.
Proof. destruct v as [[x y] z]. intros [? [? ?]] L. repeat split; lra. Qed.

Definition sub3 (u v : R * R * R) : R * R * R := let '(x, y, z) := u in let '(x', y', z') := v in (x - x', y - y', z - z').
Lemma near_sized e u v : near3 e u v <-> sized e (sub3 u v).
Proof. destruct u as [[x y] z], v as [[x' y'] z']. reflexivity. Qed.
Lemma mat3_sub l u v : sub3 (mat3 l u) (mat3 l v) = mat3 l (sub3 u v).
Proof.
  destruct u as [[x y] z], v as [[x' y'] z']. do 9 (destruct l as [|? l]; [cbn; f_equal; [f_equal|]; ring|]). destruct l; cbn; (f_equal; [f_equal|]; ring).
Qed.
Lemma mul3_sub d u v : sub3 (mul3 d u) (mul3 d v) = mul3 d (sub3 u v).
Proof. destruct d as [[a b] c], u as [[x y] z], v as [[x' y'] z']. cbn. f_equal; [f_equal|]; ring. Qed.
Lemma mul3_size k t d v : 0 <= t -> sized k d -> sized t v -> sized (k * t) (mul3 d v).
Proof.
  destruct d as [[a b] c], v as [[x y] z]. intros T [Ka [Kb Kc]] [Tx [Ty Tz]]. cbn. rewrite !Rabs_mult.
  repeat split; apply Rmult_le_compat; auto using Rabs_pos.
Qed.
Lemma mul3_assoc a b c : mul3 a (mul3 b c) = mul3 (mul3 a b) c.
Proof. destruct a as [[? ?] ?], b as [[? ?] ?], c as [[? ?] ?]. cbn. f_equal; [f_equal|]; ring. Qed.
Lemma quotients a b c : nonzero3 b -> mul3 (div3 c b) (div3 b a) = div3 c a.
Proof. destruct a as [[? ?] ?], b as [[? ?] ?], c as [[? ?] ?]. intros [? [? ?]]. cbn. unfold Rdiv. f_equal; [f_equal|]; rewrite (Rmult_assoc _ (/ _)), <- (Rmult_assoc (/ _)), Rinv_l, Rmult_1_l by assumption; reflexivity. Qed.

Lemma clamp_near e u v : near3 e u v -> near3 e (clamp100 u) (clamp100 v).
Proof.
  assert (K : forall s t, Rabs (s - t) <= e -> Rabs (Rmax 0 (Rmin 100 s) - Rmax 0 (Rmin 100 t)) <= e).
  { intros s t H. apply Rabs_le_inv in H. apply Rabs_le. unfold Rmax, Rmin. repeat destruct (Rle_dec _ _); lra. }
  destruct u as [[x y] z], v as [[x' y'] z']. intros [A [B C]]. unfold clamp100, near3. auto.
Qed.

Lemma chain_near m w0 w w1 v B k1 k2 : bounded3 B v -> nonzero3 (responses m w) -> gains m w0 w k1 -> gains m w w1 k2 ->
  near3 (100 / 1000000 * (k1 * k2 * B)) (adapted m w w1 (adapted m w0 w v)) (adapted m w0 w1 v).
Proof.
  intros Hv Nz G1 G2. unfold adapted. set (d1 := div3 (responses m w) (responses m w0)). set (d2 := div3 (responses m w1) (responses m w)).
  assert (B0 : 0 <= B) by (destruct v as [[x y] z]; destruct Hv as [[? ?] _]; lra).
  assert (S1 : sized k1 d1) by exact G1. assert (S2 : sized k2 d2) by exact G2.
  assert (K1 : 0 <= k1) by (destruct d1 as [[x y] z]; destruct S1 as [S1 _]; pose proof (Rabs_pos x); lra).
  assert (K2 : 0 <= k2) by (destruct d2 as [[x y] z]; destruct S2 as [S2 _]; pose proof (Rabs_pos x); lra).
  rewrite <- (quotients (responses m w0) (responses m w) (responses m w1) Nz). fold d1 d2.
  set (t := mul3 d1 (mat3 (method_matrix m) v)).
  assert (St : sized (k1 * (184 / 100 * B)) t) by (apply mul3_size; [lra|exact S1|apply matrix_size, Hv]).
  pose proof (right_inverse_near m t _ St) as N. apply near_sized in N.
  apply near_sized. rewrite <- mul3_assoc. fold t. rewrite mat3_sub, mul3_sub.
  assert (P : 0 <= k1 * (184 / 100 * B)) by (apply Rmult_le_pos; lra).
  pose proof (inverse_size m _ _ (mul3_size k2 (16 / 1000000 * (k1 * (184 / 100 * B))) d2 _ ltac:(lra) S2 N)) as Q.
  assert (L : 322 / 100 * (k2 * (16 / 1000000 * (k1 * (184 / 100 * B)))) <= 100 / 1000000 * (k1 * k2 * B)).
  { assert (0 <= k1 * k2 * B) by (apply Rmult_le_pos; [apply Rmult_le_pos|]; assumption). lra. }
  exact (sized_weaken _ _ _ Q L).
Qed.

(** One adaptation, with the white point of the result. *)
Lemma adapt_step m (h : heap R) p c s a w0 b w v : simplified m = true -> at_addr h p c -> wf_color XYZ c -> has_white h c s a w0 -> a <> b -> comps_are c v ->
  exists q r h' s', adaptation m (Some p) (Some (b, w)) h = (Ok (Some q), h') /\ at_addr h' q r /\ wf_color XYZ r /\ has_white h' r s' b w /\
    comps_are r (clamp100 (adapted m w0 w v)).
Proof.
  intros Sm Hp W HW N C.
  destruct (linear_formula m h p c s a w0 b w v Sm Hp W HW N C) as [q [r [h' [E [A Cr]]]]].
  assert (G : second_component m && grey XYZ = false) by apply andb_false_r.
  destruct (adapt_run m XYZ h p c s a w0 b w Hp W eq_refl HW N G) as [q' [r' [s' [h2 [E' [A' [Wr [Sr [_ [Rw [Sa _]]]]]]]]]]].
  assert (Q : q = q' /\ h' = h2) by (rewrite E in E'; injection E'; auto). destruct Q as [-> ->].
  assert (r = r') as -> by (unfold at_addr in A, A'; congruence).
  exists q', r', h2, s'. repeat (split; [assumption|]). split; [|exact Cr].
  exists (length (spaces h)). split; [exact Sr|]. destruct Sa as [Sp _]. rewrite Sp, nth_error_app2, PeanoNat.Nat.sub_diag by lia. split; [reflexivity|].
  split; [apply Rw|apply Rw].
Qed.

Lemma adapt_chain m (h : heap R) p c s a w0 b w d w1 v B k1 k2 : simplified m = true -> at_addr h p c -> wf_color XYZ c -> has_white h c s a w0 -> a <> b -> b <> d ->
  comps_are c v -> bounded3 B v -> nonzero3 (responses m w) -> gains m w0 w k1 -> gains m w w1 k2 -> bounded3 100 (adapted m w0 w v) ->
  returns (bind (adaptation m (Some p) (Some (b, w))) (fun q => adaptation m q (Some (d, w1)))) h (fun r =>
    comps_near (100 / 1000000 * (k1 * k2 * B)) r (clamp100 (adapted m w0 w1 v))).
Proof.
  intros Sm Hp W HW N1 N2 C Bv Nz G1 G2 U.
  destruct (adapt_step m h p c s a w0 b w v Sm Hp W HW N1 C) as [q [r [h' [s' [E [A [Wr [Hr Cr]]]]]]]]. rewrite clamp_id in Cr by exact U.
  destruct (adapt_step m h' q r s' b w d w1 _ Sm A Wr Hr N2 Cr) as [q' [r' [h2 [s2 [E' [A' [_ [_ Cr']]]]]]]].
  exists q', r', h2. split; [unfold bind; rewrite E; exact E'|]. split; [exact A'|].
  apply (comps_near_of _ r' _ _ Cr'). apply clamp_near. apply chain_near; assumption.
Qed.

Lemma unit_gain m w0 v : nonzero3 (responses m w0) -> adapted m w0 w0 v = mat3 (method_inverse m) (mat3 (method_matrix m) v).
Proof.
  intros Nz. unfold adapted. f_equal. destruct (responses m w0) as [[a b] c]. destruct Nz as [? [? ?]]. destruct (mat3 (method_matrix m) v) as [[x y] z]. cbn.
  f_equal; [f_equal|]; field; assumption.
Qed.

Lemma adapt_back m (h : heap R) p c s a w0 b w v B k1 k2 : simplified m = true -> at_addr h p c -> wf_color XYZ c -> has_white h c s a w0 -> a <> b ->
  comps_are c v -> bounded3 B v -> B <= 100 -> nonzero3 (responses m w0) -> nonzero3 (responses m w) -> gains m w0 w k1 -> gains m w w0 k2 -> bounded3 100 (adapted m w0 w v) ->
  returns (bind (adaptation m (Some p) (Some (b, w))) (fun q => adaptation m q (Some (a, w0)))) h (fun r =>
    comps_near ((15 + 100 * k1 * k2) / 1000000 * B) r v).
Proof.
  intros Sm Hp W HW N C Bv B100 Nz0 Nz G1 G2 U.
  destruct (adapt_chain m h p c s a w0 b w a w0 v B k1 k2 Sm Hp W HW N ltac:(congruence) C Bv Nz G1 G2 U) as [q [r [h' [E [A Cr]]]]].
  exists q, r, h'. split; [exact E|]. split; [exact A|].
  assert (V100 : bounded3 100 v) by (destruct v as [[x y] z]; destruct Bv as [? [? ?]]; repeat split; lra).
  pose proof (near_clamp _ _ _ V100 (inverse_near m v B Bv)) as I. rewrite unit_gain in Cr by exact Nz0.
  destruct (clamp100 (mat3 (method_inverse m) (mat3 (method_matrix m) v))) as [[x y] z]. destruct v as [[vx vy] vz].
  destruct Cr as [x' [y' [z' [Ec [D1 [D2 D3]]]]]]. destruct I as [I1 [I2 I3]]. unfold inv_err in *.
  exists x', y', z'. split; [exact Ec|].
  assert (T : forall p q r e f, Rabs (p - q) <= e -> Rabs (q - r) <= f -> Rabs (p - r) <= e + f).
  { intros p0 q0 r0 e f H1 H2. replace (p0 - r0) with ((p0 - q0) + (q0 - r0)) by ring. apply Rle_trans with (1 := Rabs_triang _ _). lra. }
  replace ((15 + 100 * k1 * k2) / 1000000 * B) with (100 / 1000000 * (k1 * k2 * B) + 15 / 1000000 * B) by field.
  repeat split; eapply T; eassumption.
Qed.

(** XYZ scaling: exactly *)
Lemma scale_back (h : heap R) p c s a w0 b w v : at_addr h p c -> wf_color XYZ c -> has_white h c s a w0 -> a <> b ->
  comps_are c v -> nonzero3 (white_vec w0) -> nonzero3 (white_vec w) -> bounded3 100 (mul3 v (div3 (white_vec w) (white_vec w0))) ->
  returns (bind (adaptation XyzScale (Some p) (Some (b, w))) (fun q => adaptation XyzScale q (Some (a, w0)))) h (fun r => comps r = comps c).
Proof.
  intros Hp W HW N C Nz0 Nz U.
  assert (I1 : forall t, mat3 (method_matrix XyzScale) t = t) by (intros [[x y] z]; lits; f_equal; [f_equal|]; field).
  assert (I2 : forall t, mat3 (method_inverse XyzScale) t = t) by (intros [[x y] z]; lits; f_equal; [f_equal|]; field).
  assert (Ad : forall w0 w v, adapted XyzScale w0 w v = mul3 v (div3 (white_vec w) (white_vec w0))).
  { intros u u' [[x y] z]. unfold adapted, responses. rewrite I2, !I1. unfold mul3, div3, white_vec. f_equal; [f_equal|]; ring. }
  destruct (adapt_step XyzScale h p c s a w0 b w v eq_refl Hp W HW N C) as [q [r [h' [s' [E [A [Wr [Hr Cr]]]]]]]]. rewrite Ad, clamp_id in Cr by exact U.
  destruct (adapt_step XyzScale h' q r s' b w a w0 _ eq_refl A Wr Hr ltac:(congruence) Cr) as [q' [r' [h2 [s2 [E' [A' [_ [_ Cr']]]]]]]].
  exists q', r', h2. split; [unfold bind; rewrite E; exact E'|]. split; [exact A'|].
  rewrite Ad in Cr'.
  assert (Eq : mul3 (mul3 v (div3 (white_vec w) (white_vec w0))) (div3 (white_vec w0) (white_vec w)) = v).
  { destruct v as [[x y] z]. destruct Nz0 as [? [? ?]]. destruct Nz as [? [? ?]]. cbn. f_equal; [f_equal|]; field; split; assumption. }
  rewrite Eq, clamp_id in Cr'.
  - destruct v as [[x y] z]. unfold comps_are in *. congruence.
  - destruct v as [[x y] z]. cbn in C. pose proof (fun i t => wf_rng XYZ c i t W) as K. rewrite C in K.
    pose proof (K 0%nat x eq_refl) as Kx. pose proof (K 1%nat y eq_refl) as Ky. pose proof (K 2%nat z eq_refl) as Kz. unfold rng in *. cbn [comp_range fst snd] in *.
    repeat split; lra.
Qed.

Lemma quotient_gain x y k : 0 < y -> - (k * y) <= x <= k * y -> Rabs (x / y) <= k.
Proof.
  intros Y H. apply Rabs_le. assert (P : 0 < / y) by (apply Rinv_0_lt_compat, Y). unfold Rdiv. split.
  - replace (- k) with (- (k * y) * / y) by (field; lra). apply Rmult_le_compat_r; lra.
  - replace k with (k * y * / y) by (field; lra). apply Rmult_le_compat_r; lra.
Qed.
Ltac whites := unfold responses, white_vec; cbn [tx ty_ tz wp_D65_2Degree wp_D50_2Degree white_point5]; Adapt2_Proofs.lits.
Lemma chain_example : nonzero3 (responses BradfordSimplified wp_D65_2Degree) /\ nonzero3 (responses BradfordSimplified wp_D50_2Degree) /\
  gains BradfordSimplified wp_D65_2Degree wp_D50_2Degree 2 /\ gains BradfordSimplified wp_D50_2Degree wp_D65_2Degree 2 /\
  bounded3 100 (adapted BradfordSimplified wp_D65_2Degree wp_D50_2Degree (30, 40, 20)).
Proof.
  split; [whites; cbn [nonzero3]; lra|]. split; [whites; cbn [nonzero3]; lra|].
  split; [unfold gains; whites; cbn [div3]; repeat split; apply quotient_gain; lra|].
  split; [unfold gains; whites; cbn [div3]; repeat split; apply quotient_gain; lra|].
  unfold adapted; whites; cbn [div3 mul3]. unfold bounded3. lra.
Qed.
