(** * Averages of averages *)
From Coq Require Import ZArith Reals Lra Lia List Bool.
From Flocq Require Import Core.
From Verif Require Import Arith Outcome ColorModel Heap Calculation RArith Laws Spec Spec_Conv Spec_Calc
  Convert_Proofs Calc_Proofs Calc3_Proofs Calc4_Proofs Blend3_Proofs CalcEx_Proofs Hull_Proofs.
Import ListNotations.
Local Open Scope R_scope.

Lemma sum_app l m : fold_right Rplus 0 (l ++ m) = fold_right Rplus 0 l + fold_right Rplus 0 m.
Proof. induction l as [|x l IH]; cbn [app fold_right]; [lra|rewrite IH; lra]. Qed.
Lemma sum_mean l : l <> [] -> 0 < INR (length l) /\ fold_right Rplus 0 l = INR (length l) * mean l.
Proof.
  intros N. assert (P : 0 < INR (length l)). { apply (lt_INR 0). destruct l; [exfalso; apply N; reflexivity|cbn [length]; lia]. }
  split; [exact P|]. unfold mean. field. lra.
Qed.
Lemma regroup l m : l <> [] -> m <> [] -> (mean [mean l; mean m] = mean (l ++ m) <-> length l = length m \/ mean l = mean m).
Proof.
  intros Nl Nm. destruct (sum_mean l Nl) as [Pl El]. destruct (sum_mean m Nm) as [Pm Em].
  assert (D : mean (l ++ m) - mean [mean l; mean m] = (INR (length l) - INR (length m)) * (mean l - mean m) / (2 * (INR (length l) + INR (length m)))).
  { unfold mean at 1 2. rewrite sum_app, El, Em, app_length, plus_INR. cbn [fold_right length INR]. field. lra. }
  split.
  - intros E. rewrite E in D. replace (mean (l ++ m) - mean (l ++ m)) with 0 in D by lra.
    assert (Z : (INR (length l) - INR (length m)) * (mean l - mean m) = 0).
    { apply Rmult_eq_reg_r with (/ (2 * (INR (length l) + INR (length m)))); [|apply Rinv_neq_0_compat; lra]. unfold Rdiv in D. lra. }
    apply Rmult_integral in Z. destruct Z as [Z|Z]; [left; apply INR_eq; lra|right; lra].
  - intros E. assert (Z : (INR (length l) - INR (length m)) * (mean l - mean m) = 0).
    { destruct E as [E|E]; [rewrite E|rewrite E]; ring. }
    rewrite Z in D. unfold Rdiv in D. rewrite Rmult_0_l in D. lra.
Qed.

Lemma points_mono (h h' : heap R) ps cs : unchanged h h' -> points_to h ps cs -> points_to h' ps cs.
Proof. intros [_ U] P. induction P as [|p c ps cs [i [E H]] _ IH]; constructor; [exists i; split; [exact E|apply U, H]|exact IH]. Qed.
Lemma at_fun (h : heap R) i c d : at_addr h i c -> at_addr h i d -> c = d.
Proof. unfold at_addr. congruence. Qed.
Lemma average_step X ia (h : heap R) ps cs : In X all_types -> eight_bit X = false -> ps <> [] -> points_to h ps cs -> Forall (wf_color X) cs ->
  exists q r h', average X ps ia h = (Ok (Some q), h') /\ at_addr h' q r /\ unchanged h h' /\ wf_color X r /\
    forall i, (i < arity X)%nat -> nth_error (comps r) i = Some (mean (components i cs)).
Proof.
  intros HX E8 N P W. destruct P as [|p c ps cs Hp P]; [exfalso; apply N; reflexivity|].
  assert (UX : X <> UNDEFINED). { intros ->. cbn in HX. intuition discriminate. }
  destruct (average_ok (AF := RArith) (AL := RLaws) X ia h p ps c cs UX (Forall2_cons _ _ Hp P) W) as [q [r [h' [E [_ [A [Wr [_ U]]]]]]]].
  destruct (average_means X ia h p ps c cs HX (Forall2_cons _ _ Hp P) W ltac:(congruence)) as [q' [r' [h2 [E' [A' [_ [C _]]]]]]].
  rewrite E in E'. injection E' as <- <-. assert (r = r') as <- by exact (at_fun _ _ _ _ A A').
  exists q, r, h'. do 4 (split; [assumption|]). intros i Hi.
  rewrite C, nth_error_map, nth_error_nth' with (d := 0%nat) by (rewrite seq_length; exact Hi). rewrite seq_nth by exact Hi. reflexivity.
Qed.
Lemma comp_app i (cs ds : list (color R)) : components i (cs ++ ds) = components i cs ++ components i ds.
Proof. unfold components. apply map_app. Qed.
Lemma points_len (h : heap R) ps cs : points_to h ps cs -> length ps = length cs.
Proof. induction 1; cbn [length]; congruence. Qed.
Lemma average_regroup X ia (h : heap R) ps qs cs ds : In X all_types -> eight_bit X = false -> ps <> [] -> qs <> [] -> points_to h ps cs -> points_to h qs ds ->
  Forall (wf_color X) cs -> Forall (wf_color X) ds ->
  exists q1 h1 q2 h2, average X ps ia h = (Ok (Some q1), h1) /\ average X qs ia h1 = (Ok (Some q2), h2) /\ unchanged h h2 /\
    returns (average X [Some q1; Some q2] ia) h2 (fun r => returns (average X (ps ++ qs) ia) h (fun s => forall i, (i < arity X)%nat ->
      exists w v, nth_error (comps r) i = Some w /\ nth_error (comps s) i = Some v /\
        (w = v <-> length ps = length qs \/ mean (components i cs) = mean (components i ds)))).
Proof.
  intros HX E8 Np Nq P Q Wc Wd.
  destruct (average_step X ia h ps cs HX E8 Np P Wc) as [q1 [r1 [h1 [E1 [A1 [U1 [W1 C1]]]]]]].
  destruct (average_step X ia h1 qs ds HX E8 Nq (points_mono _ _ _ _ U1 Q) Wd) as [q2 [r2 [h2 [E2 [A2 [U2 [W2 C2]]]]]]].
  exists q1, h1, q2, h2. split; [exact E1|]. split; [exact E2|]. split; [exact (unchanged_trans _ _ _ U1 U2)|].
  destruct (average_step X ia h2 [Some q1; Some q2] [r1; r2] HX E8 ltac:(discriminate)) as [q [r [h3 [E [A [_ [_ C]]]]]]].
  { constructor; [exists q1; split; [reflexivity|apply U2, A1]|]. constructor; [exists q2; split; [reflexivity|exact A2]|constructor]. }
  { constructor; [exact W1|]. constructor; [exact W2|constructor]. }
  destruct (average_step X ia h (ps ++ qs) (cs ++ ds) HX E8) as [q' [s [h4 [E' [A' [_ [_ C']]]]]]].
  { destruct ps; [exfalso; apply Np; reflexivity|discriminate]. }
  { apply Forall2_app; assumption. } { apply Forall_app; split; assumption. }
  exists q, r, h3. split; [exact E|]. split; [exact A|]. exists q', s, h4. split; [exact E'|]. split; [exact A'|].
  intros i Hi. eexists. eexists. split; [apply (C i Hi)|]. split; [apply (C' i Hi)|].
  rewrite comp_app. unfold components at 1. cbn [map]. rewrite (nth_error_nth _ _ (fz 0) (C1 i Hi)), (nth_error_nth _ _ (fz 0) (C2 i Hi)).
  assert (Lc : length (components i cs) = length ps) by (unfold components; rewrite map_length; symmetry; apply (points_len _ _ _ P)).
  assert (Ld : length (components i ds) = length qs) by (unfold components; rewrite map_length; symmetry; apply (points_len _ _ _ Q)).
  rewrite <- Lc, <- Ld. apply regroup.
  - intros K. rewrite K in Lc. destruct ps; [apply Np; reflexivity|discriminate Lc].
  - intros K. rewrite K in Ld. destruct qs; [apply Nq; reflexivity|discriminate Ld].
Qed.
Lemma regroup_example : exists (h : heap R) p q c d, points_to h [p; p] [c; c] /\ points_to h [q] [d] /\ wf_color CMYK c /\ wf_color CMYK d /\
  mean (components 3 [c; c]) = 0 /\ mean (components 3 [d]) = 1.
Proof.
  destruct average_example as [h [ps [cs [P [W [_ C]]]]]].
  destruct cs as [|c [|d [|e cs]]]; try discriminate C. cbn [components map] in C. injection C as C D.
  inversion P as [|p ? ps' ? Hp P']; subst. inversion P' as [|q ? ps'' ? Hq P'']; subst.
  inversion W as [|? ? Wc W']; subst. inversion W' as [|? ? Wd _]; subst.
  exists h, p, q, c, d. split; [repeat constructor; assumption|]. split; [repeat constructor; assumption|].
  split; [exact Wc|]. split; [exact Wd|]. unfold components, mean. cbn [map fold_right length INR].
  assert (C0 : nth 3 (comps c) (@fz R RArith 0) = 0) by exact C. assert (D0 : nth 3 (comps d) (@fz R RArith 0) = 1) by exact D.
  split; [rewrite C0|rewrite D0]; field.
Qed.
