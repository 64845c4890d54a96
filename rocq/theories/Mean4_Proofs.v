(** * Order and equality in averages of deep colours (C214) *)
From Coq Require Import ZArith QArith Reals Lra Lia List Bool Permutation.
From Flocq Require Import Core IEEE754.BinarySingleNaN.
From Verif Require Import Calculation Blend Spec_Calc Spec_Blend Calc_Proofs Blend_Proofs Blend2_Proofs Mirror3_Proofs Grey32_Proofs.
From Verif Require Import Arith Outcome ColorModel GammaModel MatrixModel SpaceModel Heap Converter Calculation F32 F32Facts RArith
  Spec Spec32 Laws NormalForms Alpha8 Core_Proofs Core2_Proofs Core3_Proofs Core4_Proofs Hue32 Spec_Matrix Spec_Conv
  Conv_Proofs Conv2_Proofs Run_Proofs Round_Proofs Round2_Proofs Error_Proofs Error2_Proofs Error3_Proofs Error4_Proofs Error5_Proofs Error6_Proofs Error8_Proofs Spec_Error
  Mean_Proofs Spec_Calc Spec_Mean Mean2_Proofs Mean3_Proofs.
Import ListNotations.
Local Open Scope R_scope.

Lemma fold_perm l l' : Permutation l l' -> fold_right Rplus 0 l = fold_right Rplus 0 l'.
Proof. induction 1; cbn; lra. Qed.
Lemma mean_perm l l' : Permutation l l' -> mean l = mean l'.
Proof. intros P. unfold mean. rewrite (fold_perm _ _ P), (Permutation_length P). reflexivity. Qed.
Lemma components_perm o i cs cs' : Permutation cs cs' -> Permutation (@components f32 (F32 o) i cs) (@components f32 (F32 o) i cs').
Proof. intros P. unfold components. apply Permutation_map, P. Qed.
Lemma fold_repeat v k : fold_right Rplus 0 (repeat v k) = INR k * v.
Proof. induction k as [|k IH]; [cbn; lra|]. rewrite S_INR. cbn [repeat fold_right]. rewrite IH. lra. Qed.
Lemma mean_repeat v k : k <> 0%nat -> mean (repeat v k) = v.
Proof. intros K. unfold mean. rewrite fold_repeat, repeat_length. field. apply not_0_INR, K. Qed.
Lemma map_rep {A B} (f : A -> B) x k : map f (repeat x k) = repeat (f x) k.
Proof. induction k; cbn; congruence. Qed.

Lemma deep_order o X ia (h : heap f32) ps ps' cs cs' : In X all_types -> eight_bit X = false -> cs <> [] -> points_to h ps cs -> points_to h ps' cs' -> Permutation cs cs' ->
  Forall (@wf_color f32 (F32 o) X) cs -> (Z.of_nat (length cs) <= 16384)%Z ->
  returns (@average f32 (F32 o) X ps ia) h (fun r => returns (@average f32 (F32 o) X ps' ia) h (fun r' =>
    forall i, (i < arity X)%nat -> comp_sat r i (fun x => comp_sat r' i (fun x' => Rabs (B2R x - B2R x') <= 2 * mean_error (length cs) (magnitude X i))))).
Proof.
  intros HX H8 Ne P P' Pe W L. destruct cs as [|c cs]; [congruence|]. destruct cs' as [|c' cs']; [apply Permutation_sym, Permutation_nil in Pe; discriminate|].
  inversion P as [|p ? ps0 ? Hp HP]; subst. inversion P' as [|p' ? ps0' ? Hp' HP']; subst.
  assert (W' : Forall (@wf_color f32 (F32 o) X) (c' :: cs')). { apply Forall_forall. intros d Hd. apply (proj1 (Forall_forall _ _) W). apply Permutation_in with (2 := Hd), Permutation_sym, Pe. }
  assert (L' : (Z.of_nat (length (c' :: cs')) <= 16384)%Z) by (rewrite <- (Permutation_length Pe); exact L).
  destruct (deep_mean o X ia h p ps0 c cs HX H8 P W L) as [q [r [h1 [E [At [_ [_ [K _]]]]]]]].
  destruct (deep_mean o X ia h p' ps0' c' cs' HX H8 P' W' L') as [q' [r' [h1' [E' [At' [_ [_ [K' _]]]]]]]].
  exists q, r, h1. split; [exact E|]. split; [exact At|]. exists q', r', h1'. split; [exact E'|]. split; [exact At'|].
  intros i Hi. destruct (K i Hi) as [x [Ex [_ D]]]. destruct (K' i Hi) as [x' [Ex' [_ D']]].
  exists x. split; [exact Ex|]. exists x'. split; [exact Ex'|].
  rewrite <- (Permutation_length Pe) in D'.
  lazymatch type of D with Rabs (_ - ?m) <= ?e => lazymatch type of D' with Rabs (_ - ?m') <= _ => assert (EM : m' = m); [|rewrite EM in D'; revert D D'; generalize m e; clear] end end.
  { symmetry. apply mean_perm, Permutation_map, components_perm, Pe. }
  intros m e D D'. apply Rabs_le_inv in D. apply Rabs_le_inv in D'. apply Rabs_le. lra.
Qed.

Lemma deep_equal o X ia (h : heap f32) ps c : In X all_types -> eight_bit X = false -> ps <> [] -> (Z.of_nat (length ps) <= 16384)%Z ->
  points_to h ps (repeat c (length ps)) -> @wf_color f32 (F32 o) X c ->
  returns (@average f32 (F32 o) X ps ia) h (fun r => forall i, (i < arity X)%nat ->
    comp_sat r i (fun x => comp_sat c i (fun y => Rabs (B2R x - B2R y) <= mean_error (length ps) (magnitude X i)))).
Proof.
  intros HX H8 Ne L P W. destruct ps as [|p ps]; [congruence|]. cbn [length repeat] in P.
  assert (Wa : Forall (@wf_color f32 (F32 o) X) (c :: repeat c (length ps))). { apply Forall_forall. intros d Hd. apply (repeat_spec (S (length ps))) in Hd. subst d. exact W. }
  assert (Le : length (c :: repeat c (length ps)) = length (p :: ps)) by (cbn; rewrite repeat_length; reflexivity).
  destruct (deep_mean o X ia h p ps c _ HX H8 P Wa) as [q [r [h1 [E [At [_ [_ [K _]]]]]]]]; [rewrite Le; exact L|].
  exists q, r, h1. split; [exact E|]. split; [exact At|]. intros i Hi. destruct (K i Hi) as [x [Ex [_ D]]]. exists x. split; [exact Ex|].
  rewrite Le in D. change (c :: repeat c (length ps)) with (repeat c (S (length ps))) in D. unfold components in D. rewrite !map_rep, mean_repeat in D by discriminate.
  pose proof (wf_len _ _ W) as Lc. destruct (nth_error (comps c) i) as [y|] eqn:Ey; [|apply nth_error_None in Ey; lia].
  exists y. split; [exact Ey|]. erewrite nth_error_nth in D; [exact D|exact Ey].
Qed.

(** ** Exact equality fails *)
Definition deep_grey (o : oracle) (x : f32) : color f32 := Color GREY_DEEP GREY_DEEP [x] (@fz f32 (F32 o) 1) (@fz f32 (F32 o) 1) (@fz f32 (F32 o) 0) None.
Lemma deep_grey_wf o x : @within f32 (F32 o) 0 1 x -> @wf_color f32 (F32 o) GREY_DEEP (deep_grey o x).
Proof.
  intros U. apply (unit_by o) in U. destruct (grey_deepcolor_made (AF := F32 o) (AL := F32Laws o) x (@fz f32 (F32 o) 1) None) as [c [E [W _]]].
  rewrite grey_deepcolor_nf in E. apply Ok_inj in E. rewrite (c01_id o x U) in E. unfold deep_grey. rewrite E. exact W.
Qed.
Definition third (o : oracle) (x y z : f32) : f32 := @c01 f32 (F32 o) (@fdiv f32 (F32 o) (@fadd f32 (F32 o) (@fadd f32 (F32 o) (@fadd f32 (F32 o) (@fz f32 (F32 o) 0) x) y) z) (@fofZ f32 (F32 o) 3)).
Lemma run3 o h i j k x y z v : at_addr h i (deep_grey o x) -> at_addr h j (deep_grey o y) -> at_addr h k (deep_grey o z) ->
  is_value (third o x y z) v ->
  returns (@average f32 (F32 o) GREY_DEEP [Some i; Some j; Some k] false) h (fun r => comp_sat r 0 (fun w => is_value w v)).
Proof.
  intros A B C V.
  assert (Q : forall i x, at_addr h i (deep_grey o x) -> load_as GREY_DEEP (Some i) h = (Ok (deep_grey o x), h)). { intros i0 x0 H. unfold load_as, load, bind. unfold at_addr in H. rewrite H. reflexivity. }
  assert (E : @average f32 (F32 o) GREY_DEEP [Some i; Some j; Some k] false h = bind (lift (@grey_deepcolor f32 (F32 o) (@fdiv f32 (F32 o) (@fadd f32 (F32 o) (@fadd f32 (F32 o) (@fadd f32 (F32 o) (@fz f32 (F32 o) 0) x) y) z) (@fofZ f32 (F32 o) 3)) (@alpha f32 (F32 o) (deep_grey o x)) None)) alloc h).
  { cbn [average]. unfold average_grey_deep, average1. cbn [sum_loop length]. unfold bind at 1. rewrite (Q _ _ A). unfold bind at 1 2. rewrite (Q _ _ A). unfold sum1, with1. cbn [comps deep_grey].
    unfold bind at 1, lift at 1. unfold bind at 1. rewrite (Q _ _ B). cbn [comps deep_grey]. unfold bind at 1, lift at 1. unfold bind at 1. rewrite (Q _ _ C). cbn [comps deep_grey]. reflexivity. }
  unfold returns. rewrite E, grey_deepcolor_nf. unfold bind, lift, alloc. do 3 eexists. split; [reflexivity|]. split; [apply at_new|]. exists (third o x y z). split; [reflexivity|exact V].
Qed.
Definition one32 : f32 := lit32 1.
Definition speck : f32 := lit32 (1 # 16777216).
Lemma order_differs : forall o, exists (h : heap f32) ps ps' cs cs' v v', points_to h ps cs /\ points_to h ps' cs' /\ Permutation cs cs' /\ Forall (@wf_color f32 (F32 o) GREY_DEEP) cs /\
  returns (@average f32 (F32 o) GREY_DEEP ps false) h (fun r => comp_sat r 0 (fun x => is_value x v)) /\
  returns (@average f32 (F32 o) GREY_DEEP ps' false) h (fun r => comp_sat r 0 (fun x => is_value x v')) /\ v <> v'.
Proof.
  intros o. set (a := deep_grey o one32). set (b := deep_grey o speck).
  exists (Heap [a; b] []), [Some 0%nat; Some 1%nat; Some 1%nat], [Some 1%nat; Some 1%nat; Some 0%nat], [a; b; b], [b; b; a], (11184811 / 33554432), (11184812 / 33554432).
  assert (A : at_addr (Heap [a; b] []) 0%nat a) by reflexivity. assert (B : at_addr (Heap [a; b] []) 1%nat b) by reflexivity.
  split; [|split; [|split; [|split; [|split; [|split]]]]].
  - apply Forall2_cons; [eauto|]. apply Forall2_cons; [eauto|]. apply Forall2_cons; [eauto|]. apply Forall2_nil.
  - apply Forall2_cons; [eauto|]. apply Forall2_cons; [eauto|]. apply Forall2_cons; [eauto|]. apply Forall2_nil.
  - apply (Permutation_trans (l' := [b; a; b])); [apply perm_swap|apply perm_skip, perm_swap].
  - assert (Wb : @wf_color f32 (F32 o) GREY_DEEP b) by (apply deep_grey_wf; split; vm_compute; reflexivity).
    apply Forall_cons; [apply deep_grey_wf; split; vm_compute; reflexivity|]. apply Forall_cons; [exact Wb|]. apply Forall_cons; [exact Wb|apply Forall_nil].
  - apply (run3 o _ _ _ _ one32 speck speck _ A B B). destruct (fval_SF (third o one32 speck speck) false 11184811 (-25)) as [F V]; [vm_compute; reflexivity|]. split; [exact F|].
    change (B2R (third o one32 speck speck) = 11184811 / 33554432). rewrite V. unfold F2R. cbn. lra.
  - apply (run3 o _ _ _ _ speck speck one32 _ B B A). destruct (fval_SF (third o speck speck one32) false 11184812 (-25)) as [F V]; [vm_compute; reflexivity|]. split; [exact F|].
    change (B2R (third o speck speck one32) = 11184812 / 33554432). rewrite V. unfold F2R. cbn. lra.
  - lra.
Qed.
Lemma equal_differs : forall o, exists (h : heap f32) ps c, points_to h ps (repeat c 3) /\ @wf_color f32 (F32 o) GREY_DEEP c /\ comp_sat c 0 (fun x => is_value x (12582914 / 16777216)) /\
  returns (@average f32 (F32 o) GREY_DEEP ps false) h (fun r => comp_sat r 0 (fun x => is_value x (12582915 / 16777216))).
Proof.
  intros o. set (a := deep_grey o drifting). assert (A : at_addr (Heap [a] []) 0%nat a) by reflexivity.
  exists (Heap [a] []), (repeat (Some 0%nat) 3), a. split; [apply points_repeat, A|]. split; [apply deep_grey_wf; split; vm_compute; reflexivity|]. split.
  - exists drifting. split; [reflexivity|]. destruct (fval_SF drifting false 12582914 (-24)) as [F V]; [vm_compute; reflexivity|]. split; [exact F|]. change (B2R drifting = 12582914 / 16777216). rewrite V. unfold F2R. cbn. lra.
  - apply (run3 o _ _ _ _ drifting drifting drifting _ A A A). destruct (fval_SF (third o drifting drifting drifting) false 12582915 (-24)) as [F V]; [vm_compute; reflexivity|]. split; [exact F|].
    change (B2R (third o drifting drifting drifting) = 12582915 / 16777216). rewrite V. unfold F2R. cbn. lra.
Qed.
