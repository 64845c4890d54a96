(** * Averages of larger components are larger *)
From Coq Require Import ZArith Reals Lra Lia List Bool.
From Flocq Require Import Core IEEE754.BinarySingleNaN.
From Verif Require Import Arith Outcome ColorModel Heap Calculation F32 RArith Spec Spec32 Spec_Conv Spec_Calc Spec_Error Spec_Byte
  Calc4_Proofs Mean_Proofs Blend3_Proofs CalcEx_Proofs Hull_Proofs Regroup_Proofs.
Import ListNotations.
Local Open Scope R_scope.

Lemma sum_mono l m : Forall2 Rle l m -> fold_right Rplus 0 l <= fold_right Rplus 0 m /\ length l = length m.
Proof. induction 1 as [|x y l m Hx _ [IH E]]; cbn [fold_right length]; [split; [lra|reflexivity]|split; [lra|congruence]]. Qed.
Lemma mean_mono l m : l <> [] -> Forall2 Rle l m -> mean l <= mean m.
Proof.
  intros N H. destruct (sum_mono l m H) as [S E]. destruct (sum_mean l N) as [P _]. unfold mean. rewrite <- E.
  apply Rmult_le_compat_r; [left; apply Rinv_0_lt_compat, P|exact S].
Qed.
Lemma mean_strict l m : Forall2 Rle l m -> Exists (fun p => fst p < snd p) (combine l m) -> mean l < mean m.
Proof.
  intros H X. assert (S : fold_right Rplus 0 l < fold_right Rplus 0 m /\ length l = length m /\ l <> []).
  { revert X. induction H as [|x y l m Hx H IH]; cbn [combine]; intros X; [inversion X|].
    destruct (sum_mono l m H) as [S E]. inversion X as [? ? K|? ? K]; subst; cbn [fold_right length fst snd] in *.
    - split; [lra|]. split; [congruence|discriminate].
    - destruct (IH K) as [S' _]. split; [lra|]. split; [congruence|discriminate]. }
  destruct S as [S [E N]]. destruct (sum_mean l N) as [P _]. unfold mean. rewrite <- E.
  apply Rmult_lt_compat_r; [apply Rinv_0_lt_compat, P|exact S].
Qed.
Lemma average_mono X ia ia' (h h' : heap R) ps qs cs ds : In X all_types -> eight_bit X = false -> ps <> [] -> qs <> [] -> points_to h ps cs -> points_to h' qs ds ->
  Forall (wf_color X) cs -> Forall (wf_color X) ds ->
  returns (average X ps ia) h (fun r => returns (average X qs ia') h' (fun s => forall i, (i < arity X)%nat -> Forall2 Rle (components i cs) (components i ds) ->
    exists w v, nth_error (comps r) i = Some w /\ nth_error (comps s) i = Some v /\ w <= v /\
      (Exists (fun p => fst p < snd p) (combine (components i cs) (components i ds)) -> w < v))).
Proof.
  intros HX E8 Np Nq P Q Wc Wd. destruct (average_step X ia h ps cs HX E8 Np P Wc) as [q [r [h1 [E [A [_ [_ C]]]]]]].
  exists q, r, h1. split; [exact E|]. split; [exact A|].
  destruct (average_step X ia' h' qs ds HX E8 Nq Q Wd) as [q' [s [h2 [E' [A' [_ [_ C']]]]]]].
  exists q', s, h2. split; [exact E'|]. split; [exact A'|]. intros i Hi L.
  do 2 eexists. split; [apply (C i Hi)|]. split; [apply (C' i Hi)|]. split.
  - apply mean_mono; [|exact L]. intros K. assert (N := points_len _ _ _ P). unfold components in K. apply map_eq_nil in K. subst cs. destruct ps; [apply Np; reflexivity|discriminate N].
  - apply mean_strict, L.
Qed.
Lemma total_mono l m : Forall2 Z.le l m -> (total l <= total m)%Z /\ length l = length m.
Proof. unfold total. induction 1 as [|x y l m Hx _ [IH E]]; cbn [fold_right length]; [split; [lia|reflexivity]|split; [lia|congruence]]. Qed.
Lemma average_bytes_mono o X ia ia' (h h' : heap f32) p ps c cs q qs d ds : In X [RGB_TRUE; GREY_TRUE] -> points_to h (p :: ps) (c :: cs) -> points_to h' (q :: qs) (d :: ds) ->
  Forall (@wf_color f32 (F32 o) X) (c :: cs) -> Forall (@wf_color f32 (F32 o) X) (d :: ds) -> (Z.of_nat (length (c :: cs)) <= 65793)%Z -> (Z.of_nat (length (d :: ds)) <= 65793)%Z ->
  returns (@average f32 (F32 o) X (p :: ps) ia) h (fun r => returns (@average f32 (F32 o) X (q :: qs) ia') h' (fun s => forall i bs es, (i < arity X)%nat ->
    bytes_at i (c :: cs) bs -> bytes_at i (d :: ds) es -> Forall2 Z.le bs es ->
    exists v w, comp_sat r i (fun x => is_value x v) /\ comp_sat s i (fun x => is_value x w) /\ v <= w)).
Proof.
  intros HX P Q W W' L L'. apply (returns_impl _ _ _ _ (mean_few o X ia h p ps c cs HX P W L)). intros r [_ [_ [C _]]].
  apply (returns_impl _ _ _ _ (mean_few o X ia' h' q qs d ds HX Q W' L')). intros s [_ [_ [C' _]]] i bs es Hi Hb He M.
  destruct (C i bs Hi Hb) as [x [Ex [Rx _]]]. destruct (C' i es Hi He) as [y [Ey [Ry _]]].
  do 2 eexists. split; [exists x; split; [exact Ex|exact Rx]|]. split; [exists y; split; [exact Ey|exact Ry]|].
  apply round_le; try typeclasses eauto. destruct (total_mono bs es M) as [T E]. rewrite <- E.
  apply Rmult_le_compat_r; [|apply IZR_le, T]. left. apply Rinv_0_lt_compat, (IZR_lt 0). inversion Hb; subst. cbn [length]. lia.
Qed.
Lemma avg_order_example : exists (h : heap R) ps cs, points_to h ps cs /\ Forall (wf_color CMYK) cs /\ ps <> [] /\ exists qs ds, qs <> [] /\ points_to h qs ds /\ Forall (wf_color CMYK) ds /\
  Forall2 Rle (components 3 cs) (components 3 ds) /\ Exists (fun p => fst p < snd p) (combine (components 3 cs) (components 3 ds)).
Proof.
  destruct average_example as [h [ps [cs [P [W [_ C]]]]]].
  destruct cs as [|c [|d [|e cs]]]; try discriminate C. assert (C' := C). unfold components in C'. cbn [map] in C'. injection C' as C1 D1.
  inversion P as [|p ? ps' ? Hp P']; subst. inversion P' as [|q ? ps'' ? Hq P'']; subst.
  inversion W as [|? ? Wc W']; subst. inversion W' as [|? ? Wd _]; subst.
  exists h, [p; q], [c; d]. split; [repeat constructor; assumption|]. split; [exact (Forall_cons _ Wc (Forall_cons _ Wd (Forall_nil _)))|]. split; [discriminate|].
  exists [q; q], [d; d]. split; [discriminate|]. split; [repeat constructor; assumption|]. split; [exact (Forall_cons _ Wd (Forall_cons _ Wd (Forall_nil _)))|].
  assert (D : components 3 [d; d] = [1; 1]). { unfold components. cbn [map]. f_equal; [exact D1|f_equal; exact D1]. }
  rewrite C, D. split; [repeat constructor; lra|]. cbn [combine]. left. cbn [fst snd]. lra.
Qed.
