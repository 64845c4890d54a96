(** * Averages lie between the averaged colours *)
From Coq Require Import ZArith Reals Lra Lia List Bool.
From Flocq Require Import Core IEEE754.BinarySingleNaN.
From Verif Require Import Arith Outcome ColorModel Heap Calculation F32 RArith Spec Spec32 Spec_Conv Spec_Calc Spec_Error Spec_Byte
  Calc4_Proofs Mean_Proofs Mean4_Proofs Convert_Proofs Calc_Proofs HueMean_Proofs Blend3_Proofs Spec_Mean Mean3_Proofs.
Import ListNotations.
Local Open Scope R_scope.

Lemma sum_between lo hi l : Forall (fun x => lo <= x <= hi) l -> INR (length l) * lo <= fold_right Rplus 0 l <= INR (length l) * hi.
Proof.
  induction 1 as [|x l Hx _ IH]; [cbn [length fold_right INR]; lra|].
  cbn [length fold_right]. rewrite S_INR. lra.
Qed.
Lemma mean_between lo hi l : l <> [] -> Forall (fun x => lo <= x <= hi) l -> lo <= mean l <= hi.
Proof.
  intros N H. assert (K := sum_between lo hi l H). unfold mean.
  assert (P : 0 < INR (length l)). { apply (lt_INR 0). destruct l; [exfalso; apply N; reflexivity|cbn [length]; lia]. }
  split; apply Rmult_le_reg_r with (INR (length l)); try exact P; unfold Rdiv; rewrite Rmult_assoc, Rinv_l, Rmult_1_r by lra; lra.
Qed.
Lemma average_between X ia (h : heap R) p ps c cs i lo hi : In X all_types -> points_to h (p :: ps) (c :: cs) -> Forall (wf_color X) (c :: cs) ->
  (eight_bit X = true -> Forall (fun c => 0 <= m_alpha c <= 1) (c :: cs)) -> (i < arity X)%nat ->
  Forall (fun x => lo <= x <= hi) (components i (c :: cs)) ->
  returns (average X (p :: ps) ia) h (fun r => ty r = X /\ exists w, nth_error (comps r) i = Some w /\ lo <= w <= hi).
Proof.
  intros HX P W A Hi B. apply (returns_impl _ _ _ _ (average_means X ia h p ps c cs HX P W A)).
  intros r [T [C _]]. split; [exact T|]. exists (mean (components i (c :: cs))). split.
  - rewrite C, nth_error_map, nth_error_nth' with (d := 0%nat) by (rewrite seq_length; exact Hi). rewrite seq_nth by exact Hi. reflexivity.
  - apply mean_between; [discriminate|exact B].
Qed.
Lemma average_alpha_between X (h : heap R) p ps c cs lo hi : In X all_types -> X <> CMYK -> points_to h (p :: ps) (c :: cs) -> Forall (wf_color X) (c :: cs) ->
  (eight_bit X = true -> Forall (fun c => 0 <= m_alpha c <= 1) (c :: cs)) ->
  Forall (fun x => lo <= x <= hi) (map alpha (c :: cs)) ->
  returns (average X (p :: ps) true) h (fun r => ty r = X /\ lo <= alpha r <= hi).
Proof.
  intros HX N P W A B. apply (returns_impl _ _ _ _ (average_means X true h p ps c cs HX P W A)).
  intros r [T [_ [_ [_ C]]]]. split; [exact T|]. rewrite (C eq_refl N). apply mean_between; [discriminate|exact B].
Qed.

Lemma total_between lo hi bs : Forall (fun n => (lo <= n <= hi)%Z) bs -> (Z.of_nat (length bs) * lo <= total bs <= Z.of_nat (length bs) * hi)%Z.
Proof.
  induction 1 as [|n l Hn _ IH]; [cbn; lia|]. unfold total in *. cbn [length fold_right]. rewrite Nat2Z.inj_succ. lia.
Qed.
Lemma byte_format n : is_byte n -> generic_format radix2 (FLT_exp (-149) 24) (IZR n).
Proof.
  intros B. apply generic_format_FLT. exists (Float radix2 n 0).
  - unfold F2R. cbn. lra.
  - cbn. unfold is_byte in B. lia.
  - cbn. lia.
Qed.
Lemma average_bytes_between o X ia (h : heap f32) p ps c cs : In X [RGB_TRUE; GREY_TRUE] -> points_to h (p :: ps) (c :: cs) ->
  Forall (@wf_color f32 (F32 o) X) (c :: cs) -> (Z.of_nat (length (c :: cs)) <= 65793)%Z ->
  returns (@average f32 (F32 o) X (p :: ps) ia) h (fun r => forall i bs lo hi, (i < arity X)%nat -> bytes_at i (c :: cs) bs -> is_byte lo -> is_byte hi ->
    Forall (fun n => (lo <= n <= hi)%Z) bs -> comp_sat r i (fun x => exists v, is_value x v /\ IZR lo <= v <= IZR hi)).
Proof.
  intros HX P W L. apply (returns_impl _ _ _ _ (mean_few o X ia h p ps c cs HX P W L)).
  intros r [_ [_ [C _]]] i bs lo hi Hi Hb Bl Bh F. destruct (C i bs Hi Hb) as [x [Ex [Rd _]]]. exists x. split; [exact Ex|].
  eexists. split; [exact Rd|]. assert (K := total_between lo hi bs F).
  assert (N : (0 < Z.of_nat (length bs))%Z). { inversion Hb; subst. cbn [length]. lia. }
  apply IZR_lt in N. destruct K as [K1 K2]. apply IZR_le in K1, K2. rewrite mult_IZR in K1, K2.
  assert (Q : IZR (total bs) / IZR (Z.of_nat (length bs)) * IZR (Z.of_nat (length bs)) = IZR (total bs)) by (field; lra).
  split.
  - rewrite <- (round_generic radix2 (FLT_exp (-149) 24) ZnearestE (IZR lo) (byte_format lo Bl)).
    apply round_le; try typeclasses eauto. apply Rmult_le_reg_r with (IZR (Z.of_nat (length bs))); [exact N|]. rewrite Q. lra.
  - rewrite <- (round_generic radix2 (FLT_exp (-149) 24) ZnearestE (IZR hi) (byte_format hi Bh)).
    apply round_le; try typeclasses eauto. apply Rmult_le_reg_r with (IZR (Z.of_nat (length bs))); [exact N|]. rewrite Q. lra.
Qed.
Lemma average_outside o : exists (h : heap f32) ps c, points_to h ps [c; c; c] /\ @wf_color f32 (F32 o) GREY_DEEP c /\ exists v w, v < w /\ comp_sat c 0 (fun x => is_value x v) /\
  returns (@average f32 (F32 o) GREY_DEEP ps false) h (fun r => comp_sat r 0 (fun x => is_value x w)).
Proof.
  destruct (equal_differs o) as [h [ps [c [P [W [V K]]]]]]. exists h, ps, c. split; [exact P|]. split; [exact W|].
  exists (12582914 / 16777216), (12582915 / 16777216). split; [lra|]. split; [exact V|exact K].
Qed.
Lemma average_deep_between o X ia (h : heap f32) p ps c cs : In X all_types -> eight_bit X = false -> points_to h (p :: ps) (c :: cs) ->
  Forall (@wf_color f32 (F32 o) X) (c :: cs) -> (Z.of_nat (length (c :: cs)) <= 16384)%Z ->
  returns (@average f32 (F32 o) X (p :: ps) ia) h (fun r => forall i lo hi, (i < arity X)%nat ->
    Forall (fun x => lo <= B2R x <= hi) (@components f32 (F32 o) i (c :: cs)) ->
    comp_sat r i (fun x => is_finite x = true /\ lo - mean_error (length (c :: cs)) (magnitude X i) <= B2R x <= hi + mean_error (length (c :: cs)) (magnitude X i))).
Proof.
  intros HX E8 P W L. apply (returns_impl _ _ _ _ (deep_mean o X ia h p ps c cs HX E8 P W L)).
  intros r [_ [_ [C _]]] i lo hi Hi B. destruct (C i Hi) as [x [Ex [Fx A]]]. exists x. split; [exact Ex|]. split; [exact Fx|].
  assert (K : lo <= mean (map B2R (@components f32 (F32 o) i (c :: cs))) <= hi).
  { apply mean_between; [discriminate|]. apply Forall_map. exact B. }
  apply Rabs_le_inv in A. lra.
Qed.
