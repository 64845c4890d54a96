(** * Normal blending against the Porter-Duff operators *)
From Coq Require Import ZArith QArith Reals Lra Lia List Bool.
From Flocq Require Import Core IEEE754.BinarySingleNaN.
From Verif Require Import Arith Outcome ColorModel GammaModel MatrixModel SpaceModel Heap Converter Calculation Blend
  Spec F32 RArith F32Facts Hue32 Spec32 Laws NormalForms History Core_Proofs Core2_Proofs Core3_Proofs Core4_Proofs Convert_Proofs Alpha8
  Spec_Matrix Spec_Conv Spec_Calc Spec_Blend
  Conv_Proofs Conv2_Proofs Conv3_Proofs Total_Proofs HueR_Proofs Round_Proofs Calc_Proofs Calc2_Proofs Blend_Proofs Blend2_Proofs Blend3_Proofs BlendHcy_Proofs.
Import ListNotations.
Local Open Scope R_scope.

Lemma normal_operators (o : oracle) p1 p2 :
  @blend f32 (F32 o) Normal p1 p2 true true = @composite f32 (F32 o) Over p1 p2 /\
  @blend f32 (F32 o) Normal p1 p2 true false = @composite f32 (F32 o) Src p1 p2 /\
  @blend f32 (F32 o) Normal p1 p2 false true = @composite f32 (F32 o) Atop p1 p2 /\
  @blend f32 (F32 o) Normal p1 p2 false false = @composite f32 (F32 o) In_ p1 p2.
Proof. repeat split. Qed.

Lemma normal_not_dest : exists (h : heap R) c1 c2, at_addr h 0%nat c1 /\ at_addr h 1%nat c2 /\ wf_color RGB_DEEP c1 /\ wf_color RGB_DEEP c2 /\
  rgb_space c1 = rgb_space c2 /\
  returns (@blend R RArith Normal (Some 0%nat) (Some 1%nat) false true) h (fun r => comps r = [0; 0; 0] /\ alpha r = 1 / 2) /\
  returns (@composite R RArith Dest (Some 0%nat) (Some 1%nat)) h (fun r => comps r = [1; 1; 1] /\ alpha r = 1 / 2).
Proof.
  destruct (rgb_deepcolor_made (AF := RArith) (AL := RLaws) 0 0 0 1 None) as [c1 [E1 [W1 [A1 S1]]]].
  destruct (rgb_deepcolor_made (AF := RArith) (AL := RLaws) 1 1 1 (1 / 2) None) as [c2 [E2 [W2 [A2 S2]]]].
  exists (Heap [c1; c2] []), c1, c2. split; [reflexivity|]. split; [reflexivity|]. split; [exact W1|]. split; [exact W2|]. split; [congruence|].
  assert (B1 : alpha c1 = 1) by (unfold alpha; rewrite (wf_cls _ _ W1); exact A1).
  assert (B2 : alpha c2 = 1 / 2) by (unfold alpha; rewrite (wf_cls _ _ W2); exact A2).
  rewrite rgb_deepcolor_nf in E1, E2. apply Ok_inj in E1. apply Ok_inj in E2.
  assert (C1 : comps c1 = [0; 0; 0]) by (rewrite <- E1; cbn [comps]; rewrite !c01R by lra; reflexivity).
  assert (C2 : comps c2 = [1; 1; 1]) by (rewrite <- E2; cbn [comps]; rewrite !c01R by lra; reflexivity).
  clear E1 E2.
  assert (K : forall p v, (forall x, (1 / 2) * x = fst (fractions p 1 (1 / 2)) * 1 * 0 + snd (fractions p 1 (1 / 2)) * (1 / 2) * 1 -> x = v) ->
    fst (fractions p 1 (1 / 2)) * 1 + snd (fractions p 1 (1 / 2)) * (1 / 2) = 1 / 2 ->
    returns (@composite R RArith p (Some 0%nat) (Some 1%nat)) (Heap [c1; c2] []) (fun r => comps r = [v; v; v] /\ alpha r = 1 / 2)).
  { intros p v X Y. apply (returns_impl _ _ _ _ (pd_formula p (Heap [c1; c2] []) 0%nat c1 1%nat c2 eq_refl eq_refl W1 W2 ltac:(lra) ltac:(lra) ltac:(congruence))).
    intros r. unfold pd_result. rewrite B1, B2. destruct (fractions p 1 (1 / 2)) as [fa fb]. cbn [fst snd] in *.
    intros [T [L [S [A [_ C]]]]]. rewrite C1, C2 in C. rewrite Y in A. split; [|exact A].
    apply comps_ext; [exact L|reflexivity|]. intros i a b Ha Hb. pose proof (nth_lt _ _ _ Ha) as Li. rewrite L in Li.
    assert (Hs : nth_error [0; 0; 0] i = Some 0) by (destruct i as [|[|[|i]]]; [reflexivity|reflexivity|reflexivity|lia]).
    assert (Hd : nth_error [1; 1; 1] i = Some 1) by (destruct i as [|[|[|i]]]; [reflexivity|reflexivity|reflexivity|lia]).
    assert (Hv : b = v) by (destruct i as [|[|[|i]]]; cbn [nth_error] in Hb; [congruence|congruence|congruence|lia]).
    destruct (C i 0 1 a Hs Hd Ha) as [P _]. rewrite A in P. rewrite Hv. apply X, P. }
  split.
  - change (@blend R RArith Normal (Some 0%nat) (Some 1%nat) false true) with (@composite R RArith Atop (Some 0%nat) (Some 1%nat)).
    apply K; cbn [fractions fst snd]; intros; lra.
  - apply K; cbn [fractions fst snd]; intros; lra.
Qed.
