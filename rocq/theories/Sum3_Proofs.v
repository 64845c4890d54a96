(** * Sums of the types that are added in another space; example colours *)
From Coq Require Import ZArith QArith Reals Lra Lia List Bool.
From Flocq Require Import Core IEEE754.BinarySingleNaN.
From Verif Require Import Arith Outcome ColorModel GammaModel MatrixModel SpaceModel Heap Converter Calculation Blend
  Spec F32 RArith F32Facts Spec32 Laws NormalForms Core_Proofs Core2_Proofs Alpha8 Spec_Matrix Spec_Conv Spec_Calc Spec_Round Spec_Formula Spec_Sum
  Conv_Proofs Conv2_Proofs Conv3_Proofs HueR_Proofs Round_Proofs Calc_Proofs Calc2_Proofs Blend3_Proofs Sum_Proofs Sum2_Proofs.
Import ListNotations.
Local Open Scope monad_scope.

Lemma add_through o X p1 p2 w1 w2 ia (h : heap f32) : adding_type X <> X -> in_interval 0 1 w1 -> in_interval 0 1 w2 ->
  @typed_add f32 (F32 o) X p1 p2 w1 w2 ia h =
  (a <- @to_type f32 (F32 o) (adding_type X) p1 ;; b <- @to_type f32 (F32 o) (adding_type X) p2 ;;
   q <- @typed_add f32 (F32 o) (adding_type X) a b w1 w2 ia ;; @to_type f32 (F32 o) X q) h.
Proof.
  intros N B1 B2. pose proof (proj1 (weight_ok o w1 B1)) as K1. pose proof (proj1 (weight_ok o w2 B2)) as K2.
  destruct X; cbn [adding_type] in *; try congruence; cbn [typed_add];
    unfold add_hsi, add_hsl, add_hcy, add_lab, add_lch_ab, add_lch_uv, check2; rewrite K1, K2; unfold both, bind; cbn [to_type];
    repeat match goal with |- context [match ?m h with _ => _ end] => destruct (m h) as [[] ?] end; try reflexivity;
    match goal with |- context [match ?m ?g with _ => _ end] => destruct (m g) as [[] ?] end; reflexivity.
Qed.
Lemma subtract_through o X p1 p2 w ia (h : heap f32) : adding_type X <> X -> in_interval 0 1 w ->
  @typed_subtract f32 (F32 o) X p1 p2 w ia h =
  (a <- @to_type f32 (F32 o) (adding_type X) p1 ;; b <- @to_type f32 (F32 o) (adding_type X) p2 ;;
   q <- @typed_subtract f32 (F32 o) (adding_type X) a b w false ;; @to_type f32 (F32 o) X q) h.
Proof.
  intros N B1. pose proof (proj1 (weight_ok o w B1)) as K1.
  destruct X; cbn [adding_type] in *; try congruence; cbn [typed_subtract];
    unfold subtract_hsi, subtract_hsl, subtract_hcy, subtract_lab, subtract_lch_ab, subtract_lch_uv, check1; rewrite K1; unfold both, bind; cbn [to_type];
    repeat match goal with |- context [match ?m h with _ => _ end] => destruct (m h) as [[] ?] end; try reflexivity;
    match goal with |- context [match ?m ?g with _ => _ end] => destruct (m g) as [[] ?] end; reflexivity.
Qed.
Local Open Scope R_scope.

Lemma two_deep r g b a r' g' b' a' : 0 <= r <= 1 -> 0 <= g <= 1 -> 0 <= b <= 1 -> 0 <= r' <= 1 -> 0 <= g' <= 1 -> 0 <= b' <= 1 ->
  exists (h : heap R) c1 c2, at_addr h 0%nat c1 /\ at_addr h 1%nat c2 /\ wf_color RGB_DEEP c1 /\ wf_color RGB_DEEP c2 /\
    comps c1 = [r; g; b] /\ comps c2 = [r'; g'; b'] /\ m_alpha c1 = a /\ m_alpha c2 = a' /\ rgb_space c1 = rgb_space c2.
Proof.
  intros. destruct (rgb_deepcolor_made (AF := RArith) (AL := RLaws) r g b a None) as [c1 [E1 [W1 [A1 S1]]]].
  destruct (rgb_deepcolor_made (AF := RArith) (AL := RLaws) r' g' b' a' None) as [c2 [E2 [W2 [A2 S2]]]].
  rewrite rgb_deepcolor_nf in E1, E2. apply Ok_inv in E1. apply Ok_inv in E2.
  exists (Heap [c1; c2] []), c1, c2. split; [reflexivity|]. split; [reflexivity|]. split; [exact W1|]. split; [exact W2|].
  split; [rewrite <- E1; cbn [comps]; rewrite !c01R by lra; reflexivity|]. split; [rewrite <- E2; cbn [comps]; rewrite !c01R by lra; reflexivity|].
  split; [exact A1|]. split; [exact A2|]. congruence.
Qed.
Lemma two_hsv : exists (h : heap R) c1 c2, at_addr h 0%nat c1 /\ at_addr h 1%nat c2 /\ wf_color HSV c1 /\ wf_color HSV c2 /\
  comps c1 = [360 - 10; 1; 1] /\ comps c2 = [10; 1; 1].
Proof.
  destruct half_mix_hsv as [h [c1 [c2 [H1 [H2 [W1 [W2 [C1 [C2 _]]]]]]]]]. exists h, c1, c2. repeat (split; try assumption). rewrite C1. f_equal. lra.
Qed.

Lemma dissolve_wrong : exists (h : heap R) c1 c2, at_addr h 0%nat c1 /\ at_addr h 1%nat c2 /\ wf_color RGB_DEEP c1 /\ wf_color RGB_TRUE c2 /\
  rgb_space c1 = rgb_space c2 /\ comps c1 = [0; 0; 0] /\ comps c2 = [255; 255; 255] /\ m_alpha c1 = 1 /\ m_alpha c2 = 1 / 2 /\
  returns (blend_dissolve (fun _ => 50%Z) (Some 0%nat) (Some 1%nat) false false) h (fun r => comps r = [1; 1; 1]).
Proof.
  destruct (rgb_deepcolor_made (AF := RArith) (AL := RLaws) 0 0 0 1 None) as [c1 [E1 [W1 [A1 S1]]]].
  destruct (rgb_truecolor_made (AF := RArith) (AL := RLaws) 255 255 255 (255 / 2) None) as [c2 [E2 [W2 [A2 S2]]]].
  rewrite rgb_deepcolor_nf in E1. rewrite rgb_truecolor_nf in E2. apply Ok_inv in E1. apply Ok_inv in E2.
  assert (C1 : comps c1 = [0; 0; 0]) by (rewrite <- E1; cbn [comps]; rewrite !c01R by lra; reflexivity).
  assert (C2 : comps c2 = [255; 255; 255]) by (rewrite <- E2; cbn [comps]; rewrite !c255R by lra; reflexivity).
  assert (B2 : m_alpha c2 = 1 / 2) by (rewrite <- E2; cbn [m_alpha]; rn; rewrite c01R by lra; lra).
  clear E1 E2. set (h := Heap [c1; c2] []).
  exists h, c1, c2. split; [reflexivity|]. split; [reflexivity|]. split; [exact W1|]. split; [exact W2|]. split; [congruence|].
  split; [exact C1|]. split; [exact C2|]. split; [exact A1|]. split; [exact B2|].
  apply (returns_impl _ _ _ _ (dissolve_mixed (fun _ => 50%Z) false false h 0%nat c1 1%nat c2 255 255 255 ltac:(lia) eq_refl eq_refl W1 W2 C2
    ltac:(lra) ltac:(lra) ltac:(congruence))).
  cbv zeta. intros r [_ [L [A C]]]. rewrite A1, B2 in A, C. rewrite C1, C2 in C. apply comps_ext; [exact L|reflexivity|].
  intros i v w Ev Ew. pose proof (nth_lt _ _ _ Ev) as Li. rewrite L in Li.
  assert (Hs : nth_error [0; 0; 0] i = Some 0) by (destruct i as [|[|[|i]]]; [reflexivity|reflexivity|reflexivity|lia]).
  assert (Hd : nth_error [255; 255; 255] i = Some 255) by (destruct i as [|[|[|i]]]; [reflexivity|reflexivity|reflexivity|lia]).
  assert (Hw : w = 1) by (destruct i as [|[|[|i]]]; cbn [nth_error] in Ew; [congruence|congruence|congruence|lia]).
  specialize (C i 0 255 v Hs Hd Ev). rewrite A in C. lra.
Qed.
