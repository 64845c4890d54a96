(** * chromatic_adaptation: colours of any type are adapted through XYZ *)
From Coq Require Import ZArith QArith Reals Lra Lia List Bool.
From Flocq Require Import Core IEEE754.BinarySingleNaN.
From Verif Require Import Arith Outcome ColorModel GammaModel MatrixModel SpaceModel Heap Converter Calculation Adapt
  Spec F32 RArith F32Facts Spec32 Laws NormalForms History Core_Proofs Core2_Proofs Core3_Proofs Core4_Proofs Convert_Proofs Alpha8
  Spec_Matrix Spec_Conv Spec_Calc Spec_Blend Spec_Adapt
  Conv_Proofs Conv2_Proofs Conv3_Proofs Total_Proofs Calc_Proofs Blend_Proofs Run_Proofs Distance_Proofs Adapt_Proofs Adapt4_Proofs.
Import ListNotations.
Local Open Scope monad_scope.

Section Via.
Context {F : Type} {AF : Arith F} {AL : ArithLaws F} {A8 : Alpha8Laws F}.

Lemma method_ignores (m : method F) w0 w (x c d : color F) : second_component m = false -> method_f m w0 w x c = method_f m w0 w x d.
Proof. destruct m; intros E; try discriminate E; reflexivity. Qed.

Lemma adapt_via m X (h : heap F) p c s a w0 b w : at_addr h p c -> wf_color X c -> convertible X = true -> has_white h c s a w0 -> a <> b ->
  second_component m = false ->
  adaptation m (Some p) (Some (b, w)) h = (t <- to_xyz (Some p) ;; k <- adaptation m t (Some (b, w)) ;; to_type X k) h.
Proof.
  intros Hp W Cv HW N G. rewrite adaptation_eq.
  destruct (adapt_prefix (method_f m) X h p c s a w0 b w Hp W HW N) as [t [x [h1 [c1 [E [Ht [Wx [Hp1 [Wc1 [Al [Sc1 [I [Pu [O [L [RA Run]]]]]]]]]]]]]]]].
  rewrite Run. clear Run. unfold bind at 1. rewrite E. destruct HW as [i [Sc [Hs [U Wh]]]].
  assert (Sp : has_space h c) by (exists i, s; auto).
  assert (Sx : rgb_space x = rgb_space c).
  { destruct (to_step X XYZ h p c ltac:(discriminate) Hp W (fun _ => Sp)) as [q [r [h' [E' [Hq [Wr [Sr _]]]]]]].
    change (to_type XYZ (Some p) h) with (to_xyz (Some p) h) in E'. rewrite E in E'. injection E' as <- <-. unfold at_addr in *. congruence. }
  assert (HWx : has_white h1 x s a w0).
  { exists i. rewrite Sx, (proj1 O). auto. }
  destruct (adapt_prefix (method_f m) XYZ h1 t x s a w0 b w Ht Wx HWx N) as [t2 [x2 [h2 [c2 [E2 [Ht2 [Wx2 [Hp2 [Wc2 [_ [_ [I2 [Pu2 [_ [_ [_ Run2]]]]]]]]]]]]]]]].
  pose proof (to_type_same XYZ h1 t x Ht Wx) as Same. change (to_type XYZ (Some t) h1) with (to_xyz (Some t) h1) in Same.
  rewrite Same in E2. injection E2 as <- <-.
  destruct (Pu2 ltac:(discriminate)) as [-> _]. rewrite (I2 eq_refl) in Run2.
  unfold bind at 1. rewrite adaptation_eq, Run2. clear Run2. rewrite (method_ignores m w0 w x c1 x G).
  destruct (method_f m w0 w x x) as [[[u0 u1] u2]| | |]; [|reflexivity..].
  destruct (set_white_point s (Some (b, w))) as [s'| | |]; [|reflexivity..]. cbv zeta. rewrite (proj1 O).
  match goal with |- context [convertTo (Some ?k) XYZ ?hh] => pose proof (to_type_same XYZ hh k _ (at_new _ _ _) (xyz_wf_color u0 u1 u2 _ _)) as Id end.
  rewrite (convertTo_type XYZ eq_refl), Id, (convertTo_type X Cv). reflexivity.
Qed.
End Via.

Lemma adaptation_via o (m : method f32) X (h : heap f32) p c s a w0 b w : at_addr h p c -> @reachable f32 (F32 o) c -> cls c = X -> convertible X = true ->
  has_white h c s a w0 -> a <> b -> second_component m = false ->
  @adaptation f32 (F32 o) m (Some p) (Some (b, w)) h =
    (t <- @to_xyz f32 (F32 o) (Some p) ;; k <- @adaptation f32 (F32 o) m t (Some (b, w)) ;; @to_type f32 (F32 o) X k) h.
Proof.
  intros Hp Rc Cx Cv HW N G. pose proof (reachable_wf o c Rc) as W. rewrite Cx in W.
  exact (adapt_via (AF := F32 o) m X h p c s a w0 b w Hp W Cv HW N G).
Qed.
Lemma adaptation_via_exact (m : method R) X (h : heap R) p c s a w0 b w : at_addr h p c -> wf_color X c -> convertible X = true ->
  has_white h c s a w0 -> a <> b -> second_component m = false ->
  adaptation m (Some p) (Some (b, w)) h = (t <- to_xyz (Some p) ;; k <- adaptation m t (Some (b, w)) ;; to_type X k) h.
Proof. exact (adapt_via m X h p c s a w0 b w). Qed.
Lemma via_example : forall o, exists (h : heap f32) c s, at_addr h 0%nat c /\ @reachable f32 (F32 o) c /\ cls c = RGB_TRUE /\ convertible RGB_TRUE = true /\
  has_white h c s 0%nat (@wp_D65_2Degree f32 (F32 o)) /\ @second_component f32 Cat02Simplified = false /\
  comps c = map (fun n => clamp (AF := F32 o) (@fz f32 (F32 o) n) (@fz f32 (F32 o) 255) (@fz f32 (F32 o) 0)) [200; 100; 50]%Z.
Proof.
  intros o. destruct (adapt_example32 o RGB_TRUE 200 100 50 (or_intror eq_refl)) as [h [c [s [A [R [C [W [_ D]]]]]]]].
  exists h, c, s. do 3 (split; [assumption|]). split; [reflexivity|]. split; [exact W|]. split; [reflexivity|]. exact D.
Qed.
