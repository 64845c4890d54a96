(** * 8-bit colours in binary32: examples and broken greys (C159, C161) *)
From Coq Require Import ZArith QArith Reals Lra Lia List Bool.
From Flocq Require Import Core IEEE754.BinarySingleNaN.
From Verif Require Import Arith Outcome ColorModel GammaModel MatrixModel SpaceModel Heap Converter Calculation Blend F32 F32Facts RArith
  Spec Spec32 Laws NormalForms Alpha8 Core_Proofs Core2_Proofs Core3_Proofs Core4_Proofs Hue32 Spec_Matrix Spec_Conv Spec_Calc Spec_Blend Spec_Round
  Conv_Proofs Conv2_Proofs Conv3_Proofs Run_Proofs Round_Proofs Round2_Proofs Error_Proofs Error2_Proofs Error4_Proofs Error5_Proofs Error7_Proofs Error8_Proofs Spec_Error
  Linear2_Proofs Curve_Proofs Spec_Byte.
Import ListNotations.
Local Open Scope R_scope.

Lemma opaque_exists o r g b : is_byte r -> is_byte g -> is_byte b -> exists c, @wf_color f32 (F32 o) RGB_TRUE c /\ has_bytes r g b c /\ is_value (@alpha f32 (F32 o) c) 255.
Proof.
  intros Hr Hg Hb. destruct (bytes_exist o r g b 255 Hr Hg Hb ltac:(unfold is_byte; lia)) as [h [c [_ [W [HB Ca]]]]]. exists c. auto.
Qed.
(** The space pointer of a colour does not matter for any of this. *)
Definition detached (c : color f32) : color f32 := Color (cls c) (ty c) (comps c) (m_alpha c) (m_max c) (m_min c) None.
Lemma two_exist o r1 g1 b1 r2 g2 b2 : is_byte r1 -> is_byte g1 -> is_byte b1 -> is_byte r2 -> is_byte g2 -> is_byte b2 ->
  exists (h : heap f32) c1 c2, at_addr h 0%nat c1 /\ at_addr h 1%nat c2 /\ @wf_color f32 (F32 o) RGB_TRUE c1 /\ @wf_color f32 (F32 o) RGB_TRUE c2 /\ rgb_space c1 = rgb_space c2 /\
  has_bytes r1 g1 b1 c1 /\ is_value (@alpha f32 (F32 o) c1) 255 /\ has_bytes r2 g2 b2 c2 /\ is_value (@alpha f32 (F32 o) c2) 255.
Proof.
  intros Hr1 Hg1 Hb1 Hr2 Hg2 Hb2. destruct (opaque_exists o r1 g1 b1 Hr1 Hg1 Hb1) as [c1 [W1 [B1 A1]]]. destruct (opaque_exists o r2 g2 b2 Hr2 Hg2 Hb2) as [c2 [W2 [B2 A2]]].
  exists (Heap [detached c1; detached c2] []), (detached c1), (detached c2). split; [reflexivity|]. split; [reflexivity|].
  split; [destruct W1; constructor; assumption|]. split; [destruct W2; constructor; assumption|]. split; [reflexivity|]. auto.
Qed.
Lemma multiply_100_200 : exact_function Multiply = Some Rmult /\ forall x, nearest_byte (blended_byte Rmult 100 200) x -> is_value x 78.
Proof.
  split; [reflexivity|]. intros x [n [Hn [V D]]]. unfold blended_byte in D. rewrite Rmin_right, Rmax_right in D by lra. apply Rabs_le_inv in D.
  assert (n = 78)%Z as ->; [|exact V]. assert (77 < n < 79)%Z; [|lia]. split; apply lt_IZR; lra.
Qed.

Lemma rgb_broken o (h : heap f32) p c : at_addr h p c -> @wf_color f32 (F32 o) GREY_TRUE c -> comp_sat c 0 broken ->
  returns (@to_rgb_true f32 (F32 o) (Some p)) h (fun d => ty d = RGB_TRUE /\ comp_sat d 0 broken /\ comp_sat d 1 broken /\ comp_sat d 2 broken).
Proof.
  intros Hp W [x [Ex Bx]]. pose proof (wf_len _ _ W) as L. destruct (comps c) as [|x' [|? ?]] eqn:Ec; try discriminate L. cbn [nth_error] in Ex. injection Ex as ->.
  assert (E4 : exists v, @grey_true_to_rgb_true_f f32 (F32 o) c = Ok v /\ ty v = RGB_TRUE /\ comps v = [@c255 f32 (F32 o) x; @c255 f32 (F32 o) x; @c255 f32 (F32 o) x]).
  { unfold grey_true_to_rgb_true_f, with1. rewrite Ec. eexists. repeat split; reflexivity. }
  destruct E4 as [v [E4 [T C]]].
  assert (D1 : dispatches (@to_rgb_true f32 (F32 o)) GREY_TRUE (leaf GREY_TRUE (@grey_true_to_rgb_true_f f32 (F32 o)))) by disp.
  do 3 eexists. split; [rewrite (D1 h p c Hp (wf_ty _ _ W)); exact (leaf_run GREY_TRUE _ h p c v Hp W E4)|]. split; [apply at_new|].
  assert (K : nth_error (comps c) 0 = Some x) by (rewrite Ec; reflexivity).
  assert (H : @Spec.within f32 (F32 o) 0 255 x) by exact (wf_range _ _ W 0%nat x K). apply within32 in H; [|sm|sm]. destruct H as [Fx Rx].
  destruct (clamp_val o x 0 255) as [Fc Vc]; try sm; [lia|exact Fx|]. rewrite Rmin_left, Rmax_left in Vc by lra.
  assert (Bc : broken (@c255 f32 (F32 o) x)). { split; [exact Fc|]. intros n E. apply (proj2 Bx n). rewrite <- E. symmetry. exact Vc. }
  split; [exact T|]. unfold comp_sat. rewrite C. cbn [nth_error]. repeat split; (eexists; split; [reflexivity|exact Bc]).
Qed.
