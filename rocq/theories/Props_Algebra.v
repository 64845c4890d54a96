(** * Properties C187 - C191: laws of compositing, blending, colour differences and adaptation *)
From Coq Require Import ZArith QArith Reals Lra Lia List Bool.
From Flocq Require Import Core IEEE754.BinarySingleNaN.
From Verif Require Import Arith Outcome ColorModel SpaceModel Heap Converter Blend Distance Adapt F32 RArith Spec Spec32 Spec_Conv Spec_Calc Spec_Blend Spec_Distance Spec_Adapt Spec_Algebra.
From Verif Require Import BlendHcy_Proofs Assoc_Proofs Mirror2_Proofs Mirror3_Proofs Compare_Proofs Adapt4_Proofs Chain_Proofs.
Import ListNotations.
Local Open Scope R_scope.

(** [composite p], [blend m]: the functions of the classes porter_duff and color_blend;
    [associative p]: clear, source, destination, over and in, and their duals;
    [mirror m]: the mode that does the same with the layers exchanged. *)

(** C187: three layers *)
Theorem C187_associative : forall p (h : heap R) p1 c1 p2 c2 p3 c3, associative p = true ->
  at_addr h p1 c1 -> at_addr h p2 c2 -> at_addr h p3 c3 ->
  wf_color RGB_DEEP c1 -> wf_color RGB_DEEP c2 -> wf_color RGB_DEEP c3 ->
  0 <= alpha c1 <= 1 -> 0 <= alpha c2 <= 1 -> 0 <= alpha c3 <= 1 ->
  rgb_space c1 = rgb_space c2 -> rgb_space c2 = rgb_space c3 ->
  returns (bind (composite p (Some p1) (Some p2)) (fun q => composite p q (Some p3))) h (fun r =>
    returns (bind (composite p (Some p2) (Some p3)) (fun q => composite p (Some p1) q)) h (fun r' =>
      comps r = comps r' /\ alpha r = alpha r')).
Proof. exact pd_associative. Qed.
Print Assumptions C187_associative.
Theorem C187_others : forall p, associative p = false -> exists (h : heap R) c1 c2 c3,
  at_addr h 0%nat c1 /\ at_addr h 1%nat c2 /\ at_addr h 2%nat c3 /\
  wf_color RGB_DEEP c1 /\ wf_color RGB_DEEP c2 /\ wf_color RGB_DEEP c3 /\ alpha c1 = 1 / 2 /\ alpha c2 = 1 / 2 /\ alpha c3 = 1 / 2 /\
  rgb_space c1 = rgb_space c2 /\ rgb_space c2 = rgb_space c3 /\
  returns (bind (composite p (Some 0%nat) (Some 1%nat)) (fun q => composite p q (Some 2%nat))) h (fun r =>
    returns (bind (composite p (Some 1%nat) (Some 2%nat)) (fun q => composite p (Some 0%nat) q)) h (fun r' =>
      comps r <> comps r' \/ alpha r <> alpha r')).
Proof. exact pd_not_associative. Qed.
Print Assumptions C187_others.
Theorem C187_transparent : forall p (h : heap R) p1 c1 p2 c2, In p [Over; DestOver; Xor] ->
  at_addr h p1 c1 -> at_addr h p2 c2 -> wf_color RGB_DEEP c1 -> wf_color RGB_DEEP c2 ->
  alpha c1 = 0 -> 0 < alpha c2 <= 1 -> rgb_space c1 = rgb_space c2 ->
  returns (composite p (Some p1) (Some p2)) h (fun r => comps r = comps c2 /\ alpha r = alpha c2) /\
  returns (composite p (Some p2) (Some p1)) h (fun r => comps r = comps c2 /\ alpha r = alpha c2).
Proof. exact pd_transparent. Qed.
Print Assumptions C187_transparent.
Theorem C187_over_itself : forall (h : heap R) p1 c1, at_addr h p1 c1 -> wf_color RGB_DEEP c1 -> 0 < alpha c1 <= 1 ->
  returns (over (Some p1) (Some p1)) h (fun r => comps r = comps c1 /\ alpha r = 1 - (1 - alpha c1) * (1 - alpha c1)).
Proof. exact over_self. Qed.
Print Assumptions C187_over_itself.
(** Three different half transparent layers. *)
Example C187_example : exists (h : heap R) c1 c2 c3, at_addr h 0%nat c1 /\ at_addr h 1%nat c2 /\ at_addr h 2%nat c3 /\
  wf_color RGB_DEEP c1 /\ wf_color RGB_DEEP c2 /\ wf_color RGB_DEEP c3 /\ alpha c1 = 1 / 2 /\ alpha c2 = 1 / 2 /\ alpha c3 = 1 / 2 /\
  rgb_space c1 = rgb_space c2 /\ rgb_space c2 = rgb_space c3 /\ comps c1 = [1 / 4; 1 / 4; 1 / 4] /\ comps c2 = [1; 1; 1] /\ comps c3 = [0; 0; 0].
Proof. exact (pd_layers (1 / 4) 1 0 ltac:(lra) ltac:(lra) ltac:(lra)). Qed.

(** C188: exchanging the layers *)
Theorem C188_exact : forall m m' us ud (h : heap R) p1 c1 p2 c2, mirror m = Some m' -> at_addr h p1 c1 -> at_addr h p2 c2 ->
  wf_color RGB_DEEP c1 -> wf_color RGB_DEEP c2 -> rgb_space c1 = rgb_space c2 ->
  returns (blend m (Some p1) (Some p2) us ud) h (fun r =>
    returns (blend m' (Some p2) (Some p1) ud us) h (fun r' => comps r = comps r' /\ m_alpha r = m_alpha r')).
Proof. exact swap_exact. Qed.
Print Assumptions C188_exact.
Theorem C188_binary32 : forall o m m' us ud (h : heap f32) p1 (c1 : color f32) p2 c2, mirror m = Some m' -> thresholds m = false ->
  (chooses m = true -> no_negative_zero c1 /\ no_negative_zero c2) -> at_addr h p1 c1 -> at_addr h p2 c2 ->
  @wf_color f32 (F32 o) RGB_DEEP c1 -> @wf_color f32 (F32 o) RGB_DEEP c2 -> rgb_space c1 = rgb_space c2 ->
  returns (@blend f32 (F32 o) m (Some p1) (Some p2) us ud) h (fun r =>
    returns (@blend f32 (F32 o) m' (Some p2) (Some p1) ud us) h (fun r' => comps r = comps r' /\ m_alpha r = m_alpha r')).
Proof. exact swap32. Qed.
Print Assumptions C188_binary32.
Theorem C188_dual_binary32 : forall o p (h : heap f32) p1 c1 p2 c2, at_addr h p1 c1 -> at_addr h p2 c2 ->
  @wf_color f32 (F32 o) RGB_DEEP c1 -> @wf_color f32 (F32 o) RGB_DEEP c2 -> rgb_space c1 = rgb_space c2 ->
  returns (@composite f32 (F32 o) (dual p) (Some p1) (Some p2)) h (fun r =>
    returns (@composite f32 (F32 o) p (Some p2) (Some p1)) h (fun r' => comps r = comps r' /\ m_alpha r = m_alpha r')).
Proof. exact dual32. Qed.
Print Assumptions C188_dual_binary32.
Example C188_example : mirror (F := R) Overlay = Some HardLight /\ mirror (F := f32) Multiply = Some Multiply /\ thresholds (F := f32) Multiply = false /\
  dual Over = DestOver /\ exists (h : heap R) c1 c2, at_addr h 0%nat c1 /\ at_addr h 1%nat c2 /\ wf_color RGB_DEEP c1 /\ wf_color RGB_DEEP c2 /\
  alpha c1 = 1 /\ alpha c2 = 1 / 2 /\ rgb_space c1 = rgb_space c2 /\ comps c1 <> comps c2.
Proof. exact (conj eq_refl (conj eq_refl (conj eq_refl (conj eq_refl blend_exampleR)))). Qed.

(** C189: two opaque colours, black in one order and white in the other *)
Theorem C189_hard_mix_refuted : forall o, exists (h : heap f32) c1 c2, at_addr h 0%nat c1 /\ at_addr h 1%nat c2 /\
  @wf_color f32 (F32 o) RGB_DEEP c1 /\ @wf_color f32 (F32 o) RGB_DEEP c2 /\ is_value (m_alpha c1) 1 /\ is_value (m_alpha c2) 1 /\
  rgb_space c1 = rgb_space c2 /\ forall us ud,
  returns (@blend f32 (F32 o) HardMix (Some 0%nat) (Some 1%nat) us ud) h (fun r => forall i, (i < 3)%nat -> comp_sat r i (fun v => is_value v 0)) /\
  returns (@blend f32 (F32 o) HardMix (Some 1%nat) (Some 0%nat) us ud) h (fun r => forall i, (i < 3)%nat -> comp_sat r i (fun v => is_value v 1)).
Proof. exact hard_mix_asymmetric. Qed.
Print Assumptions C189_hard_mix_refuted.

(** C190: the colours are of any types *)
Theorem C190_94_below_76 : forall kL k1 k2 kC kH X1 X2 (h : heap R) p1 c1 p2 c2, 1 <= kL -> 0 <= k1 -> 0 <= k2 -> 1 <= kC -> 1 <= kH ->
  at_addr h p1 c1 -> at_addr h p2 c2 -> wf_color X1 c1 -> wf_color X2 c2 ->
  (needs_space X1 LAB = true -> has_space h c1) -> (needs_space X2 LAB = true -> has_space h c2) ->
  exists x y h', distance (Cie94 kL k1 k2 kC kH) (Some p1) (Some p2) h = (Ok x, h') /\ distance Cie76 (Some p1) (Some p2) h = (Ok y, h') /\
    0 <= x <= y /\ y <= Rmax kL (Rmax (kC * (1 + 182 * k1)) (kH * (1 + 182 * k2))) * x.
Proof. exact compare_94_76. Qed.
Print Assumptions C190_94_below_76.
Theorem C190_grey_reference : forall k1 k2 (h : heap R) p1 c1 p2 c2 l, 0 <= k1 -> 0 <= k2 ->
  at_addr h p1 c1 -> at_addr h p2 c2 -> wf_color LAB c1 -> wf_color LAB c2 -> has_space h c1 -> has_space h c2 -> comps c1 = [l; 0; 0] ->
  exists x, distance (Cie94 1 k1 k2 1 1) (Some p1) (Some p2) h = (Ok x, h) /\ distance Cie76 (Some p1) (Some p2) h = (Ok x, h).
Proof. exact grey_reference. Qed.
Print Assumptions C190_grey_reference.
(** Colours: [C72_example_lab]; the default parameters of the graphic arts: *)
Example C190_example : (1 <= 1 /\ 0 <= 45 / 1000 /\ 0 <= 15 / 1000) /\ Rmax 1 (Rmax (1 * (1 + 182 * (45 / 1000))) (1 * (1 + 182 * (15 / 1000)))) = 9.19.
Proof. unfold Rmax. destruct (Rle_dec _ _) as [A|A]; destruct (Rle_dec _ _) as [B|B]; lra. Qed.

(** C191: [adapted m w0 w v]: the von Kries transform from white [w0] to white [w];
    [gains m w0 w k]: its factors are at most [k] *)
Theorem C191_chain : forall m (h : heap R) p c s a w0 b w d w1 v B k1 k2, simplified m = true -> at_addr h p c -> wf_color XYZ c -> has_white h c s a w0 -> a <> b -> b <> d ->
  comps_are c v -> bounded3 B v -> nonzero3 (responses m w) -> gains m w0 w k1 -> gains m w w1 k2 -> bounded3 100 (adapted m w0 w v) ->
  returns (bind (adaptation m (Some p) (Some (b, w))) (fun q => adaptation m q (Some (d, w1)))) h (fun r =>
    comps_near (100 / 1000000 * (k1 * k2 * B)) r (clamp100 (adapted m w0 w1 v))).
Proof. exact adapt_chain. Qed.
Print Assumptions C191_chain.
Theorem C191_back : forall m (h : heap R) p c s a w0 b w v B k1 k2, simplified m = true -> at_addr h p c -> wf_color XYZ c -> has_white h c s a w0 -> a <> b ->
  comps_are c v -> bounded3 B v -> B <= 100 -> nonzero3 (responses m w0) -> nonzero3 (responses m w) -> gains m w0 w k1 -> gains m w w0 k2 -> bounded3 100 (adapted m w0 w v) ->
  returns (bind (adaptation m (Some p) (Some (b, w))) (fun q => adaptation m q (Some (a, w0)))) h (fun r =>
    comps_near ((15 + 100 * k1 * k2) / 1000000 * B) r v).
Proof. exact adapt_back. Qed.
Print Assumptions C191_back.
Theorem C191_scaling_back : forall (h : heap R) p c s a w0 b w v, at_addr h p c -> wf_color XYZ c -> has_white h c s a w0 -> a <> b ->
  comps_are c v -> nonzero3 (white_vec w0) -> nonzero3 (white_vec w) -> bounded3 100 (mul3 v (div3 (white_vec w) (white_vec w0))) ->
  returns (bind (adaptation XyzScale (Some p) (Some (b, w))) (fun q => adaptation XyzScale q (Some (a, w0)))) h (fun r => comps r = comps c).
Proof. exact scale_back. Qed.
Print Assumptions C191_scaling_back.
(** Bradford from D65 to D50 and back; colour: [C113_example] *)
Example C191_example : nonzero3 (responses BradfordSimplified wp_D65_2Degree) /\ nonzero3 (responses BradfordSimplified wp_D50_2Degree) /\
  gains BradfordSimplified wp_D65_2Degree wp_D50_2Degree 2 /\ gains BradfordSimplified wp_D50_2Degree wp_D65_2Degree 2 /\
  bounded3 100 (adapted BradfordSimplified wp_D65_2Degree wp_D50_2Degree (30, 40, 20)).
Proof. exact chain_example. Qed.
