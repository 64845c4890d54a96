(** * Property C202: the objects left behind by the other operations *)
From Coq Require Import ZArith QArith Reals List Bool Arith.
From Flocq Require Import IEEE754.BinarySingleNaN.
From Verif Require Import Arith Outcome ColorModel Heap Converter Blend Adjust Combine Adapt F32
  Spec Spec32 History Spec_Conv Spec_Calc Spec_Blend Spec_Adjust Spec_Combine Spec_Adapt Spec_Leak.
From Verif Require Import Run_Proofs Leak2_Proofs.
Import ListNotations.
Local Open Scope nat_scope.

(** C202: the number of new colour objects, the result included.  Adjustments: *)
Theorem C202_adjustments : forall o a pc (h : heap f32) X p c, at_addr h p c -> @wf_color f32 (F32 o) X c -> convertible X = true ->
  (cie X = true -> has_space h c) -> (in_hsl a = true -> ~ is_value pc 0) ->
  exists q h', @adjust f32 (F32 o) a (Some p) pc h = (Ok (Some q), h') /\
    grows_by (if in_hsl a then chain X HSL + chain HSL X else chain X RGB_DEEP + 1 + chain RGB_DEEP X) h h'.
Proof. exact adjust_leak. Qed.
Print Assumptions C202_adjustments.
(** the twelve Porter-Duff operators and the blend modes by channel *)
Theorem C202_blending : forall o op (h : heap f32) X1 X2 p1 c1 p2 c2 us ud, at_addr h p1 c1 -> at_addr h p2 c2 ->
  @wf_color f32 (F32 o) X1 c1 -> @wf_color f32 (F32 o) X2 c2 ->
  rgb_space c1 = rgb_space c2 -> (cie X1 || cie X2 = true -> has_space h c1) -> convertible X1 = true ->
  (exists q h', @composite f32 (F32 o) op (Some p1) (Some p2) h = (Ok (Some q), h') /\ grows_by (chain X1 RGB_DEEP + chain X2 RGB_DEEP + 1 + chain RGB_DEEP X1) h h') /\
  forall m, exists q h', @blend f32 (F32 o) m (Some p1) (Some p2) us ud h = (Ok (Some q), h') /\ grows_by (chain X1 RGB_DEEP + chain X2 RGB_DEEP + 1 + chain RGB_DEEP X1) h h'.
Proof. exact composite_leak. Qed.
Print Assumptions C202_blending.
(** the blend modes by hue, chroma and luma *)
Theorem C202_hcy : forall o m us ud (h : heap f32) X1 X2 p1 c1 p2 c2, at_addr h p1 c1 -> at_addr h p2 c2 ->
  @wf_color f32 (F32 o) X1 c1 -> @wf_color f32 (F32 o) X2 c2 ->
  (cie X1 = true -> has_space h c1) -> (cie X2 = true -> has_space h c2) -> convertible X1 = true ->
  exists q h', @blend_hcy f32 (F32 o) m (Some p1) (Some p2) us ud h = (Ok (Some q), h') /\ grows_by (chain X1 HCY + chain X2 HCY + 1 + chain HCY X1) h h'.
Proof. exact hcy_leak. Qed.
Print Assumptions C202_hcy.
(** a combination of n colours, of which n - 1 are new *)
Theorem C202_combination : forall o n (h : heap f32) X p c, (2 <= n <= 360)%Z -> at_addr h p c -> @wf_color f32 (F32 o) X c -> convertible X = true ->
  (cie X = true -> has_space h c) ->
  exists qs h', @create_combination f32 (F32 o) (Some p) n h = (Ok (Some p :: map Some qs), h') /\ length qs = Z.to_nat (n - 1) /\
    grows_by (chain X HSL + length qs * (1 + chain HSL X)) h h'.
Proof. exact combination_leak. Qed.
Print Assumptions C202_combination.
Theorem C202_analogous : forall o w (h : heap f32) X p c, ~ is_value w 0 -> ~ above 120 w -> at_addr h p c -> @wf_color f32 (F32 o) X c -> convertible X = true ->
  (cie X = true -> has_space h c) ->
  exists q1 q2 h', @create_analogous f32 (F32 o) (Some p) w h = (Ok [Some q1; Some p; Some q2], h') /\ grows_by (chain X HSL + 2 * (1 + chain HSL X)) h h'.
Proof. exact analogous_leak. Qed.
Print Assumptions C202_analogous.
(** an adaptation to another white point, which also creates a space definition *)
Theorem C202_adaptation : forall o (m : method f32) X (h : heap f32) p c s a w0 b w, at_addr h p c -> @wf_color f32 (F32 o) X c -> convertible X = true ->
  has_white h c s a w0 -> a <> b -> second_component m && grey X = false ->
  exists q h', @adaptation f32 (F32 o) m (Some p) (Some (b, w)) h = (Ok (Some q), h') /\ grows_by (chain X XYZ + 1 + chain XYZ X) h h' /\
    length (spaces h') = S (length (spaces h)).
Proof. exact adaptation_leak. Qed.
Print Assumptions C202_adaptation.
(** for example five objects for one adjusted Lab colour, and 1439 for a colour wheel of 360 Lab colours *)
Example C202_numbers : chain LAB RGB_DEEP + 1 + chain RGB_DEEP LAB = 5 /\ chain LAB HSL + 359 * (1 + chain HSL LAB) = 1439 /\
  chain HSL RGB_DEEP + chain HSL RGB_DEEP + 1 + chain RGB_DEEP HSL = 4 /\ chain HSL XYZ + 1 + chain XYZ HSL = 5 /\ chain HSL HSL = 0.
Proof. repeat split. Qed.
(** colours of every type in a usable space exist *)
Example C202_example : forall o k, In k all_types -> exists (h : heap f32) p c,
  at_addr h p c /\ @reachable f32 (F32 o) c /\ cls c = k /\ has_space h c /\ in_interval 0 1 (m_alpha c) /\ ~ @black_hsl f32 (F32 o) c.
Proof. exact alpha_example. Qed.
