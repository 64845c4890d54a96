(** * C198-C200: the adjustments in binary32 *)
From Coq Require Import ZArith QArith Reals Lra Lia List Bool.
From Flocq Require Import Core IEEE754.BinarySingleNaN.
From Verif Require Import Arith Outcome ColorModel GammaModel MatrixModel SpaceModel Heap Converter Adjust F32 Spec Spec32 Spec_Conv Spec_Error Spec_Byte Spec_Order Spec_Adjust
  Spec_Calc Adjust33_Proofs Adjust34_Proofs Adjust35_Proofs.
Import ListNotations.
Local Open Scope R_scope.

(** C198: the two adjustments in RGB stay close to their formulas *)
Theorem C198_deep : forall o a p (h : heap f32) i (c : color f32) r g b, in_hsl a = false -> in_interval (-8) 8 p -> at_addr h i c -> @wf_color f32 (F32 o) RGB_DEEP c -> comps c = [r; g; b] ->
  returns (@adjust f32 (F32 o) a (Some i) p) h (fun t => ty t = RGB_DEEP /\ Forall2 (fun v x => approx v (/ 131072) x) (adjusted a (B2R p) (B2R r) (B2R g) (B2R b)) (comps t) /\
    m_alpha t = m_alpha c /\ rgb_space t = rgb_space c).
Proof. exact deep_accurate. Qed.
Print Assumptions C198_deep.
Theorem C198_bytes : forall o a p (h : heap f32) i (c : color f32) r g b n, in_hsl a = false -> in_interval (-8) 8 p -> at_addr h i c -> @wf_color f32 (F32 o) RGB_TRUE c ->
  is_byte r -> is_byte g -> is_byte b -> is_byte n -> has_bytes r g b c -> is_value (@alpha f32 (F32 o) c) (IZR n) ->
  returns (@adjust f32 (F32 o) a (Some i) p) h (fun t => ty t = RGB_TRUE /\ Forall2 (fun v x => close_byte (1 / 500) (255 * v) x) (adjusted a (B2R p) (IZR r / 255) (IZR g / 255) (IZR b / 255)) (comps t) /\
    is_value (@alpha f32 (F32 o) t) (IZR n) /\ rgb_space t = rgb_space c).
Proof. exact true_accurate. Qed.
Print Assumptions C198_bytes.
(** Percentage 0 changes nothing *)
Theorem C198_deep_zero : forall o a p (h : heap f32) i (c : color f32), in_hsl a = false -> is_value p 0 -> at_addr h i c -> @wf_color f32 (F32 o) RGB_DEEP c ->
  returns (@adjust f32 (F32 o) a (Some i) p) h (fun t => ty t = RGB_DEEP /\ same_values (comps t) (comps c) /\ m_alpha t = m_alpha c /\ rgb_space t = rgb_space c).
Proof. exact deep_zero. Qed.
Print Assumptions C198_deep_zero.
Theorem C198_bytes_zero : forall o a p (h : heap f32) i (c : color f32) r g b n, in_hsl a = false -> is_value p 0 -> at_addr h i c -> @wf_color f32 (F32 o) RGB_TRUE c ->
  is_byte r -> is_byte g -> is_byte b -> is_byte n -> has_bytes r g b c -> is_value (@alpha f32 (F32 o) c) (IZR n) ->
  returns (@adjust f32 (F32 o) a (Some i) p) h (fun t => has_bytes r g b t /\ is_value (@alpha f32 (F32 o) t) (IZR n) /\ rgb_space t = rgb_space c).
Proof. exact true_zero. Qed.
Print Assumptions C198_bytes_zero.
(** Percentage -1 of the luminance is black *)
Theorem C198_deep_black : forall o p (h : heap f32) i (c : color f32), is_value p (-1) -> at_addr h i c -> @wf_color f32 (F32 o) RGB_DEEP c ->
  returns (@adjust f32 (F32 o) LuminateRGB (Some i) p) h (fun t => ty t = RGB_DEEP /\ (forall j, (j < 3)%nat -> comp_sat t j (fun x => is_value x 0)) /\ m_alpha t = m_alpha c /\ rgb_space t = rgb_space c).
Proof. exact deep_black. Qed.
Print Assumptions C198_deep_black.
Theorem C198_bytes_black : forall o p (h : heap f32) i (c : color f32), is_value p (-1) -> at_addr h i c -> @wf_color f32 (F32 o) RGB_TRUE c ->
  returns (@adjust f32 (F32 o) LuminateRGB (Some i) p) h (fun t => has_bytes 0 0 0 t /\ rgb_space t = rgb_space c).
Proof. exact true_black. Qed.
Print Assumptions C198_bytes_black.
(** More luminance is brighter, in every channel and despite rounding *)
Theorem C198_rises : forall o p p' (h h' : heap f32) i (c : color f32) i' c', in_interval (-1) 8 p -> in_interval (-1) 8 p' -> B2R p <= B2R p' -> at_addr h i c -> at_addr h' i' c' ->
  @wf_color f32 (F32 o) RGB_DEEP c -> @wf_color f32 (F32 o) RGB_DEEP c' -> darker32 c c' ->
  returns (@adjust f32 (F32 o) LuminateRGB (Some i) p) h (fun t => returns (@adjust f32 (F32 o) LuminateRGB (Some i') p') h' (fun t' => darker32 t t')).
Proof. exact lum_rises. Qed.
Print Assumptions C198_rises.
Example C198_example : forall o, exists (h : heap f32) (c d : color f32) p, at_addr h 0%nat c /\ @wf_color f32 (F32 o) RGB_TRUE c /\ has_bytes 30 60 90 c /\ is_value (@alpha f32 (F32 o) c) (IZR 200) /\
  at_addr h 1%nat d /\ @wf_color f32 (F32 o) RGB_DEEP d /\ darker32 d d /\ is_value p (-1) /\ in_interval (-1) 8 p.
Proof. exact adjust32_things. Qed.

(** C199: taking all saturation away in HSL leaves an exact grey, the mean of the largest and smallest channel *)
Theorem C199_hsl_deep : forall o p (h : heap f32) i (c : color f32) r g b, is_value p (-1) -> at_addr h i c -> @wf_color f32 (F32 o) RGB_DEEP c -> comps c = [r; g; b] ->
  returns (@adjust f32 (F32 o) SaturateHSL (Some i) p) h (fun t => ty t = RGB_DEEP /\ rgb_space t = rgb_space c /\
    exists v, approx ((Rmax (Rmax (B2R r) (B2R g)) (B2R b) + Rmin (Rmin (B2R r) (B2R g)) (B2R b)) / 2) (/ 4194304) v /\ forall j, (j < 3)%nat -> comp_sat t j (fun x => is_value x (B2R v))).
Proof. exact desaturate_deep. Qed.
Print Assumptions C199_hsl_deep.
Theorem C199_hsl_bytes : forall o p (h : heap f32) i (c : color f32), is_value p (-1) -> at_addr h i c -> @wf_color f32 (F32 o) RGB_TRUE c ->
  returns (@adjust f32 (F32 o) SaturateHSL (Some i) p) h (fun t => ty t = RGB_TRUE /\ rgb_space t = rgb_space c /\ exists n, is_byte n /\ has_bytes n n n t).
Proof. exact desaturate_true. Qed.
Print Assumptions C199_hsl_bytes.
(** In RGB the three bytes are the rounded luma, unless the luma lies half way between two bytes *)
Theorem C199_rgb_bytes : forall o p (h : heap f32) i (c : color f32) r g b, is_value p (-1) -> at_addr h i c -> @wf_color f32 (F32 o) RGB_TRUE c -> is_byte r -> is_byte g -> is_byte b -> has_bytes r g b c ->
  ((299 * r + 587 * g + 114 * b) mod 1000 <> 500)%Z ->
  returns (@adjust f32 (F32 o) SaturateRGB (Some i) p) h (fun t => exists n, is_byte n /\ (Z.abs (1000 * n - (299 * r + 587 * g + 114 * b)) < 500)%Z /\ has_bytes n n n t).
Proof. exact desaturate8. Qed.
Print Assumptions C199_rgb_bytes.
Example C199_example : forall o, exists (h : heap f32) (c d : color f32) p, at_addr h 0%nat c /\ @wf_color f32 (F32 o) RGB_TRUE c /\ has_bytes 30 60 90 c /\ is_value (@alpha f32 (F32 o) c) (IZR 200) /\
  at_addr h 1%nat d /\ @wf_color f32 (F32 o) RGB_DEEP d /\ darker32 d d /\ is_value p (-1) /\ in_interval (-1) 8 p.
Proof. exact adjust32_things. Qed.
Example C199_example_luma : ((299 * 30 + 587 * 60 + 114 * 90) mod 1000 <> 500)%Z.
Proof. discriminate. Qed.

(** C200: on such a tie the rounding leaves a tint *)
Theorem C200_refuted : forall o, exists (h : heap f32) (c : color f32), at_addr h 0%nat c /\ @wf_color f32 (F32 o) RGB_TRUE c /\ has_bytes 0 8 86 c /\
  is_value (@fz f32 (F32 o) (-1)) (-1) /\ returns (@adjust f32 (F32 o) SaturateRGB (Some 0%nat) (@fz f32 (F32 o) (-1))) h (has_bytes 15 15 14).
Proof. exact desaturate8_tinted. Qed.
Print Assumptions C200_refuted.
