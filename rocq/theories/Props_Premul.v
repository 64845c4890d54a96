(** * Properties: premultiplying colours that are not RGB *)
From Coq Require Import ZArith Reals List Bool.
From Flocq Require Import Core.
From Verif Require Import Arith Outcome ColorModel Heap Converter Spec RArith Spec_Conv Spec_Round HueMean_Proofs Premul_Proofs.
Import ListNotations.
Local Open Scope R_scope.

(** C234: false for every hue other than 0; [hue_at] is the position of the hue among the components *)
Theorem C234_hue_refuted : forall X (c : color R) x, In X [HSV; HSL; HSI; HCY; LCH_AB; LCH_UV] -> wf_color X c -> nth_error (comps c) (hue_at X) = Some x -> x <> 0 -> m_alpha c <> 1 ->
  exists w, nth_error (comps (alpha_multiply c)) (hue_at X) = Some w /\ w = x * m_alpha c /\ w <> x.
Proof. exact premultiplied_hue. Qed.
Print Assumptions C234_hue_refuted.
(** A premultiplied CMYK colour is at least as bright in every channel, and white if it is transparent. *)
Theorem C234_cmyk_refuted : forall (h : heap R) p c cy m y k, at_addr h p (alpha_multiply c) -> wf_color CMYK c -> comps c = [cy; m; y; k] -> 0 <= m_alpha c <= 1 ->
  yields to_rgb_deep h p (fun d => ty d = RGB_DEEP /\ exists r g b, comps d = [r; g; b] /\
    (1 - cy) * (1 - k) <= r /\ (1 - m) * (1 - k) <= g /\ (1 - y) * (1 - k) <= b /\ (m_alpha c = 0 -> r = 1 /\ g = 1 /\ b = 1)).
Proof. exact premultiplied_cmyk. Qed.
Print Assumptions C234_cmyk_refuted.
Example C234_example : exists (h : heap R) c d, at_addr h 0%nat (alpha_multiply c) /\ wf_color CMYK c /\ comps c = [1 / 5; 2 / 5; 3 / 5; 1 / 10] /\ m_alpha c = 1 / 2 /\
  wf_color HSV d /\ nth_error (comps d) (hue_at HSV) = Some 200 /\ m_alpha d = 1 / 2.
Proof. exact premul_example. Qed.
