(** * Property C177: the weighted distance of 8-bit colours in binary32 *)
From Coq Require Import ZArith Reals Lra Lia List.
From Flocq Require Import Core IEEE754.BinarySingleNaN.
From Verif Require Import Arith Outcome ColorModel Heap Converter Distance F32 Spec Spec32 Spec_Conv Spec_Calc Spec_Distance Spec_Error Spec_Rank Error_Proofs Rank_Proofs Byte3_Proofs Weight_Proofs.
Import ListNotations.
Local Open Scope R_scope.

(** ** C177: the weighted distance is accurate, 0 only for equal bytes, and symmetric to the last bit *)
Theorem C177_accuracy : forall o, accurate_square o -> forall (h : heap f32) p1 c1 t1 p2 c2 t2, at_addr h p1 c1 -> at_addr h p2 c2 ->
  @wf_color f32 (F32 o) RGB_TRUE c1 -> @wf_color f32 (F32 o) RGB_TRUE c2 -> is_bytes t1 -> is_bytes t2 -> holds_bytes t1 c1 -> holds_bytes t2 c2 ->
  exists x h', @distance f32 (F32 o) Weighted (Some p1) (Some p2) h = (Ok x, h') /\ approx (redmean (fractions_of t1) (fractions_of t2)) (/ 262144) x /\ (B2R x = 0 <-> t1 = t2).
Proof. exact weighted_accuracy. Qed.
Print Assumptions C177_accuracy.

Theorem C177_symmetry : forall o, even_square o -> forall (h : heap f32) p1 c1 t1 p2 c2 t2, at_addr h p1 c1 -> at_addr h p2 c2 ->
  @wf_color f32 (F32 o) RGB_TRUE c1 -> @wf_color f32 (F32 o) RGB_TRUE c2 -> is_bytes t1 -> is_bytes t2 -> holds_bytes t1 c1 -> holds_bytes t2 c2 ->
  fst (@distance f32 (F32 o) Weighted (Some p1) (Some p2) h) = fst (@distance f32 (F32 o) Weighted (Some p2) (Some p1) h).
Proof. exact weighted_symmetry. Qed.
Print Assumptions C177_symmetry.

(** The assumptions on powf hold for some oracle, and every two byte triples are held by two colours. *)
Example C177_oracle : exists o, accurate_square o /\ even_square o.
Proof. exact square_exists. Qed.
Example C177_colours : forall o r1 g1 b1 r2 g2 b2, is_byte r1 -> is_byte g1 -> is_byte b1 -> is_byte r2 -> is_byte g2 -> is_byte b2 ->
  exists (h : heap f32) c1 c2, at_addr h 0%nat c1 /\ at_addr h 1%nat c2 /\ @wf_color f32 (F32 o) RGB_TRUE c1 /\ @wf_color f32 (F32 o) RGB_TRUE c2 /\ holds_bytes (r1, g1, b1) c1 /\ holds_bytes (r2, g2, b2) c2.
Proof.
  intros o r1 g1 b1 r2 g2 b2 A B C D E F. destruct (two_exist o r1 g1 b1 r2 g2 b2 A B C D E F) as [h [c1 [c2 [H1 [H2 [W1 [W2 [_ [B1 [_ [B2 _]]]]]]]]]]]. exists h, c1, c2. auto 10.
Qed.
(** Black and green are 2 apart. Red and magenta, with a mean red of 255, are the square root of 2
    apart. *)
Example C177_green : redmean (fractions_of (0, 0, 0)%Z) (fractions_of (0, 255, 0)%Z) = 2.
Proof. unfold redmean, fractions_of. transitivity (sqrt (2 * 2)); [f_equal; field|apply sqrt_square; lra]. Qed.
Example C177_blue : redmean (fractions_of (255, 0, 0)%Z) (fractions_of (255, 0, 255)%Z) = sqrt 2.
Proof. unfold redmean, fractions_of. f_equal. field. Qed.
