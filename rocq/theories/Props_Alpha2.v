(** * Properties C206, C207: premultiplication in binary32 *)
From Coq Require Import ZArith Reals List.
From Flocq Require Import Core IEEE754.BinarySingleNaN.
From Verif Require Import Arith Outcome ColorModel F32 Spec Spec32 History Spec_Round Spec_Error Alpha2_Proofs.
Import ListNotations.
Local Open Scope R_scope.

Theorem C206_multiply : forall o (c : color f32) i x, @reachable f32 (F32 o) c -> in_interval 0 1 (m_alpha c) -> nth_error (comps c) i = Some x ->
  comp_sat (@alpha_multiply f32 (F32 o) c) i (fun y => is_finite y = true /\ Rabs (B2R y - B2R x * B2R (m_alpha c)) <= / 16777216 * (Rabs (B2R x) * B2R (m_alpha c)) + / 2 ^ 60 /\
    Rabs (B2R y) <= Rabs (B2R x) /\ (B2R (m_alpha c) = 1 -> B2R y = B2R x) /\ (B2R (m_alpha c) = 0 -> B2R y = 0)).
Proof. exact alpha_times. Qed.
Print Assumptions C206_multiply.

Theorem C206_again : forall o (c : color f32) i x, @reachable f32 (F32 o) c -> is_finite (m_alpha c) = true -> / 1048576 <= B2R (m_alpha c) <= 1 -> nth_error (comps c) i = Some x ->
  comp_sat (@alpha_divide f32 (F32 o) (@alpha_multiply f32 (F32 o) c)) i (fun y => is_finite y = true /\ Rabs (B2R y - B2R x) <= 3 / 16777216 * Rabs (B2R x) + / 2 ^ 39 /\ (B2R (m_alpha c) = 1 -> B2R y = B2R x)).
Proof. exact alpha_again. Qed.
Print Assumptions C206_again.

Theorem C206_bytes : forall o (c : color f32) i x n, @reachable f32 (F32 o) c -> is_finite (m_alpha c) = true -> / 256 <= B2R (m_alpha c) <= 1 -> nth_error (comps c) i = Some x -> is_byte n -> is_value x (IZR n) ->
  comp_sat (@alpha_divide f32 (F32 o) (@alpha_multiply f32 (F32 o) c)) i (fun y => is_finite y = true /\ Rabs (B2R y - IZR n) <= / 16384).
Proof. exact byte_again. Qed.
Print Assumptions C206_bytes.

Theorem C206_lost : forall o (c : color f32) i x, @reachable f32 (F32 o) c -> is_value (m_alpha c) 0 -> nth_error (comps c) i = Some x ->
  comp_sat (@alpha_divide f32 (F32 o) (@alpha_multiply f32 (F32 o) c)) i (fun y => is_value y 0).
Proof. exact alpha_lost. Qed.
Print Assumptions C206_lost.

(** C207: false.  Lab white with alpha 1/3 gets a lightness above 100; it also shows that the
    hypotheses of C206 are satisfiable. *)
Theorem C207_range_refuted : forall o, exists c, @reachable f32 (F32 o) c /\ cls c = LAB /\ in_interval 0 1 (m_alpha c) /\ comp_sat c 0 (fun x => is_value x 100) /\
  comp_sat (@alpha_divide f32 (F32 o) (@alpha_multiply f32 (F32 o) c)) 0 (fun x => is_finite x = true /\ 100 < B2R x).
Proof. exact again_refuted. Qed.
Print Assumptions C207_range_refuted.
