(** * Properties: averages lie between the averaged colours *)
From Coq Require Import ZArith Reals List Bool.
From Flocq Require Import Core IEEE754.BinarySingleNaN.
From Verif Require Import Arith Outcome ColorModel Heap Calculation F32 RArith Spec Spec32 Spec_Conv Spec_Calc Spec_Error Spec_Byte Spec_Mean CalcEx_Proofs Mean_Proofs Mean3_Proofs Hull_Proofs.
Import ListNotations.
Local Open Scope R_scope.

(** C235, exact arithmetic *)
Theorem C235_exact : forall X ia (h : heap R) p ps c cs i lo hi, In X all_types -> points_to h (p :: ps) (c :: cs) -> Forall (wf_color X) (c :: cs) ->
  (eight_bit X = true -> Forall (fun c => 0 <= m_alpha c <= 1) (c :: cs)) -> (i < arity X)%nat ->
  Forall (fun x => lo <= x <= hi) (components i (c :: cs)) ->
  returns (average X (p :: ps) ia) h (fun r => ty r = X /\ exists w, nth_error (comps r) i = Some w /\ lo <= w <= hi).
Proof. exact average_between. Qed.
Print Assumptions C235_exact.
Theorem C235_alpha : forall X (h : heap R) p ps c cs lo hi, In X all_types -> X <> CMYK -> points_to h (p :: ps) (c :: cs) -> Forall (wf_color X) (c :: cs) ->
  (eight_bit X = true -> Forall (fun c => 0 <= m_alpha c <= 1) (c :: cs)) ->
  Forall (fun x => lo <= x <= hi) (map alpha (c :: cs)) ->
  returns (average X (p :: ps) true) h (fun r => ty r = X /\ lo <= alpha r <= hi).
Proof. exact average_alpha_between. Qed.
Print Assumptions C235_alpha.
Example C235_example : exists (h : heap R) ps cs, points_to h ps cs /\ Forall (wf_color CMYK) cs /\
  map alpha cs = [1; 1] /\ components 3 cs = [0; 1].
Proof. exact average_example. Qed.

(** C235, binary32: the 8-bit types stay between exactly *)
Theorem C235_bytes : forall o X ia (h : heap f32) p ps c cs, In X [RGB_TRUE; GREY_TRUE] -> points_to h (p :: ps) (c :: cs) ->
  Forall (@wf_color f32 (F32 o) X) (c :: cs) -> (Z.of_nat (length (c :: cs)) <= 65793)%Z ->
  returns (@average f32 (F32 o) X (p :: ps) ia) h (fun r => forall i bs lo hi, (i < arity X)%nat -> bytes_at i (c :: cs) bs -> is_byte lo -> is_byte hi ->
    Forall (fun n => (lo <= n <= hi)%Z) bs -> comp_sat r i (fun x => exists v, is_value x v /\ IZR lo <= v <= IZR hi)).
Proof. exact average_bytes_between. Qed.
Print Assumptions C235_bytes.
Example C235_bytes_example : forall o r g b a, is_byte r -> is_byte g -> is_byte b -> is_byte a -> exists (h : heap f32) c, points_to h [Some 0%nat; Some 0%nat] [c; c] /\
  Forall (@wf_color f32 (F32 o) RGB_TRUE) [c; c] /\ bytes_at 0 [c; c] [r; r] /\ bytes_at 1 [c; c] [g; g] /\ bytes_at 2 [c; c] [b; b] /\ alpha_bytes o [c; c] [a; a].
Proof. exact bytes_list. Qed.
(** The other types do not: three equal deep greys have an average above them. *)
Theorem C235_deep_refuted : forall o, exists (h : heap f32) ps c, points_to h ps [c; c; c] /\ @wf_color f32 (F32 o) GREY_DEEP c /\ exists v w, v < w /\ comp_sat c 0 (fun x => is_value x v) /\
  returns (@average f32 (F32 o) GREY_DEEP ps false) h (fun r => comp_sat r 0 (fun x => is_value x w)).
Proof. exact average_outside. Qed.
Print Assumptions C235_deep_refuted.
(** They leave the interval by at most the error of C213. *)
Theorem C235_deep : forall o X ia (h : heap f32) p ps c cs, In X all_types -> eight_bit X = false -> points_to h (p :: ps) (c :: cs) ->
  Forall (@wf_color f32 (F32 o) X) (c :: cs) -> (Z.of_nat (length (c :: cs)) <= 16384)%Z ->
  returns (@average f32 (F32 o) X (p :: ps) ia) h (fun r => forall i lo hi, (i < arity X)%nat ->
    Forall (fun x => lo <= B2R x <= hi) (@components f32 (F32 o) i (c :: cs)) ->
    comp_sat r i (fun x => is_finite x = true /\ lo - mean_error (length (c :: cs)) (magnitude X i) <= B2R x <= hi + mean_error (length (c :: cs)) (magnitude X i))).
Proof. exact average_deep_between. Qed.
Print Assumptions C235_deep.
Example C235_deep_example : forall o k, (k = HSV \/ k = HSL \/ k = HCY) -> exists (h : heap f32) c x s v, points_to h [Some 0%nat; Some 0%nat] [c; c] /\
  Forall (@wf_color f32 (F32 o) k) [c; c] /\ comps c = [x; s; v] /\ B2R x = 200 /\ B2R s = 1 /\ B2R v = 1.
Proof. exact two_hues. Qed.
