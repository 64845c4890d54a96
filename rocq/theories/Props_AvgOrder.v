(** * Properties: averages of larger components are larger *)
From Coq Require Import ZArith Reals List Bool.
From Flocq Require Import Core IEEE754.BinarySingleNaN.
From Verif Require Import Arith Outcome ColorModel Heap Calculation F32 RArith Spec Spec32 Spec_Conv Spec_Calc Spec_Error Spec_Byte Mean_Proofs AvgOrder_Proofs.
Import ListNotations.
Local Open Scope R_scope.

(** C237, exact arithmetic *)
Theorem C237_exact : forall X ia ia' (h h' : heap R) ps qs cs ds, In X all_types -> eight_bit X = false -> ps <> [] -> qs <> [] -> points_to h ps cs -> points_to h' qs ds ->
  Forall (wf_color X) cs -> Forall (wf_color X) ds ->
  returns (average X ps ia) h (fun r => returns (average X qs ia') h' (fun s => forall i, (i < arity X)%nat -> Forall2 Rle (components i cs) (components i ds) ->
    exists w v, nth_error (comps r) i = Some w /\ nth_error (comps s) i = Some v /\ w <= v /\
      (Exists (fun p => fst p < snd p) (combine (components i cs) (components i ds)) -> w < v))).
Proof. exact average_mono. Qed.
Print Assumptions C237_exact.
Example C237_example : exists (h : heap R) ps cs, points_to h ps cs /\ Forall (wf_color CMYK) cs /\ ps <> [] /\ exists qs ds, qs <> [] /\ points_to h qs ds /\ Forall (wf_color CMYK) ds /\
  Forall2 Rle (components 3 cs) (components 3 ds) /\ Exists (fun p => fst p < snd p) (combine (components 3 cs) (components 3 ds)).
Proof. exact avg_order_example. Qed.

(** C237, binary32: 8-bit colours *)
Theorem C237_bytes : forall o X ia ia' (h h' : heap f32) p ps c cs q qs d ds, In X [RGB_TRUE; GREY_TRUE] -> points_to h (p :: ps) (c :: cs) -> points_to h' (q :: qs) (d :: ds) ->
  Forall (@wf_color f32 (F32 o) X) (c :: cs) -> Forall (@wf_color f32 (F32 o) X) (d :: ds) -> (Z.of_nat (length (c :: cs)) <= 65793)%Z -> (Z.of_nat (length (d :: ds)) <= 65793)%Z ->
  returns (@average f32 (F32 o) X (p :: ps) ia) h (fun r => returns (@average f32 (F32 o) X (q :: qs) ia') h' (fun s => forall i bs es, (i < arity X)%nat ->
    bytes_at i (c :: cs) bs -> bytes_at i (d :: ds) es -> Forall2 Z.le bs es ->
    exists v w, comp_sat r i (fun x => is_value x v) /\ comp_sat s i (fun x => is_value x w) /\ v <= w)).
Proof. exact average_bytes_mono. Qed.
Print Assumptions C237_bytes.
Example C237_bytes_example : forall o r g b a, is_byte r -> is_byte g -> is_byte b -> is_byte a -> exists (h : heap f32) c, points_to h [Some 0%nat; Some 0%nat] [c; c] /\
  Forall (@wf_color f32 (F32 o) RGB_TRUE) [c; c] /\ bytes_at 0 [c; c] [r; r] /\ bytes_at 1 [c; c] [g; g] /\ bytes_at 2 [c; c] [b; b] /\ alpha_bytes o [c; c] [a; a].
Proof. exact bytes_list. Qed.
