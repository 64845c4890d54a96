(** * Averages of 8-bit colours in binary32 (C166, C167) *)
From Coq Require Import ZArith Reals List Permutation.
From Flocq Require Import Core IEEE754.BinarySingleNaN.
From Verif Require Import Arith Outcome ColorModel Heap Calculation F32 Spec Spec32 Spec_Conv Spec_Calc Spec_Error Spec_Byte Mean_Proofs.
Import ListNotations.
Local Open Scope R_scope.

(** C166 *)
Theorem C166_mean : forall o X ia (h : heap f32) p ps c cs, In X [RGB_TRUE; GREY_TRUE] -> points_to h (p :: ps) (c :: cs) ->
  Forall (@wf_color f32 (F32 o) X) (c :: cs) -> (Z.of_nat (length (c :: cs)) <= 65793)%Z ->
  returns (@average f32 (F32 o) X (p :: ps) ia) h (mean_colour o ia X (c :: cs) c).
Proof. exact mean_few. Qed.
Print Assumptions C166_mean.
Theorem C166_order : forall o X ia (h : heap f32) ps ps' cs cs' i bs, In X [RGB_TRUE; GREY_TRUE] -> cs <> [] -> points_to h ps cs -> points_to h ps' cs' -> Permutation cs cs' ->
  Forall (@wf_color f32 (F32 o) X) cs -> (Z.of_nat (length cs) <= 65793)%Z -> (i < arity X)%nat -> bytes_at i cs bs -> exists v,
  returns (@average f32 (F32 o) X ps ia) h (fun r => comp_sat r i (fun x => is_value x v)) /\ returns (@average f32 (F32 o) X ps' ia) h (fun r => comp_sat r i (fun x => is_value x v)).
Proof. exact mean_order. Qed.
Print Assumptions C166_order.
Example C166_example : forall o r g b a, is_byte r -> is_byte g -> is_byte b -> is_byte a -> exists (h : heap f32) c, points_to h [Some 0%nat; Some 0%nat] [c; c] /\
  Forall (@wf_color f32 (F32 o) RGB_TRUE) [c; c] /\ bytes_at 0 [c; c] [r; r] /\ bytes_at 1 [c; c] [g; g] /\ bytes_at 2 [c; c] [b; b] /\ alpha_bytes o [c; c] [a; a].
Proof. exact bytes_list. Qed.
(** Black and two whites give 170; black and white give no whole number. *)
Example C166_thirds : forall x, mean_byte [0; 255; 255]%Z x -> is_value x 170.
Proof. exact mean_thirds. Qed.
Example C166_half : forall x, mean_byte [0; 255]%Z x -> broken x.
Proof. exact mean_half. Qed.

(** C167: up to 65793 colours it holds; for 65795 whites it does not. *)
Theorem C167_equal_few : forall o X ia (h : heap f32) ps c, In X [RGB_TRUE; GREY_TRUE] -> ps <> [] -> (Z.of_nat (length ps) <= 65793)%Z ->
  points_to h ps (repeat c (length ps)) -> @wf_color f32 (F32 o) X c ->
  returns (@average f32 (F32 o) X ps ia) h (fun r => forall i n, (i < arity X)%nat -> is_byte n -> comp_sat c i (fun x => is_value x (IZR n)) -> comp_sat r i (fun x => is_value x (IZR n))).
Proof. exact equal_few. Qed.
Print Assumptions C167_equal_few.
Theorem C167_equal_refuted : forall o, exists (h : heap f32) ps c, points_to h ps (repeat c (length ps)) /\ Z.of_nat (length ps) = 65795%Z /\ @wf_color f32 (F32 o) GREY_TRUE c /\
  comp_sat c 0 (fun x => is_value x 255) /\ returns (@average f32 (F32 o) GREY_TRUE ps false) h (fun r => comp_sat r 0 (fun x => is_value x (255 - / 65536))).
Proof. exact many_whites. Qed.
Print Assumptions C167_equal_refuted.
