(** * Property C195: laws of determinants and inverses *)
From Coq Require Import Reals Lra Lia List Bool.
From Verif Require Import Arith Outcome RArith MatrixModel Spec_Matrix Matrix_Proofs Invert_Proofs Space_Proofs Det3_Proofs.
Import ListNotations.
Local Open Scope R_scope.

(** C195 *)
Theorem C195_product : forall n, (1 <= n)%nat -> forall a b, rect n n a -> rect n n b ->
  exists ab x y, mmul a b = Ok ab /\ determinante a = Ok x /\ determinante b = Ok y /\ determinante ab = Ok (x * y).
Proof. exact determinant_product. Qed.
Print Assumptions C195_product.
Theorem C195_transpose : forall n, (1 <= n)%nat -> forall a, rect n n a ->
  exists t x, transpose a = Ok t /\ determinante a = Ok x /\ determinante t = Ok x.
Proof. exact determinant_transpose. Qed.
Print Assumptions C195_transpose.
Theorem C195_scaled : forall n, (1 <= n)%nat -> forall a s, rect n n a ->
  exists m x, mmuls a s = Ok m /\ determinante a = Ok x /\ determinante m = Ok (s ^ n * x).
Proof. exact determinant_scaled. Qed.
Print Assumptions C195_scaled.
Theorem C195_identity : forall n, (1 <= n)%nat -> exists e, identity n = Ok e /\ rect n n e /\ determinante e = Ok 1.
Proof. exact determinant_identity. Qed.
Print Assumptions C195_identity.
(** A matrix that is an inverse on one side is the one that invert() finds. *)
Theorem C195_right_inverse : forall n, (1 <= n)%nat -> forall a b e, rect n n a -> rect n n b -> identity n = Ok e -> mmul a b = Ok e ->
  invert a = Ok b /\ invert b = Ok a.
Proof. exact right_inverse_is. Qed.
Print Assumptions C195_right_inverse.
Theorem C195_left_inverse : forall n, (1 <= n)%nat -> forall a b e, rect n n a -> rect n n b -> identity n = Ok e -> mmul b a = Ok e ->
  invert a = Ok b /\ invert b = Ok a.
Proof. exact left_inverse_is. Qed.
Print Assumptions C195_left_inverse.
Theorem C195_invert_twice : forall n, (1 <= n)%nat -> forall a, rect n n a -> det n (entry a) <> 0 ->
  exists i, invert a = Ok i /\ rect n n i /\ invert i = Ok a.
Proof. exact invert_twice. Qed.
Print Assumptions C195_invert_twice.
Theorem C195_inverse_determinant : forall n, (1 <= n)%nat -> forall a x, rect n n a -> determinante a = Ok x -> x <> 0 ->
  exists i, invert a = Ok i /\ determinante i = Ok (1 / x).
Proof. exact invert_determinant. Qed.
Print Assumptions C195_inverse_determinant.
Theorem C195_inverse_of_product : forall n, (1 <= n)%nat -> forall a b, rect n n a -> rect n n b -> det n (entry a) <> 0 -> det n (entry b) <> 0 ->
  exists ia ib ab p, invert a = Ok ia /\ invert b = Ok ib /\ mmul a b = Ok ab /\ mmul ib ia = Ok p /\ invert ab = Ok p.
Proof. exact invert_product. Qed.
Print Assumptions C195_inverse_of_product.
Theorem C195_inverse_of_transpose : forall n, (1 <= n)%nat -> forall a, rect n n a -> det n (entry a) <> 0 ->
  exists i t it, invert a = Ok i /\ transpose a = Ok t /\ transpose i = Ok it /\ invert t = Ok it.
Proof. exact invert_transpose. Qed.
Print Assumptions C195_inverse_of_transpose.
(** invert() returns its argument only if that is its own inverse or has none. *)
Theorem C195_unchanged : forall n, (1 <= n)%nat -> forall a e, rect n n a -> identity n = Ok e -> invert a = Ok a ->
  mmul a a = Ok e \/ (forall b, rect n n b -> mmul a b <> Ok e /\ mmul b a <> Ok e).
Proof. exact invert_unchanged. Qed.
Print Assumptions C195_unchanged.
Example C195_example : rect 3 3 (mat3 2 0 1 0 3 0 1 0 1) /\ det 3 (entry (mat3 2 0 1 0 3 0 1 0 1)) = 3.
Proof. split; [apply rect33|]. rewrite det_det3. unfold det3, entry, mat3. cbn. ring. Qed.
