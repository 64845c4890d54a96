(** * Properties of matrices of every shape (C23, C120 - C123)

    Exact real arithmetic; vocabulary: Spec_Matrix.v.  The indices of C120 are the C++
    ints, positive or negative. *)
From Coq Require Import ZArith QArith Reals Lra Lia List Bool.
From Flocq Require Import Core IEEE754.BinarySingleNaN.
From Verif Require Import Arith Outcome ColorModel MatrixModel F32 RArith Spec_Matrix Matrix_Proofs Matrix2_Proofs.
Import ListNotations.
Local Open Scope R_scope.

(** C23, for all shapes *)
Theorem C23_transpose_refuted : forall r c (m : matrix R), rect r c m -> r <> c -> (1 <= r)%nat -> (1 <= c)%nat ->
  transpose m = Undef.
Proof. exact transpose_undef. Qed.
Print Assumptions C23_transpose_refuted.
Theorem C23_product_wide_refuted : forall r n p a b, rect r n a -> rect n p b -> (r < n)%nat -> (1 <= p)%nat -> mmul a b = Undef.
Proof. exact product_wide. Qed.
Print Assumptions C23_product_wide_refuted.
(** the product of an r x n matrix (r > n) has only n rows instead of r *)
Theorem C23_product_tall_refuted : forall r n p a b, rect r n a -> rect n p b -> (n < r)%nat ->
  exists s, mmul a b = Ok s /\ rect n p s.
Proof. exact product_tall_ok. Qed.
Print Assumptions C23_product_tall_refuted.
Theorem C23_construction_tall_refuted : forall r c l, length l = (r * c)%nat -> (c < r)%nat -> (1 <= c)%nat ->
  matrix_data (F := R) r c l = Undef.
Proof. exact data_tall. Qed.
Print Assumptions C23_construction_tall_refuted.
(** row i starts at number i*r of the list instead of i*c *)
Theorem C23_construction_wide_refuted : forall r c l, length l = (r * c)%nat -> (r <= c)%nat ->
  exists m, matrix_data r c l = Ok m /\ rect r c m /\
    forall i j, (i < r)%nat -> (j < c)%nat -> entry m i j = nth (i * r + j) l 0.
Proof. exact data_wide. Qed.
Print Assumptions C23_construction_wide_refuted.
Theorem C23_vector_tall_refuted : forall r c (m : matrix R) v, rect r c m -> length v = c -> (c < r)%nat -> (1 <= c)%nat ->
  mulvec m v = Undef.
Proof. exact mulvec_tall. Qed.
Print Assumptions C23_vector_tall_refuted.
(** the result has c instead of r components; the surplus ones are 0 *)
Theorem C23_vector_wide_refuted : forall r c (m : matrix R) v, rect r c m -> length v = c -> (r <= c)%nat ->
  exists w, mulvec m v = Ok w /\ length w = c /\
    forall i, (i < c)%nat -> nth i w 0 = if Nat.ltb i r then rsum c (fun j => entry m i j * nth j v 0) else 0.
Proof. exact mulvec_wide. Qed.
Print Assumptions C23_vector_wide_refuted.
(** what does work: a square left operand and data of the wrong length *)
Theorem C23_square_times_rectangular_partial : forall n p a b, rect n n a -> rect n p b ->
  exists s, mmul a b = Ok s /\ rect n p s /\
    forall i j, (i < n)%nat -> (j < p)%nat -> entry s i j = rsum n (fun k => entry a i k * entry b k j).
Proof. exact product_ok. Qed.
Print Assumptions C23_square_times_rectangular_partial.
Theorem C23_wrong_length_partial : forall r c l, length l <> (r * c)%nat -> matrix_data (F := R) r c l = Ok (matrix_zero r c).
Proof. exact data_wrong_size. Qed.
Print Assumptions C23_wrong_length_partial.
Example C23_shapes : exists a b : matrix R, rect 2 3 a /\ rect 3 2 b /\ entry a 1 2 = 6 /\ entry b 2 1 = 12.
Proof.
  exists (Mat 2 3 [[1; 2; 3]; [4; 5; 6]]), (Mat 3 2 [[7; 8]; [9; 10]; [11; 12]]).
  repeat split; cbn; intuition (subst; reflexivity).
Qed.

(** C120 *)
Theorem C120_access_partial : forall r c (m : matrix R) i j, rect r c m -> (i < r)%nat -> (j < c)%nat ->
  access m (Z.of_nat i) (Z.of_nat j) = Ok (entry m i j).
Proof. exact access_in. Qed.
Print Assumptions C120_access_partial.
Theorem C120_row_partial : forall r c (m : matrix R) i j, rect r c m -> (Z.of_nat r <= i <= 38)%Z ->
  access m i j = Throw (by_value out_of_range).
Proof. exact access_row. Qed.
Print Assumptions C120_row_partial.
Theorem C120_column_partial : forall r c (m : matrix R) i j, rect r c m -> (i < Z.of_nat r)%Z -> (Z.of_nat c <= j <= 41)%Z ->
  access m i j = Throw (by_value out_of_range).
Proof. exact access_column. Qed.
Print Assumptions C120_column_partial.
Theorem C120_negative_refuted : forall r c (m : matrix R) i j, rect r c m ->
  (i < Z.of_nat r)%Z -> (j < Z.of_nat c)%Z -> (i < 0 \/ j < 0)%Z -> access m i j = Undef.
Proof. exact access_negative. Qed.
Print Assumptions C120_negative_refuted.
Theorem C120_large_refuted : forall r c (m : matrix R) i j, rect r c m ->
  (Z.of_nat r <= i -> 38 < i -> access m i j = Undef)%Z /\
  (i < Z.of_nat r -> Z.of_nat c <= j -> 41 < j -> access m i j = Undef)%Z.
Proof. exact access_large. Qed.
Print Assumptions C120_large_refuted.
Example C120_example : rect 1 2 (Mat 1 2 [[5; 7]]) /\ access (Mat 1 2 [[5; 7]]) 0 1 = Ok 7 /\
  access (Mat 1 2 [[5; 7]]) 0 2 = Throw (by_value out_of_range) /\ access (Mat 1 2 [[5; 7]]) 100 0 = Undef.
Proof. repeat split. cbn. intuition (subst; reflexivity). Qed.

(** C121 *)
Theorem C121_sums : forall r c p q a b, rect r c a -> rect p q b -> (r <= p)%nat -> (c <= q)%nat ->
  (exists s, madd a b = Ok s /\ rect r c s /\
     forall i j, (i < r)%nat -> (j < c)%nat -> entry s i j = entry a i j + entry b i j) /\
  (exists s, msub a b = Ok s /\ rect r c s /\
     forall i j, (i < r)%nat -> (j < c)%nat -> entry s i j = entry a i j - entry b i j).
Proof. exact sums_ok. Qed.
Print Assumptions C121_sums.
Theorem C121_too_small : forall r c p q a b, rect r c a -> rect p q b -> (1 <= r)%nat -> (1 <= c)%nat ->
  (p <= 38)%nat -> (q <= 41)%nat -> (p < r \/ q < c)%nat ->
  madd (F := R) a b = Throw (by_value out_of_range) /\ msub (F := R) a b = Throw (by_value out_of_range).
Proof. exact sums_fail. Qed.
Print Assumptions C121_too_small.
Theorem C121_scalars : forall r c a s i j, rect r c a -> (i < r)%nat -> (j < c)%nat ->
  (exists m, madds a s = Ok m /\ rect r c m /\ entry m i j = entry a i j + s) /\
  (exists m, msubs a s = Ok m /\ rect r c m /\ entry m i j = entry a i j - s) /\
  (exists m, mmuls a s = Ok m /\ rect r c m /\ entry m i j = entry a i j * s) /\
  (s <> 0 -> exists m, mdivs a s = Ok m /\ rect r c m /\ entry m i j = entry a i j / s).
Proof. exact scalar_any. Qed.
Print Assumptions C121_scalars.
Example C121_example : rect 1 2 (Mat 1 2 [[5; 7]]) /\ rect 2 3 (Mat 2 3 [[1; 2; 3]; [4; 5; 6]]) /\
  (1 <= 2)%nat /\ (2 <= 3)%nat.
Proof. split; [|split; [|lia]]; repeat split; cbn; intuition (subst; reflexivity). Qed.

(** C122 *)
Theorem C122_resize : forall r c (m : matrix R) r' c' v, rect r c m ->
  exists m', resize m r' c' v = Ok m' /\ rect r' c' m' /\
    forall i j, (i < r')%nat -> (j < c')%nat -> entry m' i j = if Nat.ltb i r && Nat.ltb j c then entry m i j else v.
Proof. exact resize_ok. Qed.
Print Assumptions C122_resize.
Theorem C122_same : forall r c (m : matrix R) v, rect r c m -> resize m r c v = Ok m.
Proof. exact resize_same. Qed.
Print Assumptions C122_same.
Theorem C122_back : forall r c (m : matrix R) r' c' v w, rect r c m -> (r <= r')%nat -> (c <= c')%nat ->
  exists m', resize m r' c' v = Ok m' /\ resize m' r c w = Ok m.
Proof. exact resize_back. Qed.
Print Assumptions C122_back.
Example C122_example : resize (Mat 1 2 [[5; 7]]) 2 3 9 = Ok (Mat 2 3 [[5; 7; 9]; [9; 9; 9]]).
Proof. reflexivity. Qed.

(** C123 *)
Theorem C123_equality : forall a b : matrix R, meq a b = true <-> a = b.
Proof. exact meq_R. Qed.
Print Assumptions C123_equality.
Theorem C123_equality_float : forall o (a b : matrix f32), meq (AF := F32 o) a b = true <->
  m_rows a = m_rows b /\ m_cols a = m_cols b /\
  Forall2 (Forall2 (fun x y => Beqb x y = true)) (m_values a) (m_values b).
Proof. exact (fun o => @meq_iff f32 (F32 o)). Qed.
Print Assumptions C123_equality_float.
Theorem C123_assign : forall r c this (m : matrix R), rect r c m -> massign this m = Ok m.
Proof. exact massign_ok. Qed.
Print Assumptions C123_assign.
Theorem C123_copy : forall m : matrix R, mcopy m = m.
Proof. exact mcopy_ok. Qed.
Print Assumptions C123_copy.
Theorem C123_construct : forall r c v, rect r c (matrix_const r c v) /\ rect r c (matrix_zero (F := R) r c) /\
  forall i j, (i < r)%nat -> (j < c)%nat -> entry (matrix_const r c v) i j = v /\ entry (matrix_zero r c) i j = 0.
Proof. exact constant_ok. Qed.
Print Assumptions C123_construct.
Theorem C123_fill : forall r c (m : matrix R) v, rect r c m ->
  exists m', fill m v = Ok m' /\ rect r c m' /\ forall i j, (i < r)%nat -> (j < c)%nat -> entry m' i j = v.
Proof. exact fill_ok. Qed.
Print Assumptions C123_fill.
Theorem C123_compound : forall n a b, rect n n a -> rect n n b ->
  madd_eq (F := R) a b = madd a b /\ msub_eq (F := R) a b = msub a b /\ mmul_eq (F := R) a b = mmul a b.
Proof. exact compound_ok. Qed.
Print Assumptions C123_compound.
Example C123_example : Mat 1 2 [[5; 7]] <> Mat 2 1 [[5]; [7]] /\ fill (Mat 1 2 [[5; 7]]) 3 = Ok (Mat 1 2 [[3; 3]]).
Proof. split; [discriminate|reflexivity]. Qed.
