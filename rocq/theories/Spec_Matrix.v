(** * Specification vocabulary for real matrices, independent of the matrix code *)
From Coq Require Import Reals List.
From Verif Require Import MatrixModel.
Import ListNotations.
Local Open Scope R_scope.

(** [m] is a well-formed [r] x [c] matrix object. *)
Definition rect {F} (r c : nat) (m : matrix F) : Prop :=
  m_rows m = r /\ m_cols m = c /\ length (m_values m) = r /\
  (forall row, In row (m_values m) -> length row = c).

(** Entry (i,j). *)
Definition entry (m : matrix R) (i j : nat) : R := nth j (nth i (m_values m) []) 0.

(** g 0 + g 1 + ... + g (n-1) *)
Fixpoint rsum (n : nat) (g : nat -> R) : R :=
  match n with O => 0 | S n' => rsum n' g + g n' end.

(** Determinant of a 3x3 matrix by the rule of Sarrus / Leibniz. *)
Definition det3 (m : matrix R) : R :=
  entry m 0 0 * entry m 1 1 * entry m 2 2 + entry m 0 1 * entry m 1 2 * entry m 2 0 +
  entry m 0 2 * entry m 1 0 * entry m 2 1 - entry m 0 2 * entry m 1 1 * entry m 2 0 -
  entry m 0 1 * entry m 1 0 * entry m 2 2 - entry m 0 0 * entry m 1 2 * entry m 2 1.

(** A 3x3 matrix object with the given entries. *)
Definition mat3 (a b c d e f g h i : R) : matrix R := Mat 3 3 [[a; b; c]; [d; e; f]; [g; h; i]].

(** ** Determinants of any size *)
(** +1 for even [k], -1 for odd [k] *)
Fixpoint alt (k : nat) : R := match k with O => 1 | S k' => - alt k' end.
(** [j] if it is before [d], the next number otherwise *)
Definition leave_out (d j : nat) : nat := if Nat.ltb j d then j else S j.
(** The matrix (as a function) without row [r] and column [c] *)
Definition minor (r c : nat) (f : nat -> nat -> R) : nat -> nat -> R :=
  fun i j => f (leave_out r i) (leave_out c j).
(** The determinant of the leading [n] x [n] block: Laplace expansion *)
Fixpoint det (n : nat) (f : nat -> nat -> R) : R :=
  match n with
  | O => 1
  | S n' => rsum (S n') (fun j => alt j * f O j * det n' (minor O j f))
  end.

(** Determinant of three column vectors *)
Definition det_cols3 (a b c : R * R * R) : R :=
  let '(a0, a1, a2) := a in let '(b0, b1, b2) := b in let '(c0, c1, c2) := c in
  a0 * (b1 * c2 - b2 * c1) - b0 * (a1 * c2 - a2 * c1) + c0 * (a1 * b2 - a2 * b1).
