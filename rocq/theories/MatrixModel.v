(** * utils/matrix.h, instantiated with T = float.

    Dimensions are natural numbers (the C++ ints are never negative in the
    library's own uses).  [m_values] is a vector of row vectors.  Reading a vector
    out of bounds is undefined behaviour. *)
From Coq Require Import ZArith QArith List Bool.
From Verif Require Import Arith Outcome ColorModel.
Import ListNotations.

Record matrix (F : Type) := Mat { m_rows : nat; m_cols : nat; m_values : list (list F) }.
Arguments Mat {F} m_rows m_cols m_values.
Arguments m_rows {F} m. Arguments m_cols {F} m. Arguments m_values {F} m.

Section Matrix.
Context {F : Type} {AF : Arith F}.

(** [vals[i][j]] on a vector of vectors *)
Definition el (vals : list (list F)) (i j : nat) : outcome F :=
  match nth_error vals i with
  | None => Undef
  | Some row => match nth_error row j with None => Undef | Some v => Ok v end
  end.

(** [throw std::out_of_range(std::string("Matrix: ...", index))], utils/matrix.h:113, 114:
    this constructor of std::string copies [index] characters of the literal, which has
    [bytes] bytes; a larger number reads behind it. *)
Definition thrown (index bytes : nat) : outcome F :=
  if Nat.leb index bytes then Throw (by_value out_of_range) else Undef.

(** utils/matrix.h:111-124 operator()(row, column) for indices that are not negative:
    upper bounds are checked, the exception is thrown by value. *)
Definition at_ (m : matrix F) (i j : nat) : outcome F :=
  if Nat.leb (m_rows m) i then thrown i 38
  else if Nat.leb (m_cols m) j then thrown j 41
  else el (m_values m) i j.
(** utils/matrix.h:111-124 operator()(row, column) for any int; there is no check for
    negative numbers *)
Definition access (m : matrix F) (row column : Z) : outcome F :=
  if (Z.of_nat (m_rows m) <=? row)%Z then thrown (Z.to_nat row) 38
  else if (Z.of_nat (m_cols m) <=? column)%Z then thrown (Z.to_nat column) 41
  else if (row <? 0)%Z || (column <? 0)%Z then Undef
  else el (m_values m) (Z.to_nat row) (Z.to_nat column).

(** A loop over [i = 0..n-1] collecting one value per iteration. *)
Fixpoint build_from (start n : nat) {X : Type} (f : nat -> outcome X) : outcome (list X) :=
  match n with
  | O => Ok []
  | S n' => let! x := f start in
            let! t := build_from (S start) n' f in
            Ok (x :: t)
  end.
Definition build (n : nat) {X : Type} (f : nat -> outcome X) : outcome (list X) := build_from 0 n f.

(** The nested loops that fill a fresh [r] x [c] result entry by entry. *)
Definition mbuild (r c : nat) (f : nat -> nat -> outcome F) : outcome (matrix F) :=
  let! v := build r (fun i => build c (fun j => f i j)) in
  Ok (Mat r c v).

(** An accumulation loop [acc += f k] for [k = start .. start+n-1]. *)
Fixpoint sum_from (acc : F) (start n : nat) (f : nat -> outcome F) : outcome F :=
  match n with
  | O => Ok acc
  | S n' => let! x := f start in sum_from (fadd acc x) (S start) n' f
  end.
Definition sum_to (n : nat) (f : nat -> outcome F) : outcome F := sum_from (fz 0) 0 n f.

(** utils/matrix.h:26-33 matrix(rows, columns): zero-initialised *)
Definition matrix_zero (r c : nat) : matrix F := Mat r c (repeat (repeat (fz 0) c) r).
(** utils/matrix.h:57-64 matrix(rows, columns, initial_value) *)
Definition matrix_const (r c : nat) (v : F) : matrix F := Mat r c (repeat (repeat v c) r).

(** utils/matrix.h:508-521 insert: note the stride m_rows *)
Definition insert (m : matrix F) (values : list F) : outcome (matrix F) :=
  if Nat.eqb (length values) (m_rows m * m_cols m)
  then mbuild (m_rows m) (m_cols m)
         (fun i j => match nth_error values (i * m_rows m + j) with Some v => Ok v | None => Undef end)
  else Ok m.
(** utils/matrix.h:41-49 matrix(rows, columns, data) *)
Definition matrix_data (r c : nat) (data : list F) : outcome (matrix F) := insert (matrix_zero r c) data.
(** utils/matrix.h:84-92 matrix(size, data) *)
Definition matrix_sq (n : nat) (data : list F) : outcome (matrix F) := matrix_data n n data.

(** utils/matrix.h:166-179 operator+ *)
Definition madd (a b : matrix F) : outcome (matrix F) :=
  mbuild (m_rows a) (m_cols a)
    (fun i j => let! x := el (m_values a) i j in let! y := at_ b i j in Ok (fadd x y)).
(** utils/matrix.h:190-203 operator- *)
Definition msub (a b : matrix F) : outcome (matrix F) :=
  mbuild (m_rows a) (m_cols a)
    (fun i j => let! x := el (m_values a) i j in let! y := at_ b i j in Ok (fsub x y)).
(** utils/matrix.h:214-232 operator*(matrix): the shape of the result and the number
    of products are taken from the right operand. *)
Definition mmul (a b : matrix F) : outcome (matrix F) :=
  mbuild (m_rows b) (m_cols b)
    (fun i j => sum_to (m_rows b)
       (fun k => let! x := el (m_values a) i k in let! y := at_ b k j in Ok (fmul x y))).
(** utils/matrix.h:127-151 operator=, with [this] and [other] different objects *)
Definition massign (this other : matrix F) : outcome (matrix F) :=
  mbuild (m_rows other) (m_cols other) (fun i j => at_ other i j).
(** utils/matrix.h:98-103 copy constructor *)
Definition mcopy (other : matrix F) : matrix F := Mat (m_rows other) (m_cols other) (m_values other).
(** utils/matrix.h:182-187 operator+=, 206-211 operator-=, 235-240 operator*= *)
Definition madd_eq (this other : matrix F) : outcome (matrix F) := let! r := madd this other in massign this r.
Definition msub_eq (this other : matrix F) : outcome (matrix F) := let! r := msub this other in massign this r.
Definition mmul_eq (this other : matrix F) : outcome (matrix F) := let! r := mmul this other in massign this r.
(** utils/matrix.h:243-304 operators with a scalar *)
Definition mscalar (op : F -> F -> F) (a : matrix F) (s : F) : outcome (matrix F) :=
  mbuild (m_rows a) (m_cols a) (fun i j => let! x := el (m_values a) i j in Ok (op x s)).
Definition madds := mscalar fadd.
Definition msubs := mscalar fsub.
Definition mmuls := mscalar fmul.
Definition mdivs := mscalar fdiv.

(** utils/matrix.h:311-324 operator*(vector): the result has the size of the vector;
    rows beyond it are written out of bounds. *)
Definition mulvec (m : matrix F) (v : list F) : outcome (list F) :=
  if Nat.ltb (length v) (m_rows m) && Nat.ltb 0 (m_cols m) then Undef
  else build (length v)
    (fun i => if Nat.ltb i (m_rows m)
              then sum_to (m_cols m)
                (fun j => let! x := el (m_values m) i j in
                          match nth_error v j with Some y => Ok (fmul x y) | None => Undef end)
              else Ok (fz 0)).

(** utils/matrix.h:330-338 create_idendity *)
Definition identity (n : nat) : outcome (matrix F) :=
  mbuild n n (fun i j => Ok (if Nat.eqb i j then fz 1 else fz 0)).

(** utils/matrix.h:344-357 transpose: the result keeps the shape of the original *)
Definition transpose (m : matrix F) : outcome (matrix F) :=
  mbuild (m_rows m) (m_cols m) (fun i j => el (m_values m) j i).

(** utils/matrix.h:488-498 fill *)
Definition fill (m : matrix F) (v : F) : outcome (matrix F) :=
  mbuild (m_rows m) (m_cols m) (fun i j => Ok v).

(** utils/matrix.h:531-557 resize *)
Definition resize (m : matrix F) (r c : nat) (v : F) : outcome (matrix F) :=
  mbuild r c (fun i j =>
    if Nat.leb (m_rows m) i || Nat.leb (m_cols m) j then Ok v else el (m_values m) i j).

(** "All of [f 0 .. f (n-1)] are true", evaluated left to right with early exit. *)
Fixpoint all_from (start n : nat) (f : nat -> outcome bool) : outcome bool :=
  match n with
  | O => Ok true
  | S n' => let! b := f start in if b then all_from (S start) n' f else Ok false
  end.
(** "Some of [f 0 .. f (n-1)] is true", evaluated left to right with early exit. *)
Fixpoint any_from (start n : nat) (f : nat -> outcome bool) : outcome bool :=
  match n with
  | O => Ok false
  | S n' => let! b := f start in if b then Ok true else any_from (S start) n' f
  end.

(** utils/matrix.h:154-163 operator==: shapes and values (float comparison) *)
Fixpoint rows_eqb (a b : list (list F)) : bool :=
  match a, b with
  | [], [] => true
  | x :: a', y :: b' => comps_equal x y && rows_eqb a' b'
  | _, _ => false
  end.
Definition meq (a b : matrix F) : bool :=
  Nat.eqb (m_rows a) (m_rows b) && Nat.eqb (m_cols a) (m_cols b) && rows_eqb (m_values a) (m_values b).

(** utils/matrix.h:560-569 is_row_null *)
Definition is_row_null (m : matrix F) (r : nat) : outcome bool :=
  if Nat.leb (m_rows m) r then Ok false
  else all_from 0 (m_cols m) (fun i => let! x := el (m_values m) r i in Ok (feq x (fz 0))).
(** utils/matrix.h:572-581 is_column_null *)
Definition is_column_null (m : matrix F) (c : nat) : outcome bool :=
  if Nat.leb (m_cols m) c then Ok false
  else all_from 0 (m_rows m) (fun i => let! x := el (m_values m) i c in Ok (feq x (fz 0))).
(** utils/matrix.h:584-593 are_rows_equal *)
Definition are_rows_equal (m : matrix F) (r1 r2 : nat) : outcome bool :=
  if Nat.leb (m_rows m) r1 || Nat.leb (m_rows m) r2 then Ok false
  else all_from 0 (m_cols m) (fun i =>
    let! x := el (m_values m) r1 i in let! y := el (m_values m) r2 i in Ok (feq x y)).
(** utils/matrix.h:596-605 are_columns_equal *)
Definition are_columns_equal (m : matrix F) (c1 c2 : nat) : outcome bool :=
  if Nat.leb (m_cols m) c1 || Nat.leb (m_cols m) c2 then Ok false
  else all_from 0 (m_rows m) (fun i =>
    let! x := el (m_values m) i c1 in let! y := el (m_values m) i c2 in Ok (feq x y)).

(** Index of the [i]-th remaining row/column after deleting number [d]. *)
Definition skip (d i : nat) : nat := if Nat.ltb i d then i else S i.

(** utils/matrix.h:642-671 get_cofactor.  The C++ result is padded with zero entries
    to the size of [mat]; they are never read and are not represented. *)
Definition get_cofactor (mat : list (list F)) (r c n : nat) : outcome (list (list F)) :=
  build (n - 1) (fun i => build (n - 1) (fun j => el mat (skip r i) (skip c j))).

(** [sign] of the expansion loops: +1, -1, +1, ... *)
Definition sign_of (k : nat) : Z := if Nat.even k then 1%Z else (-1)%Z.

(** utils/matrix.h:621-636 calculate_determinante: expansion along the first row *)
Fixpoint calculate_determinante (n : nat) (mat : list (list F)) : outcome F :=
  match n with
  | O => Ok (fz 0)
  | S O => el mat 0 0
  | S n' =>
      sum_to n (fun i =>
        let! cf := get_cofactor mat 0 i n in
        let! x := el mat 0 i in
        let! d := calculate_determinante n' cf in
        Ok (fmul (fmul (fofZ (sign_of i)) x) d))
  end.

(** utils/matrix.h:363-425 determinante *)
Definition determinante (m : matrix F) : outcome F :=
  let n := m_rows m in
  if negb (Nat.eqb (m_rows m) (m_cols m)) then Ok (fz 0)
  else if Nat.eqb n 1 then el (m_values m) 0 0
  else
    let! row_null := any_from 0 n (is_row_null m) in
    if row_null then Ok (fz 0) else
    let! col_null := any_from 0 n (is_column_null m) in
    if col_null then Ok (fz 0) else
    let! req := any_from 0 n (fun i => any_from (S i) (n - S i) (are_rows_equal m i)) in
    if req then Ok (fz 0) else
    let! ceq := any_from 0 n (fun i => any_from (S i) (n - S i) (are_columns_equal m i)) in
    if ceq then Ok (fz 0) else
    calculate_determinante n (m_values m).

(** utils/matrix.h:431-457 adjoint *)
Definition adjoint (m : matrix F) : outcome (matrix F) :=
  if negb (Nat.eqb (m_rows m) (m_cols m)) then Ok m
  else if Nat.eqb (m_rows m) 1 then mbuild 1 1 (fun _ _ => Ok (fz 1))
  else mbuild (m_rows m) (m_rows m) (fun j i =>
    let! cf := get_cofactor (m_values m) i j (m_rows m) in
    let! d := calculate_determinante (m_rows m - 1) cf in
    Ok (fmul (fofZ (sign_of (i + j))) d)).

(** utils/matrix.h:463-480 invert *)
Definition invert (m : matrix F) : outcome (matrix F) :=
  let! det := determinante m in
  if feq det (fz 0) then Ok m
  else
    let! adj := adjoint m in
    mbuild (m_rows m) (m_rows m) (fun i j => let! x := at_ adj i j in Ok (fdiv x det)).

End Matrix.
