(** * Exact real arithmetic, used for the algebraic laws.

    Division by zero is the (meaningless) total function of the standard library, so
    theorems over this instance carry the non-zero conditions explicitly wherever the
    program divides.  Powers with a zero base follow C (0^y = 0 for y > 0), other
    powers are [Rpower] for positive bases, and integer exponents 2 and 3 are the
    ordinary powers for all bases. *)
From Coq Require Import ZArith QArith Qreals Reals Lra Bool.
From Verif Require Import Arith.
Local Open Scope R_scope.

Definition Rltb (x y : R) : bool := if Rlt_dec x y then true else false.
Definition Rleb (x y : R) : bool := if Rle_dec x y then true else false.
Definition Reqb (x y : R) : bool := if Req_EM_T x y then true else false.

(** truncation toward zero *)
Definition Rtrunc (x : R) : Z := if Rle_dec 0 x then Int_part x else (- Int_part (- x))%Z.

(** fmod: the remainder of the truncated quotient *)
Definition Rfmod (x y : R) : R := x - IZR (Rtrunc (x / y)) * y.

(** roundf: nearest integer, halves away from zero *)
Definition Rroundf (x : R) : R :=
  if Rle_dec 0 x then IZR (Int_part (x + / 2)) else - IZR (Int_part (- x + / 2)).

(** C pow on the arguments that occur *)
Definition Rpow_c (x y : R) : R :=
  if Req_EM_T y 2 then x * x
  else if Req_EM_T y 3 then x * x * x
  else if Rlt_dec 0 x then Rpower x y
  else if Req_EM_T y 0 then 1
  else 0.

(** atan2 *)
Definition Ratan2 (y x : R) : R :=
  if Rlt_dec 0 x then atan (y / x)
  else if Rlt_dec x 0 then (if Rle_dec 0 y then atan (y / x) + PI else atan (y / x) - PI)
  else if Rlt_dec 0 y then PI / 2
  else if Rlt_dec y 0 then - (PI / 2)
  else 0.

#[global] Instance RArith : Arith R := {|
  lit := Q2R;
  fpi := PI;
  fradians := fun x => x * PI / 180;
  fadd := Rplus;
  fsub := Rminus;
  fmul := Rmult;
  fdiv := Rdiv;
  fneg := Ropp;
  flt := Rltb;
  fle := Rleb;
  feq := Reqb;
  fmin := Rmin;
  fmax := Rmax;
  ffmod := Rfmod;
  fabs := Rabs;
  fround := Rroundf;
  fsqrt := sqrt;
  fpow := Rpow_c;
  fcos := cos;
  fsin := sin;
  fatan2 := Ratan2;
  fexp := exp;
  flog10 := fun x => ln x / ln 10;
  fofZ := IZR;
  ftoZ := fun x => let z := Rtrunc x in
    if (Z.leb (-2147483648) z && Z.leb z 2147483647)%bool then Some z else None
|}.
