(** * IEEE-754 binary32 arithmetic (the C++ type float), with Flocq.

    All NaNs are identified.  [+ - * /], sqrt, comparisons, fabs, fmod, roundf and the
    int conversions are the exact IEEE / C99 operations.  pow, cos, sin, atan2, exp and
    log10, whose results the C standard does not specify, are parameters: the
    theorems hold for every [oracle]. *)
From Coq Require Import ZArith QArith Reals List Bool.
From Flocq Require Import Core IEEE754.BinarySingleNaN.
From Verif Require Import Arith.

Definition f32 : Set := binary_float 24 128.

Definition prec_gt_0_32 : Prec_gt_0 24 := eq_refl.
Definition prec_lt_emax_32 : Prec_lt_emax 24 128 := eq_refl.
#[global] Existing Instance prec_gt_0_32.
#[global] Existing Instance prec_lt_emax_32.

(** The unspecified library functions. *)
Record oracle := Oracle {
  o_pow : f32 -> f32 -> f32;
  o_cos : f32 -> f32;
  o_sin : f32 -> f32;
  o_atan2 : f32 -> f32 -> f32;
  o_exp : f32 -> f32;
  o_log10 : f32 -> f32
}.

(** The float nearest to [m * 2^e]. *)
Definition normalize (m e : Z) (szero : bool) : f32 :=
  binary_normalize 24 128 prec_gt_0_32 prec_lt_emax_32 mode_NE m e szero.

(** A decimal literal [n/d], correctly rounded: the quotient is computed to 200
    binary places with a sticky bit (rounding to odd) and then rounded to nearest. *)
Definition lit32 (q : Q) : f32 :=
  let n := Qnum q in
  let d := Zpos (Qden q) in
  let a := (Z.abs n * 2 ^ 200)%Z in
  let m := (2 * (a / d) + (if (a mod d =? 0)%Z then 0 else 1))%Z in
  normalize (if (n <? 0)%Z then - m else m) (-201) false.

(** C99 fminf/fmaxf: a NaN argument is ignored; of two zeros the first is returned. *)
Definition fmin32 (x y : f32) : f32 :=
  if is_nan x then y else if is_nan y then x else if Bltb y x then y else x.
Definition fmax32 (x y : f32) : f32 :=
  if is_nan x then y else if is_nan y then x else if Bltb x y then y else x.

(** C99 fmod: exact remainder with the sign of the dividend. *)
Definition fmod32 (x y : f32) : f32 :=
  match x, y with
  | B754_nan, _ | _, B754_nan => B754_nan
  | B754_infinity _, _ => B754_nan
  | _, B754_zero _ => B754_nan
  | B754_zero _, _ => x
  | B754_finite _ _ _ _, B754_infinity _ => x
  | B754_finite sx mx ex _, B754_finite _ my ey _ =>
      let e := Z.min ex ey in
      let X := (Zpos mx * 2 ^ (ex - e))%Z in
      let Y := (Zpos my * 2 ^ (ey - e))%Z in
      let r := (X mod Y)%Z in
      normalize (if sx then - r else r) e sx
  end.

(** (int) conversion: truncation, undefined outside the range of int *)
Definition toZ32 (x : f32) : option Z :=
  if is_finite x then
    let z := Btrunc x in
    if ((-2147483648 <=? z) && (z <=? 2147483647))%Z then Some z else None
  else None.

(** M_PI rounded to float *)
Definition pi32 : f32 := lit32 (314159265358979323846 # 100000000000000000000).

(** The C++ type double, used for one expression only. *)
Definition f64 : Set := binary_float 53 1024.
Definition prec_gt_0_64 : Prec_gt_0 53 := eq_refl.
Definition prec_lt_emax_64 : Prec_lt_emax 53 1024 := eq_refl.
Definition normalize64 (m e : Z) (szero : bool) : f64 :=
  binary_normalize 53 1024 prec_gt_0_64 prec_lt_emax_64 mode_NE m e szero.
(** Conversion of a float to double (exact) and of a double to float (rounded). *)
Definition widen (x : f32) : f64 :=
  match x with
  | B754_nan => B754_nan
  | B754_infinity s => B754_infinity s
  | B754_zero s => B754_zero s
  | B754_finite s m e _ => normalize64 (cond_Zopp s (Zpos m)) e s
  end.
Definition narrow (x : f64) : f32 :=
  match x with
  | B754_nan => B754_nan
  | B754_infinity s => B754_infinity s
  | B754_zero s => B754_zero s
  | B754_finite s m e _ => normalize (cond_Zopp s (Zpos m)) e s
  end.
(** M_PI, the double nearest to pi *)
Definition pi64 : f64 := normalize64 884279719003555 (-48) false.
Definition radians32 (x : f32) : f32 :=
  narrow (@Bdiv 53 1024 prec_gt_0_64 prec_lt_emax_64 mode_NE
    (@Bmult 53 1024 prec_gt_0_64 prec_lt_emax_64 mode_NE (widen x) pi64) (widen (lit32 180))).

Definition F32 (o : oracle) : Arith f32 := {|
  lit := lit32;
  fpi := pi32;
  fradians := radians32;
  fadd := Bplus mode_NE;
  fsub := Bminus mode_NE;
  fmul := Bmult mode_NE;
  fdiv := Bdiv mode_NE;
  fneg := Bopp;
  flt := Bltb;
  fle := Bleb;
  feq := Beqb;
  fmin := fmin32;
  fmax := fmax32;
  ffmod := fmod32;
  fabs := Babs;
  fround := Bnearbyint mode_NA;
  fsqrt := Bsqrt mode_NE;
  fpow := o_pow o;
  fcos := o_cos o;
  fsin := o_sin o;
  fatan2 := o_atan2 o;
  fexp := o_exp o;
  flog10 := o_log10 o;
  fofZ := fun n => normalize n 0 false;
  ftoZ := toZ32
|}.
