(** * Arithmetic interface of the model.

    Every numeric function of the C++ program is written once, over an
    abstract carrier [F] of "float" values.  Two instances are used:
    [F32] (file F32.v, IEEE-754 binary32, what the program computes with) and
    [RArith] (file RArith.v, exact real numbers, used for algebraic laws that
    hold "up to rounding" in the program).

    The source mixes a double into a float expression in one place,
    [(float)(hue * M_PI / 180.f)]; this is the operation [fradians]. *)
From Coq Require Import ZArith QArith List Bool.
Import ListNotations.

Class Arith (F : Type) := {
  (** literal constants, e.g. [255.f] *)
  lit : Q -> F;
  (** the constant [(float)M_PI] *)
  fpi : F;
  (** [(float)(x * M_PI / 180.f)], evaluated in double *)
  fradians : F -> F;
  (** + - * / and unary minus *)
  fadd : F -> F -> F;
  fsub : F -> F -> F;
  fmul : F -> F -> F;
  fdiv : F -> F -> F;
  fneg : F -> F;
  (** [<], [<=], [==] on floats *)
  flt : F -> F -> bool;
  fle : F -> F -> bool;
  feq : F -> F -> bool;
  (** C library: fminf, fmaxf, fmod, fabs, roundf, sqrt *)
  fmin : F -> F -> F;
  fmax : F -> F -> F;
  ffmod : F -> F -> F;
  fabs : F -> F;
  fround : F -> F;
  fsqrt : F -> F;
  (** C library: pow, cos, sin, atan2, exp, log10 *)
  fpow : F -> F -> F;
  fcos : F -> F;
  fsin : F -> F;
  fatan2 : F -> F -> F;
  fexp : F -> F;
  flog10 : F -> F;
  (** conversion from int; conversion to int (None: out of range, undefined behaviour) *)
  fofZ : Z -> F;
  ftoZ : F -> option Z
}.

Declare Scope fl_scope.
Delimit Scope fl_scope with fl.
Bind Scope fl_scope with Arith.
Infix "+" := fadd : fl_scope.
Infix "-" := fsub : fl_scope.
Infix "*" := fmul : fl_scope.
Infix "/" := fdiv : fl_scope.
Infix "<?" := flt : fl_scope.
Infix "<=?" := fle : fl_scope.
Infix "==?" := feq (at level 70, no associativity) : fl_scope.
Notation "- x" := (fneg x) : fl_scope.

(** [# n] is the integer literal [n.f] *)
Definition fz {F} `{Arith F} (n : Z) : F := lit (inject_Z n).

(** The greater-than comparisons are the swapped ones. *)
Definition fgt {F} `{Arith F} (a b : F) : bool := flt b a.
Definition fge {F} `{Arith F} (a b : F) : bool := fle b a.
