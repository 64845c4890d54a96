(** * Specification vocabulary for the number of objects a conversion leaves behind (C156) *)
From Coq Require Import List Bool Arith.
From Verif Require Import ColorModel Heap.
Import ListNotations.

(** The conversions with a formula of their own (color_converter.cpp). *)
Definition direct (T : ctype) : list ctype :=
  match T with
  | RGB_TRUE => [RGB_DEEP; GREY_TRUE]
  | RGB_DEEP => [RGB_TRUE; GREY_DEEP; CMYK; HSI; HSV; HSL; HCY; XYZ]
  | GREY_TRUE => [RGB_TRUE; RGB_DEEP; GREY_DEEP]
  | GREY_DEEP => [RGB_TRUE; RGB_DEEP; GREY_TRUE]
  | CMYK | HSI | HCY => [RGB_DEEP]
  | HSV => [RGB_DEEP; HSL]
  | HSL => [RGB_DEEP; HSV]
  | XYZ => [RGB_DEEP; XYY; CIELUV; LAB]
  | XYY => [XYZ]
  | CIELUV => [XYZ; LCH_UV]
  | LAB => [XYZ; LCH_AB]
  | LCH_AB => [LAB]
  | LCH_UV => [CIELUV]
  | UNDEFINED => []
  end.
Definition eqt (T U : ctype) : bool := if ctype_eq_dec T U then true else false.
(** U can be reached from T by at most n direct conversions *)
Fixpoint reach (n : nat) (T U : ctype) : bool :=
  eqt T U || match n with 0 => false | S n => existsb (fun V => reach n V U) (direct T) end.
(** the length of a shortest chain of direct conversions *)
Definition chain (T U : ctype) : nat := length (filter (fun n => negb (reach n T U)) (seq 0 6)).
(** the number of colour objects in the heap grows by n *)
Definition grows_by {F} (n : nat) (h h' : heap F) : Prop := length (colors h') = length (colors h) + n.
