(** * Specification vocabulary for distances of 8-bit colours *)
From Coq Require Import ZArith Reals List.
From Flocq Require Import Core IEEE754.BinarySingleNaN.
From Verif Require Import Arith Outcome ColorModel F32 Spec Spec32 Spec_Distance Spec_Error.
Import ListNotations.
Local Open Scope R_scope.

(** powf squares accurately: the relative error of powf(x, 2) is at most 2^-20 (8 units in the
    last place; plus 2^-60), and powf(0, 2) is 0. *)
Definition accurate_square (o : oracle) : Prop := forall x : f32, is_finite x = true -> Rabs (B2R x) <= 1024 ->
  is_finite (o_pow o x (@fz f32 (F32 o) 2)) = true /\ (B2R x = 0 -> B2R (o_pow o x (@fz f32 (F32 o) 2)) = 0) /\
  Rabs (B2R (o_pow o x (@fz f32 (F32 o) 2)) - B2R x * B2R x) <= B2R x * B2R x / 1048576 + / 2 ^ 60.

(** powf(-x, 2) and powf(x, 2) are the same. *)
Definition even_square (o : oracle) : Prop := forall x : f32, is_finite x = true ->
  o_pow o (Bopp x) (@fz f32 (F32 o) 2) = o_pow o x (@fz f32 (F32 o) 2).

(** The three bytes of an 8-bit RGB colour, and the distance of two of them on channels from 0 to 1. *)
Definition bytes3 : Type := (Z * Z * Z)%type.
Definition is_bytes (t : bytes3) : Prop := let '(r, g, b) := t in is_byte r /\ is_byte g /\ is_byte b.
Definition holds_bytes (t : bytes3) (c : color f32) : Prop := let '(r, g, b) := t in has_bytes r g b c.
Definition fractions_of (t : bytes3) : list R := let '(r, g, b) := t in [IZR r / 255; IZR g / 255; IZR b / 255].
Definition byte_distance (s t : bytes3) : R := euclid (fractions_of s) (fractions_of t).

(** Every byte of the first triple is at most the one of the second. *)
Definition bytes_le (s t : bytes3) : Prop := let '(r1, g1, b1) := s in let '(r2, g2, b2) := t in (r1 <= r2)%Z /\ (g1 <= g2)%Z /\ (b1 <= b2)%Z.
(** Two finite floats, the first below the second. *)
Definition rising (x y : f32) : Prop := is_finite x = true /\ is_finite y = true /\ B2R x < B2R y.
