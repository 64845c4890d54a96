(** * Specification vocabulary for calculations with 8-bit colours *)
From Coq Require Import ZArith Reals List.
From Flocq Require Import Core IEEE754.BinarySingleNaN.
From Verif Require Import Arith Outcome ColorModel Heap F32 Spec Spec32 Spec_Error Spec_Blend.
Import ListNotations.
Local Open Scope R_scope.

(** The float is a byte that is nearest to [v]. *)
Definition nearest_byte (v : R) (x : f32) : Prop :=
  exists n, is_byte n /\ is_value x (IZR n) /\ Rabs (IZR n - v) <= 1 / 2.

(** The usual definition (see [textbook]) of the blend modes that follow it. *)
Definition exact_function (m : mode f32) : option (R -> R -> R) :=
  match m with
  | Normal => textbook Normal | Multiply => textbook Multiply | Screen => textbook Screen | HardLight => textbook HardLight
  | Overlay => textbook Overlay | Darken => textbook Darken | Lighten => textbook Lighten | ColorDodge => textbook ColorDodge
  | LinearDodge => textbook LinearDodge | PlusLighter => textbook PlusLighter | LinearBurn => textbook LinearBurn
  | PlusDarker => textbook PlusDarker | LinearLight => textbook LinearLight | PinLight => textbook PinLight
  | HardMix => textbook HardMix | Difference => textbook Difference | Subtract => textbook Subtract | Divide => textbook Divide
  | Exclusion => textbook Exclusion
  | ColorBurn | SoftLight | VividLight | Dissolve _ | Custom _ => None
  end.

(** The byte of a blended channel before rounding: the function of the mode on the bytes
    [s] and [d], taken as fractions of 255, cut to [0, 1]. *)
Definition blended_byte (t : R -> R -> R) (s d : Z) : R := 255 * Rmax 0 (Rmin 1 (t (IZR s / 255) (IZR d / 255))).

(** The operators that show the source, respectively the destination, where both are opaque. *)
Definition shows_source (p : operator) : bool := match p with Src | Over | Atop | In_ => true | _ => false end.
Definition shows_destination (p : operator) : bool := match p with Dest | DestOver | DestAtop | DestIn => true | _ => false end.

(** An 8-bit RGB colour whose components are whole numbers. *)
Definition whole (d : color f32) : Prop := exists r g b, is_byte r /\ is_byte g /\ is_byte b /\ has_bytes r g b d.
(** A float that is no whole number. *)
Definition broken (x : f32) : Prop := is_finite x = true /\ forall n, B2R x <> IZR n.

(** The float is a byte at most [1 / 2 + e] away from [v]. *)
Definition close_byte (e v : R) (x : f32) : Prop :=
  exists n, is_byte n /\ is_value x (IZR n) /\ Rabs (IZR n - v) <= 1 / 2 + e.

(** Coverage of a blend and the mixture of source, destination and blended value, for
    coverages [a] (source) and [b]; the flags tell which areas count. *)
Definition coverage (us ud ub : bool) (a b : R) : R :=
  (if us then a * (1 - b) else 0) + (if ud then b * (1 - a) else 0) + (if ub then a * b else 0).
Definition mixture (us ud ub : bool) (a b s d t : R) : R :=
  (if us then a * (1 - b) else 0) * s + (if ud then b * (1 - a) else 0) * d + (if ub then a * b else 0) * t.

(** The channel of a blend of translucent 8-bit colours: with alphas [i] and [j] of 255, source
    byte [s], destination byte [d] and blend function [t] the byte [x] is close to the mixture divided by the coverage,
    cut to [0, 1]; it is zero where nothing is covered. *)
Definition veiled_byte (e : R) (us ud ub : bool) (i j s d : Z) (t : R) (x : f32) : Prop :=
  let a := IZR i / 255 in let b := IZR j / 255 in
  (coverage us ud ub a b = 0 -> is_value x 0) /\
  (0 < coverage us ud ub a b -> close_byte e (255 * Rmax 0 (Rmin 1 (mixture us ud ub a b (IZR s / 255) (IZR d / 255) t / coverage us ud ub a b))) x).

(** The same for an operator of Porter and Duff. *)
Definition composed_byte (e : R) (p : operator) (i j s d : Z) (x : f32) : Prop :=
  let a := IZR i / 255 in let b := IZR j / 255 in let '(fa, fb) := fractions p a b in
  (fa * a + fb * b = 0 -> is_value x 0) /\
  (0 < fa * a + fb * b -> close_byte e ((fa * a * IZR s + fb * b * IZR d) / (fa * a + fb * b)) x).
Definition composed_alpha (p : operator) (i j : Z) : R := let '(fa, fb) := fractions p (IZR i / 255) (IZR j / 255) in fa * IZR i + fb * IZR j.

(** The i-th components of the colours are the bytes [bs]; their alphas are. *)
Definition bytes_at (i : nat) (cs : list (color f32)) (bs : list Z) : Prop :=
  Forall2 (fun c n => is_byte n /\ comp_sat c i (fun x => is_value x (IZR n))) cs bs.
Definition alpha_bytes (o : oracle) (cs : list (color f32)) (bs : list Z) : Prop :=
  Forall2 (fun c n => is_byte n /\ is_value (@alpha f32 (F32 o) c) (IZR n)) cs bs.

(** The float is the number [v] rounded once: the nearest binary32 number, ties to even. *)
Definition rounded (v : R) (x : f32) : Prop := is_value x (round radix2 (FLT_exp (-149) 24) ZnearestE v).
Definition total (bs : list Z) : Z := fold_right Z.add 0%Z bs.

(** The float is the mean of the bytes, rounded once; it is a whole number exactly where
    the mean is. *)
Definition mean_byte (bs : list Z) (x : f32) : Prop :=
  let n := Z.of_nat (length bs) in let v := IZR (total bs) / IZR n in
  rounded v x /\ approx v (/ 65536) x /\ ((n | total bs)%Z -> is_value x (IZR (total bs / n))) /\ (~ (n | total bs)%Z -> broken x).
Definition mean_alpha (bs : list Z) (x : f32) : Prop :=
  let n := Z.of_nat (length bs) in
  approx (IZR (total bs) / IZR n) (/ 20000) x /\ ((n | total bs)%Z -> is_value x (IZR (total bs / n))).

(** The colour [r] is the mean of the colours [cs], the first of which is [c]. *)
Definition mean_colour (o : oracle) (ia : bool) (X : ctype) (cs : list (color f32)) (c : color f32) (r : color f32) : Prop :=
  @wf_color f32 (F32 o) X r /\ rgb_space r = rgb_space c /\
  (forall i bs, (i < arity X)%nat -> bytes_at i cs bs -> comp_sat r i (mean_byte bs)) /\
  (ia = true -> forall bs, alpha_bytes o cs bs -> mean_alpha bs (@alpha f32 (F32 o) r)) /\
  (ia = false -> forall n, is_byte n -> is_value (@alpha f32 (F32 o) c) (IZR n) -> is_value (@alpha f32 (F32 o) r) (IZR n)).
