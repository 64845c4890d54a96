(** * Specification vocabulary for color_distance *)
From Coq Require Import ZArith QArith Reals List Bool.
From Flocq Require Import Core IEEE754.BinarySingleNaN.
From Verif Require Import Arith Outcome ColorModel Heap Converter F32 RArith Spec Spec32 Spec_Conv Spec_Calc Distance.
Import ListNotations.

(** The objects [d1] and [d2] to which the colours at [p1] and [p2] are converted, one after
    the other. *)
Definition converted_pair {F} {AF : Arith F} (Y : ctype) (h : heap F) (p1 p2 : nat) (h' : heap F) (d1 d2 : color F) : Prop :=
  exists a1 h1 a2, to_type Y (Some p1) h = (Ok (Some a1), h1) /\ to_type Y (Some p2) h1 = (Ok (Some a2), h') /\
    at_addr h' a1 d1 /\ at_addr h' a2 d2.

(** The distance functions and the type in which they compare. *)
Inductive distance_fun (F : Type) :=
  | Squared (s : ctype) | Euclid (s : ctype) | Weighted | Cie76
  | Cie94 (kL k1 k2 kC kH : F) | Cie00 (kL k1 k2 kC kH : F) | Cmc (l c : F).
Arguments Squared {F}. Arguments Euclid {F}. Arguments Weighted {F}. Arguments Cie76 {F}.
Arguments Cie94 {F}. Arguments Cie00 {F}. Arguments Cmc {F}.
Definition distance {F} {AF : Arith F} (d : distance_fun F) (p q : ptr) : M F F :=
  match d with
  | Squared s => euclidean_distance_squared p q s
  | Euclid s => euclidean_distance p q s
  | Weighted => euclidean_distance_weighted p q
  | Cie76 => cielab_delta_e_cie76 p q
  | Cie94 kL k1 k2 kC kH => cielab_delta_e_cie94 p q kL k1 k2 kC kH
  | Cie00 kL k1 k2 kC kH => cielab_delta_e_cie00 p q kL k1 k2 kC kH
  | Cmc l c => cmc_delta_e_lc84 p q l c
  end.
Definition compared_in {F} (d : distance_fun F) : ctype :=
  match d with
  | Squared CIELUV => CIELUV
  | Squared _ | Euclid _ | Weighted => RGB_DEEP
  | _ => LAB
  end.

(** The Euclidean distance of two lists of numbers. *)
Definition squared_distance (v w : list R) : R := fold_right Rplus 0%R (map2 (fun a b => (a - b) * (a - b))%R v w).
Definition euclid (v w : list R) : R := sqrt (squared_distance v w).

(** The weighted distance of two RGB colours (https://www.compuphase.com/cmetric.htm), on
    channels from 0 to 1. *)
Definition redmean (v w : list R) : R :=
  match v, w with
  | [r1; g1; b1], [r2; g2; b2] =>
      let m := (255 * (r1 + r2) / 2)%R in
      sqrt ((2 + m / 256) * ((r1 - r2) * (r1 - r2)) + 4 * ((g1 - g2) * (g1 - g2)) + (2 + (255 - m) / 256) * ((b1 - b2) * (b1 - b2)))%R
  | _, _ => 0%R
  end.

(** Delta E (CIE 1994) with reference colour (l1, a1, b1). *)
Definition delta_e_94 (kL k1 k2 kC kH : R) (v w : list R) : R :=
  match v, w with
  | [l1; a1; b1], [l2; a2; b2] =>
      let c1 := sqrt (a1 * a1 + b1 * b1) in
      let c2 := sqrt (a2 * a2 + b2 * b2) in
      let dl := ((l1 - l2) / kL)%R in
      let dc := ((c1 - c2) / (kC * (1 + k1 * c1)))%R in
      let h2 := ((a1 - a2) * (a1 - a2) + (b1 - b2) * (b1 - b2) - (c1 - c2) * (c1 - c2))%R in
      let sh := (kH * (1 + k2 * c1))%R in
      sqrt (dl * dl + dc * dc + h2 / (sh * sh))
  | _, _ => 0%R
  end.

(** The value of the distance functions with a simple formula, and parameters that make sense. *)
Definition value (d : distance_fun R) (v w : list R) : option R :=
  match d with
  | Squared _ => Some (squared_distance v w)
  | Euclid _ | Cie76 => Some (euclid v w)
  | Weighted => Some (redmean v w)
  | Cie94 kL k1 k2 kC kH => Some (delta_e_94 kL k1 k2 kC kH v w)
  | _ => None
  end.
Definition sensible (d : distance_fun R) : Prop :=
  match d with
  | Cie94 kL k1 k2 kC kH | Cie00 kL k1 k2 kC kH => (0 < kL /\ 0 <= k1 /\ 0 <= k2 /\ 0 < kC /\ 0 < kH)%R
  | Cmc l c => (0 < l /\ 0 < c)%R
  | _ => True
  end.

(** Delta E 2000 as published (Sharma, Wu, Dalal 2005), angles in degrees. *)
Section CIEDE2000.
Local Open Scope R_scope.
Definition radians (x : R) : R := x * (PI / 180).
Definition hue_angle (b a : R) : R := let t := Ratan2 b a * (180 / PI) in if Rlt_dec t 0 then t + 360 else t.
Definition chroma_factor (c : R) : R := sqrt (c ^ 7 / (c ^ 7 + 25 ^ 7)).
Definition ciede2000 (kL kC kH : R) (v w : list R) : R :=
  match v, w with
  | [l1; a1; b1], [l2; a2; b2] =>
      let cm := (sqrt (a1 * a1 + b1 * b1) + sqrt (a2 * a2 + b2 * b2)) / 2 in
      let g := (1 - chroma_factor cm) / 2 in
      let a1' := (1 + g) * a1 in
      let a2' := (1 + g) * a2 in
      let c1 := sqrt (a1' * a1' + b1 * b1) in
      let c2 := sqrt (a2' * a2' + b2 * b2) in
      let h1 := hue_angle b1 a1' in
      let h2 := hue_angle b2 a2' in
      let dh := if Req_EM_T (c1 * c2) 0 then 0
                else if Rle_dec (Rabs (h2 - h1)) 180 then h2 - h1
                else if Rlt_dec 180 (h2 - h1) then h2 - h1 - 360 else h2 - h1 + 360 in
      let dH := 2 * sqrt (c1 * c2) * sin (radians (dh / 2)) in
      let lm := (l1 + l2) / 2 in
      let c' := (c1 + c2) / 2 in
      let hm := if Req_EM_T (c1 * c2) 0 then h1 + h2
                else if Rle_dec (Rabs (h1 - h2)) 180 then (h1 + h2) / 2
                else if Rlt_dec (h1 + h2) 360 then (h1 + h2 + 360) / 2 else (h1 + h2 - 360) / 2 in
      let t := 1 - 17 / 100 * cos (radians (hm - 30)) + 24 / 100 * cos (radians (2 * hm))
                 + 32 / 100 * cos (radians (3 * hm + 6)) - 20 / 100 * cos (radians (4 * hm - 63)) in
      let sl := 1 + 15 / 1000 * ((lm - 50) * (lm - 50)) / sqrt (20 + (lm - 50) * (lm - 50)) in
      let sc := 1 + 45 / 1000 * c' in
      let sh := 1 + 15 / 1000 * c' * t in
      let rt := - 2 * chroma_factor c' * sin (radians (60 * exp (- ((hm - 275) / 25 * ((hm - 275) / 25))))) in
      let x := (l2 - l1) / (kL * sl) in
      let y := (c2 - c1) / (kC * sc) in
      let z := dH / (kH * sh) in
      sqrt (x * x + y * y + z * z + rt * y * z)
  | _, _ => 0
  end.
End CIEDE2000.

(** CMC l:c (1984) as published, with reference colour (l1, a1, b1). *)
Section CMC.
Local Open Scope R_scope.
Definition cmc_hue_weight (h : R) : R :=
  if Rle_dec 164 h then
    if Rle_dec h 345 then 56 / 100 + Rabs (2 / 10 * cos (radians (h + 168))) else 36 / 100 + Rabs (4 / 10 * cos (radians (h + 35)))
  else 36 / 100 + Rabs (4 / 10 * cos (radians (h + 35))).
Definition cmc_lc84 (l c : R) (v w : list R) : R :=
  match v, w with
  | [l1; a1; b1], [l2; a2; b2] =>
      let c1 := sqrt (a1 * a1 + b1 * b1) in
      let c2 := sqrt (a2 * a2 + b2 * b2) in
      let h2 := (a1 - a2) * (a1 - a2) + (b1 - b2) * (b1 - b2) - (c1 - c2) * (c1 - c2) in
      let f := sqrt (c1 ^ 4 / (c1 ^ 4 + 1900)) in
      let t := cmc_hue_weight (hue_angle b1 a1) in
      let sl := if Rlt_dec l1 16 then 511 / 1000 else 40975 / 1000000 * l1 / (1 + 1765 / 100000 * l1) in
      let sc := 638 / 10000 * c1 / (1 + 131 / 10000 * c1) + 638 / 1000 in
      let sh := sc * (f * t + 1 - f) in
      let x := (l1 - l2) / (l * sl) in
      let y := (c1 - c2) / (c * sc) in
      sqrt (x * x + y * y + h2 / (sh * sh))
  | _, _ => 0
  end.
End CMC.

(** Facts about the C library (IEEE 754 binary32) used for single colours: squares are
    rounded products, e^121 overflows, the sine of infinity is not a number. *)
Definition squares (o : oracle) : Prop := forall x, o_pow o x (lit32 2) = Bmult mode_NE x x.
Definition libm_values (o : oracle) : Prop :=
  squares o /\ o_pow o (lit32 16) (lit32 7) = lit32 268435456 /\ o_pow o (lit32 25) (lit32 7) = lit32 6103515648 /\
  (forall x, Bltb (lit32 0) x = true -> o_atan2 o (lit32 0) x = lit32 0) /\
  o_exp o (lit32 121) = B754_infinity false /\ o_sin o (B754_infinity false) = B754_nan.
