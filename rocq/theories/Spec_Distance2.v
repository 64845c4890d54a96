(** * Delta E 2000 with the choices made by an implementation left open *)
From Coq Require Import ZArith QArith Reals List Bool.
From Verif Require Import Arith RArith Spec_Distance.
Import ListNotations.
Local Open Scope R_scope.

(** The formula of Sharma, Wu and Dalal with
    - [hue b a]: the hue angle in degrees,
    - [primed]: whether the chroma is recomputed after the a component was stretched,
    - [far h1 h2]: the mean of two hues more than 180 degrees apart,
    - [grey]: whether the mean hue is the sum of the hues if one chroma is 0,
    - [s]: the sign of the exponent in the rotation term. *)
Definition ciede2000_with (hue : R -> R -> R) (primed : bool) (far : R -> R -> R) (grey : bool) (s : R)
    (kL k1 k2 kC kH : R) (v w : list R) : R :=
  match v, w with
  | [l1; a1; b1], [l2; a2; b2] =>
      let cm := (sqrt (a1 * a1 + b1 * b1) + sqrt (a2 * a2 + b2 * b2)) / 2 in
      let g := (1 - chroma_factor cm) / 2 in
      let a1' := (1 + g) * a1 in
      let a2' := (1 + g) * a2 in
      let c1 := if primed then sqrt (a1' * a1' + b1 * b1) else sqrt (a1 * a1 + b1 * b1) in
      let c2 := if primed then sqrt (a2' * a2' + b2 * b2) else sqrt (a2 * a2 + b2 * b2) in
      let h1 := hue b1 a1' in
      let h2 := hue b2 a2' in
      let dh := if Req_EM_T (c1 * c2) 0 then 0
                else if Rle_dec (Rabs (h2 - h1)) 180 then h2 - h1
                else if Rlt_dec 180 (h2 - h1) then h2 - h1 - 360 else h2 - h1 + 360 in
      let dH := 2 * sqrt (c1 * c2) * sin (radians (dh / 2)) in
      let lm := (l1 + l2) / 2 in
      let c' := (c1 + c2) / 2 in
      let near := if Rle_dec (Rabs (h1 - h2)) 180 then (h1 + h2) / 2 else far h1 h2 in
      let hm := if grey then (if Req_EM_T (c1 * c2) 0 then h1 + h2 else near) else near in
      let t := 1 - 17 / 100 * cos (radians (hm - 30)) + 24 / 100 * cos (radians (2 * hm))
                 + 32 / 100 * cos (radians (3 * hm + 6)) - 20 / 100 * cos (radians (4 * hm - 63)) in
      let sl := 1 + k2 * ((lm - 50) * (lm - 50)) / sqrt (20 + (lm - 50) * (lm - 50)) in
      let sc := 1 + k1 * c' in
      let sh := 1 + k2 * c' * t in
      let rt := - 2 * chroma_factor c' * sin (radians (60 * exp (s * ((hm - 275) / 25 * ((hm - 275) / 25))))) in
      let x := (l2 - l1) / (kL * sl) in
      let y := (c2 - c1) / (kC * sc) in
      let z := dH / (kH * sh) in
      sqrt (x * x + y * y + z * z + rt * y * z)
  | _, _ => 0
  end.

(** The published choice of the mean of hues more than 180 degrees apart. *)
Definition far_mean (h1 h2 : R) : R := if Rlt_dec (h1 + h2) 360 then (h1 + h2 + 360) / 2 else (h1 + h2 - 360) / 2.

(** The hue angle truncated towards 0 before it is moved to 0 .. 359. *)
Definition whole_hue (b a : R) : R := let t := Rtrunc (Ratan2 b a * (180 / PI)) in IZR (if (t <? 0)%Z then t + 360 else t)%Z.
