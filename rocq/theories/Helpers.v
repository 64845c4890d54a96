(** * The helpers of color_converter.cpp that no conversion uses any more *)
From Coq Require Import ZArith QArith List Bool.
From Verif Require Import Arith Outcome.
Import ListNotations.
Local Open Scope fl_scope.

Section Helpers.
Context {F : Type} {AF : Arith F}.
Local Notation "$ n" := (fz n%Z) (at level 1, n at level 0, format "$ n").

(** color_converter.cpp:1378-1399 hsl_to_rgb_helper (the overload with three floats) *)
Definition hsl_channel (var1 var2 var3 : F) : F :=
  let var3 := if var3 <? $0 then var3 + $1 else var3 in
  let var3 := if $1 <? var3 then var3 - $1 else var3 in
  if var3 <? $1 / $6 then var2 + (var1 - var2) * $6 * var3
  else if var3 <? lit (1 # 2) then var1
  else if var3 <? $2 / $3 then var2 + (var1 - var2) * ($2 / $3 - var3) * $6
  else var2.

(** color_converter.cpp:656-671, the version of hsl_to_rgb_deep kept in a comment *)
Definition hsl_to_rgb_old (hue saturation lightness : F) : list F :=
  let temp_h := hue / $360 in
  let var1 := if lightness <? lit (1 # 2) then lightness * ($1 + saturation)
              else lightness + saturation - (lightness * saturation) in
  let var2 := $2 * lightness - var1 in
  [hsl_channel var1 var2 (temp_h + $1 / $3); hsl_channel var1 var2 temp_h; hsl_channel var1 var2 (temp_h - $1 / $3)].

(** color_converter.cpp:1444-1448 round_float_to_n_decimals; the conversion to int is undefined
    when the truncated value does not fit *)
Definition round_float_to_n_decimals (in_float n : F) : outcome F :=
  let factor := fpow $10 n in
  match ftoZ (in_float * factor + lit (1 # 2)) with
  | Some z => Ok (fofZ z / factor)
  | None => Undef
  end.

End Helpers.
