(** * C201: the predefined colours are the named colours of CSS *)
From Coq Require Import ZArith List Bool String.
From Verif Require Import Arith Outcome ColorModel HexModel F32 Spec Spec32 Spec_Css Hex_Proofs Css_Proofs.
Import ListNotations.
Local Open Scope Z_scope.

Theorem C201_table : forall n v, In (n, v) hexcode_colors <-> (n = "Transparent"%string /\ v = 16777215) \/ exists c, In (n, c) css_colors /\ v = opaque c.
Proof. exact css_table. Qed.
Print Assumptions C201_table.
Theorem C201_colours : forall o n r g b sp, In (n, (r, g, b)) css_colors ->
  exists v c, In (n, v) hexcode_colors /\ @predefined_color f32 (F32 o) v sp = Ok c /\ has_channels c o 255 r g b sp.
Proof. exact css_colour. Qed.
Print Assumptions C201_colours.
Theorem C201_transparent : forall o sp, exists v c, In ("Transparent"%string, v) hexcode_colors /\ @predefined_color f32 (F32 o) v sp = Ok c /\ has_channels c o 0 255 255 255 sp.
Proof. exact css_transparent. Qed.
Print Assumptions C201_transparent.
Example C201_example : List.length css_colors = 140%nat /\ In ("Crimson"%string, (220, 20, 60)) css_colors /\ opaque (220, 20, 60) = 4292613180.
Proof. split; [reflexivity|]. split; [|reflexivity]. cbn. tauto. Qed.
