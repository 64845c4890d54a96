(** * Specification vocabulary: turning the hue of an RGB colour by multiples of 60 degrees *)
From Coq Require Import ZArith Reals List.
From Verif Require Import Spec_Round Spec_Formula.
Import ListNotations.
Local Open Scope R_scope.

(** The channels of the colour whose hue is 60 degrees further: mirror the channels between the
    largest and the smallest one and shift them by one place. *)
Definition turn (p : R * R * R) : R * R * R :=
  let '(r, g, b) := p in let s := largest r g b + smallest r g b in (s - g, s - b, s - r).
Definition turns (j : nat) (p : R * R * R) : R * R * R := Nat.iter j turn p.

(** The hue is between 359 and 360 degrees, where the library cuts it (C42). *)
Definition in_last_degree (p : R * R * R) : Prop := let '(r, g, b) := p in near_360 r g b.

Definition channels (p : R * R * R) : list R := let '(r, g, b) := p in [r; g; b].

(** The same for bytes. *)
Definition byte_turn (t : Z * Z * Z) : Z * Z * Z :=
  let '(r, g, b) := t in let s := (Z.max r (Z.max g b) + Z.min r (Z.min g b))%Z in (s - g, s - b, s - r)%Z.
Definition byte_turns (j : nat) (t : Z * Z * Z) : Z * Z * Z := Nat.iter j byte_turn t.
Definition reals (t : Z * Z * Z) : R * R * R := let '(r, g, b) := t in (IZR r, IZR g, IZR b).
