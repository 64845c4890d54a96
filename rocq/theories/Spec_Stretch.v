(** * Specification vocabulary for adjustments in HSL seen from RGB *)
From Coq Require Import Reals List.
From Verif Require Import Spec_Formula Spec_Adjust.
Import ListNotations.
Local Open Scope R_scope.

(** The middle between the largest and the smallest channel (the lightness of HSL). *)
Definition middle (r g b : R) : R := (largest r g b + smallest r g b) / 2.
(** The middle after the adjustment. *)
Definition middle_after (a : adjustment) (p r g b : R) : R :=
  match a with LuminateHSL => unit_clamp (middle r g b * (1 + p)) | _ => middle r g b end.
(** The factor by which the distances of the channels from the middle change. Saturating
    by [p] multiplies them by 1 + p, but not below 0 and not beyond the point where a
    channel reaches 0 or 1. Changing the lightness keeps them in proportion to the distance
    of the middle from the nearer end of [0, 1]. *)
Definition stretch (a : adjustment) (p r g b : R) : R :=
  let l := middle r g b in
  match a with
  | LuminateHSL => let l' := middle_after a p r g b in Rmin l' (1 - l') / Rmin l (1 - l)
  | _ => Rmax 0 (Rmin (1 + p) (Rmin l (1 - l) / (largest r g b - l)))
  end.
(** The channels after the adjustment, where [b'] stands for the blue channel [b]. *)
Definition stretched (a : adjustment) (p r g b b' : R) : list R :=
  map (fun x => middle_after a p r g b + stretch a p r g b * (x - middle r g b)) [r; g; b'].
