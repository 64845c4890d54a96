(** * Specification vocabulary for round trips *)
From Coq Require Import ZArith Reals List.
From Verif Require Import Arith Outcome ColorModel SpaceModel Heap Spec_Conv.
Import ListNotations.

Section Round.
Context {F : Type} {AF : Arith F}.

(** Calling [go] on the colour at [p], and [back] on its result, returns two objects
    related by [P] (the intermediate and the final colour). *)
Definition via (go back : ptr -> M F ptr) (h : heap F) (p : nat) (P : color F -> color F -> Prop) : Prop :=
  exists q i m r h1 h2, go (Some p) h = (Ok (Some q), h1) /\ at_addr h1 q m /\
    back (Some q) h1 = (Ok (Some i), h2) /\ at_addr h2 i r /\ P m r.

(** Calling [go] returns an object satisfying [P]. *)
Definition yields (go : ptr -> M F ptr) (h : heap F) (p : nat) (P : color F -> Prop) : Prop :=
  exists q m h1, go (Some p) h = (Ok (Some q), h1) /\ at_addr h1 q m /\ P m.

(** Same type, components, alpha and RGB space. *)
Definition same_colour (c r : color F) : Prop :=
  ty r = ty c /\ comps r = comps c /\ m_alpha r = m_alpha c /\ rgb_space r = rgb_space c.

End Round.

Local Open Scope R_scope.
(** The hue of the RGB colour lies strictly between 359 and 360 degrees: red is the
    largest channel, green the smallest, and 60 (green - blue) / (red - green) > -1. *)
Definition near_360 (r g b : R) : Prop := g < b <= r /\ 60 * (b - g) < r - g.

(** The white point of the RGB space the colour refers to. *)
Definition white_of {F} {AF : Arith F} (h : heap F) (c : color F) (w : white_point F) : Prop :=
  exists i s a, rgb_space c = Some i /\ nth_error (spaces h) i = Some s /\ s_white s = Some (a, w).

(** The CIE compression function of L*a*b* (CIE 15): a cube root, linear near zero. *)
Definition cie_f (t : R) : R :=
  if Rlt_dec (216 / 24389) t then Rpower t (1 / 3) else (24389 / 27 * t + 16) / 116.
(** The three CIE L*a*b* coordinates of (X, Y, Z) for the white point [w]. *)
Definition cie_L (w : white_point R) (y : R) : R := 116 * cie_f (y / ty_ w) - 16.
Definition cie_a (w : white_point R) (x y : R) : R := 500 * (cie_f (x / tx w) - cie_f (y / ty_ w)).
Definition cie_b (w : white_point R) (y z : R) : R := 200 * (cie_f (y / ty_ w) - cie_f (z / tz w)).
