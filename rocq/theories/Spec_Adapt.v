(** * Specification vocabulary for chromatic_adaptation *)
From Coq Require Import ZArith Reals List Bool.
From Verif Require Import Arith Outcome ColorModel SpaceModel Heap Converter RArith Spec Spec_Conv Adapt.
Import ListNotations.

(** The adaptation functions. *)
Inductive method (F : Type) :=
  | VonKries | BradfordSimplified | XyzScale | Sharp | Cmccat97Simplified | Cmccat2000Simplified | Cat02Simplified
  | Bradford | Cmccat97 (f adapting : F) | Cmccat2000 (f adapting reference : F) | Cat02 (f adapting : F).
Arguments VonKries {F}. Arguments BradfordSimplified {F}. Arguments XyzScale {F}. Arguments Sharp {F}. Arguments Cmccat97Simplified {F}.
Arguments Cmccat2000Simplified {F}. Arguments Cat02Simplified {F}. Arguments Bradford {F}. Arguments Cmccat97 {F}. Arguments Cmccat2000 {F}. Arguments Cat02 {F}.

Definition adaptation {F} {AF : Arith F} (m : method F) (p : ptr) (w : white_ptr F) : M F ptr :=
  match m with
  | VonKries => von_kries_adaptation p w
  | BradfordSimplified => bradford_adaptation_simplified p w
  | XyzScale => xyz_scale_adaptation p w
  | Sharp => sharp_adaptation p w
  | Cmccat97Simplified => cmccat97_adaptation_simplified p w
  | Cmccat2000Simplified => cmccat2000_adaptation_simplified p w
  | Cat02Simplified => cat02_adaptation_simplified p w
  | Bradford => bradford_adaptation p w
  | Cmccat97 f a => cmccat97_adaptation p w f a
  | Cmccat2000 f a r => cmccat2000_adaptation p w f a r
  | Cat02 f a => cat02_adaptation p w f a
  end.
(** The seven linear methods without parameters. *)
Definition simplified {F} (m : method F) : bool :=
  match m with Bradford | Cmccat97 _ _ | Cmccat2000 _ _ _ | Cat02 _ _ => false | _ => true end.
(** The two methods that look at the second component of the colour. *)
Definition second_component {F} (m : method F) : bool :=
  match m with Bradford | Cmccat97 _ _ => true | _ => false end.
Definition grey (X : ctype) : bool := match X with GREY_TRUE | GREY_DEEP => true | _ => false end.

(** The colour at [p] has type [X] and refers to the usable space definition [s], whose white
    point is the object [w0] at address [a]. *)
Definition has_white {F} (h : heap F) (c : color F) (s : space_def F) (a : nat) (w0 : white_point F) : Prop :=
  exists i, rgb_space c = Some i /\ nth_error (spaces h) i = Some s /\ usable_space s /\ s_white s = Some (a, w0).

(** [s'] is [s] with another white point. *)
Definition rewhitened {F} (s s' : space_def F) (b : nat) (w : white_point F) : Prop :=
  s_white s' = Some (b, w) /\ s_gamma s' = s_gamma s /\ s_red s' = s_red s /\ s_green s' = s_green s /\ s_blue s' = s_blue s /\ usable_space s'.

(** All colours except the one at [p] are unchanged, and one space definition was added. *)
Definition space_added {F} (h h' : heap F) (p : nat) (s' : space_def F) : Prop :=
  spaces h' = spaces h ++ [s'] /\ forall i c, i <> p -> at_addr h i c -> at_addr h' i c.

(** ** Exact arithmetic *)
Local Open Scope R_scope.
(** A 3x3 matrix, given row by row, times a vector *)
Definition mat3 (l : list R) (v : R * R * R) : R * R * R :=
  match l, v with
  | [a; b; c; d; e; f; g; h; i], (x, y, z) => (a * x + b * y + c * z, d * x + e * y + f * z, g * x + h * y + i * z)
  | _, _ => (0, 0, 0)
  end.
(** The matrix of a method and the matrix used as its inverse *)
Definition method_matrix (m : method R) : list R :=
  match m with
  | VonKries => m_von_kries
  | BradfordSimplified | Bradford => m_bradford
  | XyzScale => m_xyz_scale
  | Sharp => m_sharp
  | Cmccat97Simplified | Cmccat97 _ _ => m_cmccat97
  | Cmccat2000Simplified | Cmccat2000 _ _ _ => m_cmccat2000
  | Cat02Simplified | Cat02 _ _ => m_cat02
  end.
Definition method_inverse (m : method R) : list R :=
  match m with
  | VonKries => m_inverted_von_kries
  | BradfordSimplified | Bradford => m_inverted_bradford
  | XyzScale => m_inverted_xyz_scale
  | Sharp => m_inverted_sharp
  | Cmccat97Simplified | Cmccat97 _ _ => m_inverted_cmccat97
  | Cmccat2000Simplified | Cmccat2000 _ _ _ => m_inverted_cmccat2000
  | Cat02Simplified | Cat02 _ _ => m_inverted_cat02
  end.
Definition white_vec (w : white_point R) : R * R * R := (tx w, ty_ w, tz w).
(** The cone responses of a white point *)
Definition responses (m : method R) (w : white_point R) : R * R * R := mat3 (method_matrix m) (white_vec w).
Definition nonzero3 (v : R * R * R) : Prop := let '(x, y, z) := v in x <> 0 /\ y <> 0 /\ z <> 0.
Definition positive3 (v : R * R * R) : Prop := let '(x, y, z) := v in 0 < x /\ 0 < y /\ 0 < z.
Definition bounded3 (B : R) (v : R * R * R) : Prop := let '(x, y, z) := v in 0 <= x <= B /\ 0 <= y <= B /\ 0 <= z <= B.
Definition scale3 (t : R) (v : R * R * R) : R * R * R := let '(x, y, z) := v in (t * x, t * y, t * z).
Definition add3 (u v : R * R * R) : R * R * R := let '(x, y, z) := u in let '(x', y', z') := v in (x + x', y + y', z + z').
Definition mul3 (u v : R * R * R) : R * R * R := let '(x, y, z) := u in let '(x', y', z') := v in (x * x', y * y', z * z').
Definition div3 (u v : R * R * R) : R * R * R := let '(x, y, z) := u in let '(x', y', z') := v in (x / x', y / y', z / z').
(** The components of the colour are [v], or at most [e] away from [v]. *)
Definition comps_are (c : color R) (v : R * R * R) : Prop := let '(x, y, z) := v in comps c = [x; y; z].
Definition comps_near (e : R) (c : color R) (v : R * R * R) : Prop :=
  let '(x, y, z) := v in exists x' y' z', comps c = [x'; y'; z'] /\ Rabs (x' - x) <= e /\ Rabs (y' - y) <= e /\ Rabs (z' - z) <= e.
Definition clamp100 (v : R * R * R) : R * R * R :=
  let '(x, y, z) := v in (Rmax 0 (Rmin 100 x), Rmax 0 (Rmin 100 y), Rmax 0 (Rmin 100 z)).

(** The degree of adaptation of CAT02 and CMCCAT2000 *)
Definition unit_clamp (d : R) : R := Rmax 0 (Rmin 1 d).
Definition cat02_degree (f La : R) : R := unit_clamp (f * (1 - 1 / (36 / 10) * exp ((- La - 42) / 92))).
Definition cmccat2000_degree (f La Lr : R) : R :=
  unit_clamp (f * (8 / 100 * (ln (1 / 2 * (La + Lr)) / ln 10) + 76 / 100 - 45 / 100 * ((La - Lr) / (La + Lr)))).
Definition mix3 (d : R) (u v : R * R * R) : R * R * R := add3 (scale3 d u) (scale3 (1 - d) v).
