(** * Specification vocabulary for gamma curves, white points and RGB spaces *)
From Coq Require Import Reals List Sorted.
From Verif Require Import Arith Outcome GammaModel MatrixModel SpaceModel RArith Spec_Matrix.
Import ListNotations.

Section Pieces.
Context {F : Type} {AF : Arith F}.
(** no later border is smaller *)
Definition part_le (p q : gamma_part F) : Prop := flt (g_border q) (g_border p) = false.
Definition sorted_parts (l : list (gamma_part F)) : Prop := StronglySorted part_le l.

(** What "the piece that covers [x]" means, for an unordered collection. *)
Definition covers (l : list (gamma_part F)) (p : gamma_part F) (f : F -> F) (x : F) : Prop :=
  In p l /\ g_fun p = Some f /\ fle x (g_border p) = true /\
  forall q g, In q l -> g_fun q = Some g -> fle x (g_border q) = true ->
    q = p \/ flt (g_border p) (g_border q) = true.
Definition uncovered (l : list (gamma_part F)) (x : F) : Prop :=
  forall p f, In p l -> g_fun p = Some f -> fle x (g_border p) = false.

(** The pieces have pairwise different upper borders. *)
Definition distinct_borders (l : list (gamma_part F)) : Prop :=
  ForallOrdPairs (fun p q => flt (g_border p) (g_border q) = true \/ flt (g_border q) (g_border p) = true) l.

End Pieces.

Local Open Scope R_scope.
(** ** White points: stored and computed chromaticity agree up to the relative error [e] *)
Definition rel_err (e stored computed : R) : Prop := Rabs (computed - stored) <= e * stored.
Definition consistent (e : R) (w : white_point R) : Prop :=
  let s := tx w + ty_ w + tz w in
  rel_err e (cx w) (tx w / s) /\ rel_err e (cy w) (ty_ w / s) /\ rel_err e (cz w) (tz w / s).

(** ** RGB spaces *)
Definition scale (t : R) (p : R * R * R) : list R := let '(a, b, c) := p in [t * a; t * b; t * c].
(** What a good colour space is: the statement of C26 *)
Definition white_xyz (w : white_point R) : R * R * R := (tx w, ty_ w, tz w).
Definition proportional (l : list R) (p : R * R * R) : Prop := exists t, t <> 0 /\ l = scale t p.
Definition maps_properly (s : space_def R) (red green blue : R * R * R) (w : white_point R) : Prop :=
  mulvec (s_matrix s) [1; 1; 1] = Ok [tx w; ty_ w; tz w] /\
  (exists l, mulvec (s_matrix s) [1; 0; 0] = Ok l /\ proportional l red) /\
  (exists l, mulvec (s_matrix s) [0; 1; 0] = Ok l /\ proportional l green) /\
  (exists l, mulvec (s_matrix s) [0; 0; 1] = Ok l /\ proportional l blue) /\
  rect 3 3 (s_matrix s) /\ rect 3 3 (s_inverse s) /\
  (exists e, identity 3 = Ok e /\ mmul (s_matrix s) (s_inverse s) = Ok e /\ mmul (s_inverse s) (s_matrix s) = Ok e).
Definition nondegenerate (red green blue w : R * R * R) : Prop :=
  det_cols3 red green blue <> 0 /\ det_cols3 w green blue <> 0 /\ det_cols3 red w blue <> 0 /\ det_cols3 red green w <> 0.
(** A constructed space that satisfies all of it *)
Definition proper (s : space_def R) : Prop :=
  exists a w, s_white s = Some (a, w) /\ s_gamma s <> None /\ maps_properly s (s_red s) (s_green s) (s_blue s) w.
