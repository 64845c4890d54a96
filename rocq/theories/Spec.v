(** * Specification vocabulary, independent of the code model's helpers.

    What a reader has to know to read the theorems: how many components each colour
    class has, in which interval each of them has to be, and what "in range" means. *)
From Coq Require Import ZArith List Bool.
From Verif Require Import Arith ColorModel.
Import ListNotations.
Local Open Scope Z_scope.

(** The fifteen colour types. *)
Definition all_types : list ctype :=
  [RGB_TRUE; RGB_DEEP; GREY_TRUE; GREY_DEEP; CMYK; HSI; HSV; HSL; HCY;
   XYZ; XYY; CIELUV; LAB; LCH_AB; LCH_UV].

(** Number of components of a colour of each type. *)
Definition arity (k : ctype) : nat :=
  match k with
  | GREY_TRUE | GREY_DEEP => 1
  | CMYK => 4
  | UNDEFINED => 0
  | _ => 3
  end.

(** Documented interval of component [i] of type [k] (see the doc comments of the
    headers in spaces/). *)
Definition comp_range (k : ctype) (i : nat) : Z * Z :=
  match k, i with
  | (RGB_TRUE | GREY_TRUE), _ => (0, 255)
  | (RGB_DEEP | GREY_DEEP | CMYK), _ => (0, 1)
  | (HSI | HSV | HSL | HCY), O => (0, 359)
  | (HSI | HSV | HSL | HCY), _ => (0, 1)
  | (XYZ | XYY), _ => (0, 100)
  | LAB, O => (0, 100)
  | LAB, _ => (-128, 128)
  | CIELUV, O => (0, 100)
  | CIELUV, _ => (-100, 100)
  | (LCH_AB | LCH_UV), 2%nat => (0, 359)
  | (LCH_AB | LCH_UV), _ => (0, 100)
  | UNDEFINED, _ => (0, 0)
  end.

(** The limits get_component_min()/get_component_max() report for each type. *)
Definition limits (k : ctype) : Z * Z :=
  match k with
  | RGB_TRUE | GREY_TRUE => (0, 255)
  | XYZ | XYY | LCH_AB | LCH_UV => (0, 100)
  | LAB => (-128, 128)
  | CIELUV => (-100, 100)
  | _ => (0, 1)
  end.

(** 8-bit types report alpha on a 0..255 scale. *)
Definition eight_bit (k : ctype) : bool :=
  match k with RGB_TRUE | GREY_TRUE => true | _ => false end.

(** Upper bound of the alpha scale of a type. *)
Definition alpha_max (k : ctype) : Z := if eight_bit k then 255 else 1.

Section Generic.
Context {F : Type} {AF : Arith F}.

(** [lo <= x <= hi] with the comparisons of the number type (false for NaN) *)
Definition within (lo hi : Z) (x : F) : Prop := fle (fz lo) x = true /\ fle x (fz hi) = true.

(** A well-formed colour object of type [k]: class, type tag, number of components,
    limits, and every component in its documented interval. *)
Record wf_color (k : ctype) (c : color F) : Prop := {
  wf_real : k <> UNDEFINED;
  wf_cls : cls c = k;
  wf_ty : ty c = k;
  wf_len : length (comps c) = arity k;
  wf_max : m_max c = fz (snd (limits k));
  wf_min : m_min c = fz (fst (limits k));
  wf_range : forall i x, nth_error (comps c) i = Some x ->
      within (fst (comp_range k i)) (snd (comp_range k i)) x
}.

(** The stored alpha (always on the 0..1 scale) is in range. *)
Definition alpha_ok (c : color F) : Prop := within 0 1 (m_alpha c).

End Generic.
