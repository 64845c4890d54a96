(** * Colour objects: spaces/color_base.h and the fifteen derived classes. *)
From Coq Require Import ZArith QArith List Bool.
From Verif Require Import Arith Outcome.
Import ListNotations.
Local Open Scope Z_scope.

(** utils/color_type.h: enum class color_type *)
Inductive ctype :=
| RGB_TRUE | RGB_DEEP | GREY_TRUE | GREY_DEEP | CMYK | HSI | HSV | HSL | HCY
| XYZ | XYY | CIELUV | LAB | LCH_AB | LCH_UV | UNDEFINED.

Definition ctype_eq_dec : forall a b : ctype, {a = b} + {a <> b}.
Proof. decide equality. Defined.

(** [==] on color_type values *)
Definition ctype_eqb (a b : ctype) : bool := if ctype_eq_dec a b then true else false.

(** Replace position [i] of a std::vector (positions outside are never written by the callers). *)
Fixpoint upd {A : Type} (i : nat) (v : A) (l : list A) : list A :=
  match l, i with
  | [], _ => []
  | _ :: t, O => v :: t
  | x :: t, S j => x :: upd j v t
  end.

(** spaces/color_base.h:252-301: the data members of color_base.
    [cls] is the dynamic class of the object (which of the fifteen derived
    classes; [UNDEFINED] for an object of class color_base itself), while [ty]
    is the member m_type.  The pointer m_rgb_color_space is the index of a
    definition in the heap of Heap.v, [None] being the null pointer.  The members
    m_a_max = 1 and m_a_min = 0 are never changed and are inlined. *)
Record color (F : Type) := Color {
  cls : ctype;
  ty : ctype;
  comps : list F;
  m_alpha : F;
  m_max : F;
  m_min : F;
  rgb_space : option nat
}.
Arguments Color {F} cls ty comps m_alpha m_max m_min rgb_space.
Arguments cls {F} c. Arguments ty {F} c. Arguments comps {F} c.
Arguments m_alpha {F} c. Arguments m_max {F} c. Arguments m_min {F} c.
Arguments rgb_space {F} c.

Section Model.
Context {F : Type} {AF : Arith F}.
Local Notation color := (color F).

Definition with_comps (c : color) (l : list F) : color :=
  Color (cls c) (ty c) l (m_alpha c) (m_max c) (m_min c) (rgb_space c).
Definition with_alpha (c : color) (a : F) : color :=
  Color (cls c) (ty c) (comps c) a (m_max c) (m_min c) (rgb_space c).
Definition with_type (c : color) (t : ctype) : color :=
  Color (cls c) t (comps c) (m_alpha c) (m_max c) (m_min c) (rgb_space c).

(** spaces/color_base.h:119 set_rgb_color_space *)
Definition set_rgb_color_space (c : color) (sp : option nat) : color :=
  Color (cls c) (ty c) (comps c) (m_alpha c) (m_max c) (m_min c) sp.

(** spaces/color_base.h:250 clamp: fmaxf(fminf(in_value, max), min) *)
Definition clamp (v mx mn : F) : F := fmax (fmin v mx) mn.

(** spaces/color_base.h:33-44 constructor of color_base, run as the base-class
    part of an object of class [k]; m_type keeps its initialiser UNDEFINED
    (line 300). *)
Definition color_base_ctor (k : ctype) (alpha : F) (sp : option nat) (count : nat) (mx mn : F) : color :=
  Color k UNDEFINED (repeat (fz (-1)) count) alpha mx mn sp.

(** spaces/color_base.h:74, 86, 100: the index check shared by the accessors.
    [index >= m_component_vector.size()] is an unsigned comparison, but negative
    indices have been excluded before. *)
Definition bad_index (c : color) (i : Z) : bool :=
  (i <? 0) || (Z.of_nat (length (comps c)) <=? i).

(** spaces/color_base.h:72-76 get_component *)
Definition get_component (c : color) (i : Z) : outcome F :=
  if bad_index c i then Throw (by_pointer out_of_range)
  else match nth_error (comps c) (Z.to_nat i) with Some v => Ok v | None => Undef end.

(** spaces/color_base.h:98-102 set_component with explicit limits *)
Definition set_component_lim (c : color) (v : F) (i : Z) (mx mn : F) : outcome color :=
  if bad_index c i then Throw (by_pointer out_of_range)
  else Ok (with_comps c (upd (Z.to_nat i) (clamp v mx mn) (comps c))).

(** spaces/color_base.h:84-88 set_component with the limits of the colour *)
Definition set_component (c : color) (v : F) (i : Z) : outcome color :=
  set_component_lim c v i (m_max c) (m_min c).

(** [m_component_vector[i]] without a check: out-of-range access is undefined. *)
Definition raw_comp (c : color) (i : nat) : outcome F :=
  match nth_error (comps c) i with Some v => Ok v | None => Undef end.

(** spaces/color_base.h:129 color_base::alpha() const *)
Definition base_alpha (c : color) : F := m_alpha c.
(** spaces/color_base.h:134 color_base::alpha(float) *)
Definition base_alpha_set (c : color) (a : F) : color := with_alpha c (clamp a (fz 1) (fz 0)).

(** Virtual alpha(): overridden in spaces/rgb_truecolor.cpp:133-136 and
    spaces/grey_truecolor.cpp:53-56 (alpha * 255), color_base.h:129 otherwise. *)
Definition alpha (c : color) : F :=
  match cls c with
  | RGB_TRUE | GREY_TRUE => fmul (base_alpha c) (fz 255)
  | _ => base_alpha c
  end.

(** Virtual alpha(float): overridden in spaces/rgb_truecolor.cpp:138-141 and
    spaces/grey_truecolor.cpp:58-61 (new_alpha / 255), color_base.h:134 otherwise. *)
Definition alpha_set (c : color) (a : F) : color :=
  match cls c with
  | RGB_TRUE | GREY_TRUE => base_alpha_set c (fdiv a (fz 255))
  | _ => base_alpha_set c a
  end.

(** spaces/color_base.h:140-158 operator==.  The loop compares with [!=] on floats. *)
Fixpoint comps_equal (l r : list F) : bool :=
  match l, r with
  | [], [] => true
  | a :: l', b :: r' => if negb (feq a b) then false else comps_equal l' r'
  | _, _ => false
  end.
Definition color_eq (a b : color) : bool :=
  if negb (ctype_eqb (ty a) (ty b) && Nat.eqb (length (comps a)) (length (comps b))) then false
  else comps_equal (comps a) (comps b).
(** spaces/color_base.h:164-167 operator!= *)
Definition color_neq (a b : color) : bool := negb (color_eq a b).

(** The pairwise loop of operator+ (color_base.h:179-182). *)
Fixpoint zip_add (mx mn : F) (l r : list F) : list F :=
  match l, r with
  | a :: l', b :: r' => clamp (fadd a b) mx mn :: zip_add mx mn l' r'
  | _, _ => []
  end.
(** spaces/color_base.h:173-189 operator+: the result is an object of class color_base. *)
Definition color_add (a b : color) : outcome color :=
  let result := color_base_ctor UNDEFINED (alpha a) (rgb_space a) (length (comps a)) (m_max a) (m_min a) in
  if ctype_eqb (ty a) (ty b) && Nat.eqb (length (comps a)) (length (comps b))
  then Ok (with_comps (with_type result (ty a)) (zip_add (m_max a) (m_min a) (comps a) (comps b)))
  else Throw (by_pointer invalid_argument).

(** spaces/color_base.h:195-201 alpha_multiply *)
Definition alpha_multiply (c : color) : color :=
  with_comps c (map (fun v => fmul v (m_alpha c)) (comps c)).
(** spaces/color_base.h:207-215 alpha_divide *)
Definition alpha_divide (c : color) : color :=
  if feq (m_alpha c) (fz 0) then c
  else with_comps c (map (fun v => fdiv v (m_alpha c)) (comps c)).

(** The implicitly defined copy assignment color_base::operator= (used through
    [color = *f(&color, p)] in manipulation/color_adjustments.cpp): copies every
    data member, the dynamic class stays. *)
Definition base_assign (this other : color) : color :=
  Color (cls this) (ty other) (comps other) (m_alpha other) (m_max other) (m_min other) (rgb_space other).

(** The while loop of the hue setters, e.g. spaces/hsv.cpp:52-55.  [fuel] bounds
    the number of iterations of the model; running out of fuel is reported as
    [Diverge], and Hue_Proofs.v shows that it never happens. *)
Fixpoint wrap_negative (fuel : nat) (h : F) : outcome F :=
  if flt h (fz 0) then
    match fuel with
    | O => Diverge
    | S n => wrap_negative n (fadd h (fz 360))
    end
  else Ok h.
Definition hue_fuel : nat := 4.

(** Hue setters of spaces/hsv.cpp:49-58, hsl.cpp:49-58, hsi.cpp:49-58, hcy.cpp:49-58. *)
Definition set_hue (c : color) (h : F) : outcome color :=
  let! h' := wrap_negative hue_fuel (ffmod h (fz 360)) in
  set_component_lim c h' 0 (fz 359) (fz 0).

(** The named component setters of the derived classes, by class and position:
    - rgb_truecolor.cpp:108,118,128; rgb_deepcolor.cpp:57,67,77; grey_truecolor.cpp:48;
      grey_deepcolor.cpp:47; cmyk.cpp:50,60,70,80; xyz.cpp:49,59,69; xyy.cpp:49,59,69:
      set_component(v, i);
    - hsi/hsv/hsl/hcy.cpp: hue as above, 65 and 75: set_component(v, i);
    - lab.cpp:49 luminance with limits 100, 0; lab.cpp:59,69: set_component(v, i);
    - cieluv.cpp:50 L with limits 100, 0; u, v: set_component(v, i);
    - lch_ab.cpp:69-72 and lch_uv.cpp:69-72 hue with limits 359, 0 (no wrap-around);
      luminance, chroma: set_component(v, i). *)
Definition named_set (k : ctype) (c : color) (v : F) (i : nat) : outcome color :=
  match k, i with
  | HSI, O | HSV, O | HSL, O | HCY, O => set_hue c v
  | LAB, O => set_component_lim c v 0 (fz 100) (fz 0)
  | CIELUV, O => set_component_lim c v 0 (fz 100) (fz 0)
  | LCH_AB, 2%nat | LCH_UV, 2%nat => set_component_lim c v 2 (fz 359) (fz 0)
  | _, _ => set_component c v (Z.of_nat i)
  end.

(** ** Constructors from components *)

(** spaces/rgb_truecolor.cpp:13-20 *)
Definition rgb_truecolor (r g b a : F) (sp : option nat) : outcome color :=
  let c := with_type (color_base_ctor RGB_TRUE a sp 3 (fz 255) (fz 0)) RGB_TRUE in
  let! c := named_set RGB_TRUE c r 0 in
  let! c := named_set RGB_TRUE c g 1 in
  let! c := named_set RGB_TRUE c b 2 in
  Ok (alpha_set c a).
(** spaces/rgb_truecolor.cpp:4-11 *)
Definition rgb_truecolor1 (v a : F) (sp : option nat) : outcome color := rgb_truecolor v v v a sp.

(** spaces/rgb_deepcolor.cpp:12-18 *)
Definition rgb_deepcolor (r g b a : F) (sp : option nat) : outcome color :=
  let c := with_type (color_base_ctor RGB_DEEP a sp 3 (fz 1) (fz 0)) RGB_DEEP in
  let! c := named_set RGB_DEEP c r 0 in
  let! c := named_set RGB_DEEP c g 1 in
  named_set RGB_DEEP c b 2.
(** spaces/rgb_deepcolor.cpp:4-10 *)
Definition rgb_deepcolor1 (v a : F) (sp : option nat) : outcome color := rgb_deepcolor v v v a sp.

(** spaces/grey_truecolor.cpp:4-9 *)
Definition grey_truecolor (v a : F) (sp : option nat) : outcome color :=
  let c := with_type (color_base_ctor GREY_TRUE a sp 1 (fz 255) (fz 0)) GREY_TRUE in
  let! c := named_set GREY_TRUE c v 0 in
  Ok (alpha_set c a).

(** spaces/grey_deepcolor.cpp:4-8 *)
Definition grey_deepcolor (v a : F) (sp : option nat) : outcome color :=
  let c := with_type (color_base_ctor GREY_DEEP a sp 1 (fz 1) (fz 0)) GREY_DEEP in
  named_set GREY_DEEP c v 0.

(** spaces/cmyk.cpp:4-11 *)
Definition cmyk (c m y k a : F) (sp : option nat) : outcome color :=
  let o := with_type (color_base_ctor CMYK a sp 4 (fz 1) (fz 0)) CMYK in
  let! o := named_set CMYK o c 0 in
  let! o := named_set CMYK o m 1 in
  let! o := named_set CMYK o y 2 in
  named_set CMYK o k 3.

(** The common body of the three-component constructors below. *)
Definition ctor3 (k : ctype) (mx mn : F) (x y z a : F) (sp : option nat) : outcome color :=
  let c := with_type (color_base_ctor k a sp 3 mx mn) k in
  let! c := named_set k c x 0 in
  let! c := named_set k c y 1 in
  named_set k c z 2.

(** spaces/hsi.cpp:4-10 *)
Definition hsi := ctor3 HSI (fz 1) (fz 0).
(** spaces/hsv.cpp:4-10 *)
Definition hsv := ctor3 HSV (fz 1) (fz 0).
(** spaces/hsl.cpp:4-10 *)
Definition hsl := ctor3 HSL (fz 1) (fz 0).
(** spaces/hcy.cpp:4-10 *)
Definition hcy := ctor3 HCY (fz 1) (fz 0).
(** spaces/xyz.cpp:4-10 *)
Definition xyz := ctor3 XYZ (fz 100) (fz 0).
(** spaces/xyy.cpp:4-10 *)
Definition xyy := ctor3 XYY (fz 100) (fz 0).
(** spaces/cieluv.cpp:4-10 *)
Definition cieluv := ctor3 CIELUV (fz 100) (fz (-100)).
(** spaces/lab.cpp:4-10 *)
Definition lab := ctor3 LAB (fz 128) (fz (-128)).
(** spaces/lch_ab.cpp:4-10 *)
Definition lch_ab := ctor3 LCH_AB (fz 100) (fz 0).
(** spaces/lch_uv.cpp:4-10 *)
Definition lch_uv := ctor3 LCH_UV (fz 100) (fz 0).

(** ** Copying *)

(** Number of components the copy constructors and from-base constructors pass to
    color_base (e.g. spaces/hsv.cpp:12, cieluv.cpp:12: 4). *)
Definition copy_count (k : ctype) : nat :=
  match k with
  | GREY_TRUE | GREY_DEEP => 1
  | CMYK | CIELUV => 4
  | _ => 3
  end.

(** Copy constructors: rgb_truecolor.cpp:71-76, rgb_deepcolor.cpp:20-25,
    grey_truecolor.cpp:11-16, grey_deepcolor.cpp:10-15, cmyk.cpp:13-18,
    hsi/hsv/hsl/hcy.cpp:12-17, xyz/xyy.cpp:12-17, cieluv.cpp:12-17, lab.cpp:12-17,
    lch_ab/lch_uv.cpp:12-17.  [k] is the class. *)
Definition copy_ctor (k : ctype) (other : color) : color :=
  let c := color_base_ctor k (alpha other) (rgb_space other) (copy_count k) (m_max other) (m_min other) in
  let c := with_comps (with_type c (ty other)) (comps other) in
  alpha_set c (alpha other).

(** Component count required by the from-base constructors: rgb_truecolor.cpp:80 (4),
    rgb_deepcolor.cpp:29 (4), grey_truecolor.cpp:20 (2), grey_deepcolor.cpp:19 (1),
    cmyk.cpp:22 (4), cieluv.cpp:21 (4), the others 3. *)
Definition from_base_size (k : ctype) : nat :=
  match k with
  | RGB_TRUE | RGB_DEEP | CMYK | CIELUV => 4
  | GREY_TRUE => 2
  | GREY_DEEP => 1
  | _ => 3
  end.

(** From-base constructors: rgb_truecolor.cpp:78-89, rgb_deepcolor.cpp:27-38,
    grey_truecolor.cpp:18-29, grey_deepcolor.cpp:17-28, cmyk.cpp:20-31, the
    three-component classes lines 19-30. *)
Definition from_base_ctor (k : ctype) (other : color) : outcome color :=
  let c := color_base_ctor k (alpha other) (rgb_space other) (copy_count k) (m_max other) (m_min other) in
  if ctype_eqb (ty other) k && Nat.eqb (length (comps other)) (from_base_size k)
  then Ok (with_comps (with_type c k) (comps other))
  else Throw (by_pointer invalid_argument).

(** operator= of the derived classes, e.g. spaces/hsv.cpp:32-42 (the self-assignment
    test only skips a no-op): type, components and limits are copied, alpha and the
    RGB space are not. *)
Definition assign (this other : color) : color :=
  Color (cls this) (ty other) (comps other) (m_alpha this) (m_max other) (m_min other) (rgb_space this).

End Model.
