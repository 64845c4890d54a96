(** * Specification vocabulary for color_calculation *)
From Coq Require Import ZArith Reals List Bool.
From Flocq Require Import Core IEEE754.BinarySingleNaN.
From Verif Require Import Arith Outcome ColorModel Heap Converter Calculation F32 Spec Spec32 Spec_Conv.
Import ListNotations.

Section Calc.
Context {F : Type} {AF : Arith F}.

(** The overloads of add, mix, subtract and the average functions, by colour type. *)
Definition typed_add (X : ctype) : ptr -> ptr -> F -> F -> bool -> M F ptr :=
  match X with
  | RGB_TRUE => add_rgb_true | RGB_DEEP => add_rgb_deep | GREY_TRUE => add_grey_true | GREY_DEEP => add_grey_deep
  | CMYK => add_cmyk | HSI => add_hsi | HSV => add_hsv | HSL => add_hsl | HCY => add_hcy
  | XYZ => add_xyz | XYY => add_xyy | CIELUV => add_cieluv | LAB => add_lab | LCH_AB => add_lch_ab | LCH_UV => add_lch_uv
  | UNDEFINED => fun _ _ _ _ _ => ret None
  end.
Definition typed_mix (X : ctype) : ptr -> ptr -> F -> bool -> M F ptr :=
  match X with
  | RGB_TRUE => mix_rgb_true | RGB_DEEP => mix_rgb_deep | GREY_TRUE => mix_grey_true | GREY_DEEP => mix_grey_deep
  | CMYK => mix_cmyk | HSI => mix_hsi | HSV => mix_hsv | HSL => mix_hsl | HCY => mix_hcy
  | XYZ => mix_xyz | XYY => mix_xyy | CIELUV => mix_cieluv | LAB => mix_lab | LCH_AB => mix_lch_ab | LCH_UV => mix_lch_uv
  | UNDEFINED => fun _ _ _ _ => ret None
  end.
Definition typed_subtract (X : ctype) : ptr -> ptr -> F -> bool -> M F ptr :=
  match X with
  | RGB_TRUE => subtract_rgb_true | RGB_DEEP => subtract_rgb_deep | GREY_TRUE => subtract_grey_true | GREY_DEEP => subtract_grey_deep
  | CMYK => subtract_cmyk | HSI => subtract_hsi | HSV => subtract_hsv | HSL => subtract_hsl | HCY => subtract_hcy
  | XYZ => subtract_xyz | XYY => subtract_xyy | CIELUV => subtract_cieluv | LAB => subtract_lab
  | LCH_AB => subtract_lch_ab | LCH_UV => subtract_lch_uv
  | UNDEFINED => fun _ _ _ _ => ret None
  end.
Definition average (X : ctype) : list ptr -> bool -> M F ptr :=
  match X with
  | RGB_TRUE => average_rgb_true | RGB_DEEP => average_rgb_deep | GREY_TRUE => average_grey_true | GREY_DEEP => average_grey_deep
  | CMYK => average_cmyk | HSI => average_hsi | HSV => average_hsv | HSL => average_hsl | HCY => average_hcy
  | XYZ => average_xyz | XYY => average_xyy | CIELUV => average_cieluv | LAB => average_lab
  | LCH_AB => average_lch_ab | LCH_UV => average_lch_uv
  | UNDEFINED => fun _ _ => ret None
  end.
End Calc.

(** The types the functions on color_base handle. *)
Definition add_types : list ctype :=
  [RGB_TRUE; RGB_DEEP; GREY_TRUE; GREY_DEEP; CMYK; HSV; HSL; XYZ; XYY; CIELUV; LAB; LCH_AB; LCH_UV].
Definition mix_types : list ctype :=
  [RGB_TRUE; RGB_DEEP; GREY_TRUE; GREY_DEEP; CMYK; HSV; HSL; XYZ; LAB; LCH_AB; LCH_UV].

(** A call succeeds and returns an object satisfying [P]. *)
Definition returns {F} (m : M F ptr) (h : heap F) (P : color F -> Prop) : Prop :=
  exists q r h', m h = (Ok (Some q), h') /\ at_addr h' q r /\ P r.

(** A call throws (a pointer to) std::invalid_argument and creates or changes nothing. *)
Definition rejects {F} (m : M F ptr) (h : heap F) : Prop :=
  m h = (Throw (by_pointer invalid_argument), h).

(** A binary32 number that lies outside [0, 1]. *)
Definition outside_unit (w : f32) : Prop :=
  w = inf32 \/ w = ninf32 \/ (is_finite w = true /\ (B2R w < 0 \/ 1 < B2R w)%R).
(** A binary32 number that lies in (0, 1]. *)
Definition positive_unit (w : f32) : Prop := is_finite w = true /\ (0 < B2R w <= 1)%R.

(** Combine two lists of the same length elementwise. *)
Fixpoint map2 {A B C} (f : A -> B -> C) (l : list A) (m : list B) : list C :=
  match l, m with a :: l, b :: m => f a b :: map2 f l m | _, _ => [] end.

(** The arithmetic mean of a list. *)
Definition mean (l : list R) : R := (fold_right Rplus 0 l / INR (length l))%R.

(** The i-th components of a list of colours. *)
Definition components {F} {AF : Arith F} (i : nat) (cs : list (color F)) : list F :=
  map (fun c => nth i (comps c) (fz 0)) cs.

(** The list of pointers refers to the list of colours. *)
Definition points_to {F} (h : heap F) (ps : list ptr) (cs : list (color F)) : Prop :=
  Forall2 (fun p c => exists i, p = Some i /\ at_addr h i c) ps cs.

(** The result of [m]: a new colour of type [X] in the RGB space of [c1], and of all
    objects only the one at [p2] may have changed, unless [pure]. *)
Definition computes (X : ctype) (m : M f32 ptr) (h : heap f32) (c1 : color f32) (p2 : nat) (pure : Prop) : Prop :=
  exists q r h', m h = (Ok (Some q), h') /\ fresh h q /\ at_addr h' q r /\ colour_of_type X r /\
    rgb_space r = rgb_space c1 /\ others_unchanged h h' p2 /\ (pure -> unchanged h h').


(** The types for which mixing is done on the components themselves, and the value of a
    component of the mixture: a weighted mean, of the squares for RGB. *)
Definition mix_exact_types : list ctype := [RGB_TRUE; RGB_DEEP; GREY_TRUE; GREY_DEEP; CMYK; XYZ; XYY; CIELUV].
Definition mix_value (X : ctype) (w a b : R) : R :=
  (match X with RGB_TRUE | RGB_DEEP => sqrt (w * (a * a) + (1 - w) * (b * b)) | _ => w * a + (1 - w) * b end)%R.
