(** * Specification vocabulary for the Porter-Duff operators and the blend modes *)
From Coq Require Import ZArith Reals List Bool.
From Flocq Require Import Core IEEE754.BinarySingleNaN.
From Verif Require Import Arith Outcome ColorModel Heap Converter Blend RArith F32 Spec Spec32 Spec_Conv Spec_Calc.
Import ListNotations.

(** The twelve Porter-Duff operators. *)
Inductive operator :=
| Src | Dest | Atop | DestAtop | Over | DestOver | In_ | DestIn | Out | DestOut | Xor | Clear.
Definition all_operators : list operator :=
  [Src; Dest; Atop; DestAtop; Over; DestOver; In_; DestIn; Out; DestOut; Xor; Clear].

(** The operator with the roles of source and destination exchanged. *)
Definition dual (p : operator) : operator :=
  match p with
  | Src => Dest | Dest => Src | Atop => DestAtop | DestAtop => Atop | Over => DestOver | DestOver => Over
  | In_ => DestIn | DestIn => In_ | Out => DestOut | DestOut => Out | Xor => Xor | Clear => Clear
  end.

(** Porter and Duff, "Compositing digital images" (1984): the fractions of source and
    destination that show in the result, for coverages [a] (source) and [b]. *)
Definition fractions (p : operator) (a b : R) : R * R :=
  match p with
  | Clear => (0, 0) | Src => (1, 0) | Dest => (0, 1)
  | Over => (1, 1 - a) | DestOver => (1 - b, 1)
  | In_ => (b, 0) | DestIn => (0, a)
  | Out => (1 - b, 0) | DestOut => (0, 1 - a)
  | Atop => (b, 1 - a) | DestAtop => (1 - b, a)
  | Xor => (1 - b, 1 - a)
  end%R.

Section Modes.
Context {F : Type} {AF : Arith F}.

(** The functions of the class porter_duff. *)
Definition composite (p : operator) : ptr -> ptr -> M F ptr :=
  match p with
  | Src => src | Dest => dest | Atop => atop | DestAtop => dest_atop | Over => over | DestOver => dest_over
  | In_ => pd_in | DestIn => dest_in | Out => out | DestOut => dest_out | Xor => x_or | Clear => clear
  end.

(** The component-wise blend modes; dissolve depends on the random numbers it draws, and
    the custom mode on the function given by the user. *)
Inductive mode :=
| Normal | Dissolve (rnd : nat -> Z) | Multiply | Screen | Overlay | Darken | Lighten | ColorDodge | LinearDodge
| ColorBurn | LinearBurn | HardLight | SoftLight | VividLight | LinearLight | PinLight | HardMix | Difference
| Subtract | Divide | PlusLighter | PlusDarker | Exclusion | Custom (f : F -> F -> F).

(** The functions of the class color_blend, and the function each of them applies to the
    components of source and destination ([i]: index of the component). *)
Definition blend (m : mode) : ptr -> ptr -> bool -> bool -> M F ptr :=
  match m with
  | Normal => blend_normal | Dissolve rnd => blend_dissolve rnd | Multiply => blend_multiply | Screen => blend_screen
  | Overlay => blend_overlay | Darken => blend_darken | Lighten => blend_lighten | ColorDodge => blend_color_dodge
  | LinearDodge => blend_linear_dodge | ColorBurn => blend_color_burn | LinearBurn => blend_linear_burn
  | HardLight => blend_hard_light | SoftLight => blend_soft_light | VividLight => blend_vivid_light
  | LinearLight => blend_linear_light | PinLight => blend_pin_light | HardMix => blend_hard_mix
  | Difference => blend_difference | Subtract => blend_subtract | Divide => blend_divide
  | PlusLighter => blend_plus_lighter | PlusDarker => blend_plus_darker | Exclusion => blend_exclusion
  | Custom f => blend_custom f
  end.
Definition blend_function (m : mode) (cs cd : color F) (i : nat) (s d : F) : F :=
  match m with
  | Normal => s
  | Dissolve rnd => dissolve_func (rnd i) (fsub (alpha cs) (alpha cd)) s d
  | Multiply => multiply_func s d | Screen => screen_func s d | Overlay => overlay_func s d
  | Darken => darken_func s d | Lighten => lighten_func s d | ColorDodge => color_dodge_func s d
  | LinearDodge => linear_dodge_func s d | ColorBurn => color_burn_func s d | LinearBurn => linear_burn_func s d
  | HardLight => hard_light_func s d | SoftLight => soft_light_func s d | VividLight => vivid_light_func s d
  | LinearLight => linear_light_func s d | PinLight => pin_light_func s d | HardMix => hard_mix_func s d
  | Difference => difference_func s d | Subtract => subtract_func s d | Divide => divide_func s d
  | PlusLighter => plus_lighter_func s d | PlusDarker => plus_darker_func s d | Exclusion => exclusion_func s d
  | Custom f => f s d
  end.

(** The four modes that work on hue, chroma and luma. *)
Inductive hcy_mode := Hue | Saturation | ColorMode | Luminosity.
Definition blend_hcy (m : hcy_mode) : ptr -> ptr -> bool -> bool -> M F ptr :=
  match m with Hue => blend_hue | Saturation => blend_saturation | ColorMode => blend_color | Luminosity => blend_luminosity end.

(** hue, chroma and luma of the result *)
Definition hcy_pick (m : hcy_mode) (s d : F * F * F) : F * F * F :=
  let '(sh, sc, sy) := s in let '(dh, dc, dy) := d in
  match m with Hue => (sh, dc, dy) | Saturation => (dh, sc, dy) | ColorMode => (sh, sc, dy) | Luminosity => (dh, dc, sy) end.

End Modes.
Arguments mode F : clear implicits.

(** The types convertTo can produce. *)
Definition convertible (X : ctype) : bool := match X with LCH_AB | LCH_UV | UNDEFINED => false | _ => true end.

(** ** The blend functions as they are usually defined, for components in [0, 1] *)
Local Open Scope R_scope.

Definition hard_light (s d : R) : R := if Rle_dec s (1 / 2) then 2 * s * d else 1 - 2 * (1 - s) * (1 - d).
Definition burn (s d : R) : R :=
  if Req_EM_T d 1 then 1 else if Req_EM_T s 0 then 0 else 1 - Rmin 1 ((1 - d) / s).
Definition dodge (s d : R) : R :=
  if Req_EM_T d 0 then 0 else if Req_EM_T s 1 then 1 else Rmin 1 (d / (1 - s)).
Definition vivid_light (s d : R) : R := if Rle_dec s (1 / 2) then burn (2 * s) d else dodge (2 * s - 1) d.
(** Soft light in its simple, continuous form. *)
Definition soft_light (s d : R) : R := if Rle_dec s (1 / 2) then d * (s + 1 / 2) else 1 - (1 - d) * (1 - (s - 1 / 2)).

(** [subtract] is source minus destination here, [divide] destination by source; the
    result is clamped to [0, 1] later. *)
Definition textbook (m : mode R) : option (R -> R -> R) :=
  match m with
  | Normal => Some (fun s d => s)
  | Multiply => Some (fun s d => s * d)
  | Screen => Some (fun s d => s + d - s * d)
  | HardLight => Some hard_light
  | Overlay => Some (fun s d => hard_light d s)
  | Darken => Some Rmin
  | Lighten => Some Rmax
  | ColorDodge => Some dodge
  | LinearDodge | PlusLighter => Some (fun s d => s + d)
  | LinearBurn | PlusDarker => Some (fun s d => s + d - 1)
  | LinearLight => Some (fun s d => d + 2 * s - 1)
  | PinLight => Some (fun s d => if Rle_dec s (1 / 2) then Rmin d (2 * s) else Rmax d (2 * s - 1))
  | HardMix => Some (fun s d => if Rlt_dec (s + d) 1 then 0 else 1)
  | Difference => Some (fun s d => Rabs (s - d))
  | Subtract => Some (fun s d => s - d)
  | Divide => Some (fun s d => if Req_EM_T d 0 then 0 else if Req_EM_T s 0 then 1 else d / s)
  | Exclusion => Some (fun s d => s + d - 2 * s * d)
  | Custom f => Some f
  | _ => None
  end.

(** The modes whose function maps components in [0, 1] into [0, 1]. *)
Definition bounded {F} (m : mode F) : bool :=
  match m with
  | Normal | Dissolve _ | Multiply | Screen | Overlay | Darken | Lighten | ColorDodge | ColorBurn | HardLight | PinLight
  | HardMix | Difference => true
  | _ => false
  end.
(** In exact arithmetic exclusion does so, too, and in any case soft light. *)
Definition bounded_exact (m : mode R) : bool := match m with Exclusion | SoftLight => true | _ => bounded m end.

(** The real number to which a float is clamped by [fmax(fmin(x, 1), 0)]. *)
Definition unit_clamp (x : f32) : R :=
  match x with
  | B754_nan => 1
  | B754_infinity true => 0
  | B754_infinity false => 1
  | _ => Rmax 0 (Rmin 1 (B2R x))
  end.

(** A new colour of type [X] (deep colours possibly with components out of range), and
    nothing else changes. *)
Definition makes (X : ctype) (m : M f32 ptr) (h : heap f32) (sp : option nat) : Prop :=
  exists q r h', m h = (Ok (Some q), h') /\ fresh h q /\ at_addr h' q r /\
    cls r = X /\ ty r = X /\ length (comps r) = arity X /\ (X <> RGB_DEEP -> colour_of_type X r) /\ rgb_space r = sp /\ unchanged h h'.

(** The result of operator [p] on the deep colours [c1] over [c2]: with the fractions [fa],
    [fb] of the operator the alpha is fa * a + fb * b, and so are the components, weighted
    with alpha. *)
Definition pd_result (p : operator) (c1 c2 r : color R) : Prop :=
  let '(fa, fb) := fractions p (alpha c1) (alpha c2) in
  ty r = RGB_DEEP /\ length (comps r) = 3%nat /\ rgb_space r = rgb_space c1 /\
  alpha r = fa * alpha c1 + fb * alpha c2 /\ 0 <= alpha r <= 1 /\
  forall i s d v, nth_error (comps c1) i = Some s -> nth_error (comps c2) i = Some d -> nth_error (comps r) i = Some v ->
    alpha r * v = fa * alpha c1 * s + fb * alpha c2 * d /\ 0 <= v <= 1 /\ (alpha r = 0 -> v = 0).

(** The result of blend mode [m] on deep colours: source, destination and common area are
    weighted with their size. *)
Definition blend_result (m : mode R) (us ud : bool) (c1 c2 r : color R) : Prop :=
  let a := alpha c1 in let b := alpha c2 in
  let sa := if us then a * (1 - b) else 0 in let da := if ud then b * (1 - a) else 0 in
  ty r = RGB_DEEP /\ length (comps r) = 3%nat /\ rgb_space r = rgb_space c1 /\ alpha r = sa + da + a * b /\ 0 <= alpha r <= 1 /\
  forall i s d v, nth_error (comps c1) i = Some s -> nth_error (comps c2) i = Some d -> nth_error (comps r) i = Some v ->
    alpha r * v = sa * s + da * d + a * b * blend_function m c1 c2 i s d /\ 0 <= v <= 1 /\ (alpha r = 0 -> v = 0).
