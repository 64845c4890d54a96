(** * manipulation/base_color_blend.h, porter_duff.cpp and color_blend.cpp/.h

    [rnd i] stands for the value returned by the call of rand() made while component [i]
    is computed (only dissolve calls it).  Function arguments are evaluated from left to
    right. *)
From Coq Require Import ZArith QArith List Bool.
From Verif Require Import Arith Outcome ColorModel GammaModel MatrixModel SpaceModel Heap Converter Calculation.
Import ListNotations.
Local Open Scope fl_scope.
Local Open Scope monad_scope.

Section Blend.
Context {F : Type} {AF : Arith F}.
Local Notation color := (color F).
Local Notation M := (M F).
Local Notation "$ n" := (fz n%Z) (at level 1, n at level 0, format "$ n").

(** ** base_color_blend.h *)

(** base_color_blend.h:52-64: the loop over the components, for the remaining indices. *)
Fixpoint blend_loop (use_s use_d : bool) (src_area dest_area both_area : F) (both_function : nat -> F -> F -> F)
    (source destination result : color) (is : list nat) : outcome color :=
  match is with
  | [] => Ok result
  | i :: is' =>
      let! s := raw_comp source i in
      let! d := raw_comp destination i in
      let s_product := src_area * (if use_s then s else $0) in
      let d_product := dest_area * (if use_d then d else $0) in
      let b_product := both_area * both_function i s d in
      let! result := set_component result (s_product + d_product + b_product) (Z.of_nat i) in
      blend_loop use_s use_d src_area dest_area both_area both_function source destination result is'
  end.

(** base_color_blend.h:41-67, without the checks: the colour built from two deep colours *)
Definition blend_f (use_s use_d use_b : bool) (both_function : nat -> F -> F -> F) (source destination : color) : outcome color :=
  let src_area := alpha source * ($1 - alpha destination) in
  let dest_area := alpha destination * ($1 - alpha source) in
  let both_area := alpha source * alpha destination in
  let resulting_alpha := src_area * (if use_s then $1 else $0) + dest_area * (if use_d then $1 else $0)
                         + both_area * (if use_b then $1 else $0) in
  let! r := rgb_deepcolor1 $0 resulting_alpha (rgb_space source) in
  let! r := blend_loop use_s use_d src_area dest_area both_area both_function source destination r
              (seq 0 (length (comps r))) in
  Ok (alpha_divide r).

(** base_color_blend.h:19-68 general_porter_duff *)
Definition general_porter_duff (source destination : ptr) (use_s use_d use_b : bool) (f : nat -> F -> F -> F) : M ptr :=
  match source, destination with
  | None, _ | _, None => throw_invalid
  | _, _ =>
      s <- load_as RGB_DEEP source ;;
      d <- load_as RGB_DEEP destination ;;
      if negb (space_ptr_eqb (rgb_space s) (rgb_space d)) then throw_invalid
      else r <- lift (blend_f use_s use_d use_b f s d) ;; alloc r
  end.

(** The body shared by the functions of porter_duff.cpp and the component-wise functions
    of color_blend.cpp, e.g. porter_duff.cpp:6-19: checks, conversion to deep RGB,
    general_porter_duff, conversion to the type of the source. *)
Definition checked_blend (use_s use_d use_b : bool) (f : color -> color -> nat -> F -> F -> F) (source destination : ptr) : M ptr :=
  match source, destination with
  | None, _ | _, None => throw_invalid
  | _, _ =>
      s <- load source ;;
      d <- load destination ;;
      if negb (space_ptr_eqb (rgb_space s) (rgb_space d)) then throw_invalid
      else a <- to_rgb_deep source ;;
           b <- to_rgb_deep destination ;;
           r <- general_porter_duff a b use_s use_d use_b (f s d) ;;
           convertTo r (ty s)
  end.

(** ** porter_duff.cpp *)

(** porter_duff.cpp:4-20 porter_duff::src *)
Definition src : ptr -> ptr -> M ptr := checked_blend true false true (fun _ _ _ s _ => s).
(** porter_duff.cpp:22-38 porter_duff::dest *)
Definition dest : ptr -> ptr -> M ptr := checked_blend false true true (fun _ _ _ _ d => d).
(** porter_duff.cpp:40-56 porter_duff::atop *)
Definition atop : ptr -> ptr -> M ptr := checked_blend false true true (fun _ _ _ s _ => s).
(** porter_duff.cpp:58-74 porter_duff::dest_atop *)
Definition dest_atop : ptr -> ptr -> M ptr := checked_blend true false true (fun _ _ _ _ d => d).
(** porter_duff.cpp:76-92 porter_duff::over *)
Definition over : ptr -> ptr -> M ptr := checked_blend true true true (fun _ _ _ s _ => s).
(** porter_duff.cpp:94-110 porter_duff::dest_over *)
Definition dest_over : ptr -> ptr -> M ptr := checked_blend true true true (fun _ _ _ _ d => d).
(** porter_duff.cpp:112-128 porter_duff::in *)
Definition pd_in : ptr -> ptr -> M ptr := checked_blend false false true (fun _ _ _ s _ => s).
(** porter_duff.cpp:130-146 porter_duff::dest_in *)
Definition dest_in : ptr -> ptr -> M ptr := checked_blend false false true (fun _ _ _ _ d => d).
(** porter_duff.cpp:148-164 porter_duff::out *)
Definition out : ptr -> ptr -> M ptr := checked_blend true false false (fun _ _ _ _ _ => $0).
(** porter_duff.cpp:166-182 porter_duff::dest_out *)
Definition dest_out : ptr -> ptr -> M ptr := checked_blend false true false (fun _ _ _ _ _ => $0).
(** porter_duff.cpp:184-200 porter_duff::x_or *)
Definition x_or : ptr -> ptr -> M ptr := checked_blend true true false (fun _ _ _ _ _ => $0).
(** porter_duff.cpp:202-218 porter_duff::clear *)
Definition clear : ptr -> ptr -> M ptr := checked_blend false false false (fun _ _ _ _ _ => $0).

(** ** The blend functions of color_blend.h *)

(** [0.5f] *)
Definition half : F := lit (1 # 2).

(** color_blend.h:647-660 dissolve_func; [r] is the value of rand(), which is not negative *)
Definition dissolve_func (r : Z) (alpha_diff s d : F) : F :=
  let rand_val := fofZ (Z.rem r 101) in
  let threshold := $25 in
  if $0 <? alpha_diff then (if threshold <=? rand_val then s else d)
  else (if threshold <=? rand_val then d else s).
(** color_blend.h:662-665 multiply_func *)
Definition multiply_func (s d : F) : F :=
  s * d.
(** color_blend.h:667-670 screen_func *)
Definition screen_func (s d : F) : F :=
  $1 - ($1 - d) * ($1 - s).
(** color_blend.h:713-717 hard_light_func *)
Definition hard_light_func (s d : F) : F :=
  if s <=? half then d * $2 * s else $1 - ($1 - d) * ($1 - $2 * (s - half)).
(** color_blend.h:672-675 overlay_func *)
Definition overlay_func (s d : F) : F :=
  hard_light_func d s.
(** color_blend.h:677-680 darken_func *)
Definition darken_func (s d : F) : F :=
  fmin s d.
(** color_blend.h:682-685 lighten_func *)
Definition lighten_func (s d : F) : F :=
  fmax s d.
(** color_blend.h:687-693 color_dodge_func *)
Definition color_dodge_func (s d : F) : F :=
  if d ==? $0 then $0 else if s ==? $1 then $1
  else let tmp := d / ($1 - s) in if tmp <=? $1 then tmp else $1.
(** color_blend.h:695-698 linear_dodge_func *)
Definition linear_dodge_func (s d : F) : F :=
  s + d.
(** color_blend.h:700-706 color_burn_func *)
Definition color_burn_func (s d : F) : F :=
  if d ==? $1 then $0 else if s ==? $0 then $1
  else let tmp := ($1 - d) / s in if tmp <=? $1 then tmp else $1.
(** color_blend.h:708-711 linear_burn_func *)
Definition linear_burn_func (s d : F) : F :=
  d + s - $1.
(** color_blend.h:719-723 soft_light_func *)
Definition soft_light_func (s d : F) : F :=
  if s <=? half then d * (s + half) else $1 - ($1 - d) * ($1 * (s - half)).
(** color_blend.h:725-739 vivid_light_func *)
Definition vivid_light_func (s d : F) : F :=
  if s <=? half
  then (if d ==? $0 then $0 else if s ==? half then $1 else d / ($1 - $2 * s))
  else (if d ==? $1 then $1 else if s ==? $1 then $0 else $1 - ($1 - d) / ($2 * (s - half))).
(** color_blend.h:741-745 linear_light_func *)
Definition linear_light_func (s d : F) : F :=
  if s <=? half then d + $2 * s - $1 else d + $2 * (s - half).
(** color_blend.h:747-751 pin_light_func *)
Definition pin_light_func (s d : F) : F :=
  if s <=? half then fmin d ($2 * s) else fmax d ($2 * (s - half)).
(** color_blend.h:753-757 hard_mix_func *)
Definition hard_mix_func (s d : F) : F :=
  if s <? $1 - d then $0 else $1.
(** color_blend.h:759-762 difference_func *)
Definition difference_func (s d : F) : F :=
  fabs (d - s).
(** color_blend.h:764-767 subtract_func *)
Definition subtract_func (s d : F) : F :=
  s - d.
(** color_blend.h:769-774 divide_func *)
Definition divide_func (s d : F) : F :=
  if d ==? $0 then $0 else if s ==? $0 then $1 else d / s.
(** color_blend.h:776-779 plus_lighter_func *)
Definition plus_lighter_func (s d : F) : F :=
  linear_dodge_func s d.
(** color_blend.h:781-784 plus_darker_func *)
Definition plus_darker_func (s d : F) : F :=
  linear_dodge_func s d - $1.
(** color_blend.h:786-789 exclusion_func *)
Definition exclusion_func (s d : F) : F :=
  d + s - $2 * d * s.

(** ** The blend modes of color_blend.cpp; [us], [ud] are use_source_region and
    use_destination_region *)

(** color_blend.cpp:4-20 normal *)
Definition blend_normal (source destination : ptr) (us ud : bool) : M ptr :=
  checked_blend us ud true (fun _ _ _ s _ => s) source destination.
(** color_blend.cpp:22-39 dissolve *)
Definition blend_dissolve (rnd : nat -> Z) (source destination : ptr) (us ud : bool) : M ptr :=
  checked_blend us ud true (fun cs cd i s d => dissolve_func (rnd i) (alpha cs - alpha cd) s d) source destination.
(** color_blend.cpp:41-57 multiply *)
Definition blend_multiply (source destination : ptr) (us ud : bool) : M ptr :=
  checked_blend us ud true (fun _ _ _ => multiply_func) source destination.
(** color_blend.cpp:59-78 screen *)
Definition blend_screen (source destination : ptr) (us ud : bool) : M ptr :=
  checked_blend us ud true (fun _ _ _ => screen_func) source destination.
(** color_blend.cpp:80-99 overlay *)
Definition blend_overlay (source destination : ptr) (us ud : bool) : M ptr :=
  checked_blend us ud true (fun _ _ _ => overlay_func) source destination.
(** color_blend.cpp:101-117 darken *)
Definition blend_darken (source destination : ptr) (us ud : bool) : M ptr :=
  checked_blend us ud true (fun _ _ _ => darken_func) source destination.
(** color_blend.cpp:119-135 lighten *)
Definition blend_lighten (source destination : ptr) (us ud : bool) : M ptr :=
  checked_blend us ud true (fun _ _ _ => lighten_func) source destination.
(** color_blend.cpp:137-153 color_dodge *)
Definition blend_color_dodge (source destination : ptr) (us ud : bool) : M ptr :=
  checked_blend us ud true (fun _ _ _ => color_dodge_func) source destination.
(** color_blend.cpp:155-171 linear_dodge *)
Definition blend_linear_dodge (source destination : ptr) (us ud : bool) : M ptr :=
  checked_blend us ud true (fun _ _ _ => linear_dodge_func) source destination.
(** color_blend.cpp:173-189 color_burn *)
Definition blend_color_burn (source destination : ptr) (us ud : bool) : M ptr :=
  checked_blend us ud true (fun _ _ _ => color_burn_func) source destination.
(** color_blend.cpp:191-207 linear_burn *)
Definition blend_linear_burn (source destination : ptr) (us ud : bool) : M ptr :=
  checked_blend us ud true (fun _ _ _ => linear_burn_func) source destination.
(** color_blend.cpp:209-225 hard_light *)
Definition blend_hard_light (source destination : ptr) (us ud : bool) : M ptr :=
  checked_blend us ud true (fun _ _ _ => hard_light_func) source destination.
(** color_blend.cpp:227-243 soft_light *)
Definition blend_soft_light (source destination : ptr) (us ud : bool) : M ptr :=
  checked_blend us ud true (fun _ _ _ => soft_light_func) source destination.
(** color_blend.cpp:245-261 vivid_light *)
Definition blend_vivid_light (source destination : ptr) (us ud : bool) : M ptr :=
  checked_blend us ud true (fun _ _ _ => vivid_light_func) source destination.
(** color_blend.cpp:263-279 linear_light *)
Definition blend_linear_light (source destination : ptr) (us ud : bool) : M ptr :=
  checked_blend us ud true (fun _ _ _ => linear_light_func) source destination.
(** color_blend.cpp:281-297 pin_light *)
Definition blend_pin_light (source destination : ptr) (us ud : bool) : M ptr :=
  checked_blend us ud true (fun _ _ _ => pin_light_func) source destination.
(** color_blend.cpp:299-315 hard_mix *)
Definition blend_hard_mix (source destination : ptr) (us ud : bool) : M ptr :=
  checked_blend us ud true (fun _ _ _ => hard_mix_func) source destination.
(** color_blend.cpp:317-333 difference *)
Definition blend_difference (source destination : ptr) (us ud : bool) : M ptr :=
  checked_blend us ud true (fun _ _ _ => difference_func) source destination.
(** color_blend.cpp:335-351 subtract *)
Definition blend_subtract (source destination : ptr) (us ud : bool) : M ptr :=
  checked_blend us ud true (fun _ _ _ => subtract_func) source destination.
(** color_blend.cpp:353-369 divide *)
Definition blend_divide (source destination : ptr) (us ud : bool) : M ptr :=
  checked_blend us ud true (fun _ _ _ => divide_func) source destination.
(** color_blend.cpp:371-387 plus_lighter *)
Definition blend_plus_lighter (source destination : ptr) (us ud : bool) : M ptr :=
  checked_blend us ud true (fun _ _ _ => plus_lighter_func) source destination.
(** color_blend.cpp:389-405 plus_darker *)
Definition blend_plus_darker (source destination : ptr) (us ud : bool) : M ptr :=
  checked_blend us ud true (fun _ _ _ => plus_darker_func) source destination.
(** color_blend.cpp:407-423 exclusion *)
Definition blend_exclusion (source destination : ptr) (us ud : bool) : M ptr :=
  checked_blend us ud true (fun _ _ _ => exclusion_func) source destination.
(** color_blend.cpp:425-441 custom_componentwise_blend; [f] is the user's function, which is
    assumed to be a pure one *)
Definition blend_custom (f : F -> F -> F) (source destination : ptr) (us ud : bool) : M ptr :=
  checked_blend us ud true (fun _ _ _ => f) source destination.

(** The body shared by the four functions below: [pick] chooses hue, chroma and luma. *)
Definition hcy_blend (pick : F * F * F -> F * F * F -> F * F * F) (source destination : ptr) : M ptr :=
  sp <- to_hcy source ;;
  dp <- to_hcy destination ;;
  s <- load_as HCY sp ;;
  d <- load_as HCY dp ;;
  r <- lift (with3 s (fun sh sc sy => with3 d (fun dh dc dy =>
         let '(h, c, y) := pick (sh, sc, sy) (dh, dc, dy) in
         hcy h c y (alpha s) (rgb_space s)))) ;;
  q <- alloc r ;;
  o <- load source ;;
  convertTo q (ty o).

(** color_blend.cpp:443-449 hue; the region flags are not used *)
Definition blend_hue (source destination : ptr) (us ud : bool) : M ptr :=
  hcy_blend (fun '(sh, sc, sy) '(dh, dc, dy) => (sh, dc, dy)) source destination.
(** color_blend.cpp:451-457 saturation; the region flags are not used *)
Definition blend_saturation (source destination : ptr) (us ud : bool) : M ptr :=
  hcy_blend (fun '(sh, sc, sy) '(dh, dc, dy) => (dh, sc, dy)) source destination.
(** color_blend.cpp:459-465 color; the region flags are not used *)
Definition blend_color (source destination : ptr) (us ud : bool) : M ptr :=
  hcy_blend (fun '(sh, sc, sy) '(dh, dc, dy) => (sh, sc, dy)) source destination.
(** color_blend.cpp:467-473 luminosity; the region flags are not used *)
Definition blend_luminosity (source destination : ptr) (us ud : bool) : M ptr :=
  hcy_blend (fun '(sh, sc, sy) '(dh, dc, dy) => (dh, dc, sy)) source destination.

End Blend.
