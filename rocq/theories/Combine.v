(** * manipulation/color_combinations.cpp *)
From Coq Require Import ZArith QArith List Bool.
From Verif Require Import Arith Outcome ColorModel GammaModel MatrixModel SpaceModel Heap Converter Calculation Adjust.
Import ListNotations.
Local Open Scope fl_scope.
Local Open Scope monad_scope.

Section Combine.
Context {F : Type} {AF : Arith F}.
Local Notation color := (color F).
Local Notation M := (M F).
Local Notation "$ n" := (fz n%Z) (at level 1, n at level 0, format "$ n").

(** [convertTo(new hsl(hue, hsl->saturation(), hsl->lightness(), color->alpha(),
    color->get_rgb_color_space()), color->get_color_type())], where the hue is computed
    from [hsl->hue()] *)
Definition turned (hue : F -> F) (color_hsl color : ptr) : M ptr :=
  d <- load_as HSL color_hsl ;;
  c <- load color ;;
  r <- lift (with3 d (fun h s l => hsl (hue h) s l (alpha c) (rgb_space c))) ;;
  q <- alloc r ;;
  convertTo q (ty c).

(** color_combinations.cpp:37-41: the loop, for the remaining indices *)
Fixpoint combination_loop (degrees : F) (color_hsl color : ptr) (combination : list ptr) (is : list Z) : M (list ptr) :=
  match is with
  | [] => ret combination
  | i :: is' =>
      q <- turned (fun h => h + fofZ i * degrees) color_hsl color ;;
      combination_loop degrees color_hsl color (combination ++ [q]) is'
  end.

(** The integers 1 .. n. *)
Definition upto (n : Z) : list Z := map Z.of_nat (seq 1 (Z.to_nat n)).

(** color_combinations.cpp:24-44.  The condition of the loop, line 37, computes
    [number_of_colors - 1] with type int. *)
Definition create_combination (color : ptr) (number_of_colors : Z) : M (list ptr) :=
  if (number_of_colors =? 0)%Z then throw_invalid
  else if (number_of_colors =? 1)%Z then throw_invalid
  else if (360 <? number_of_colors)%Z then throw_invalid
  else
    color_hsl <- convertTo color HSL ;;
    if (number_of_colors - 1 <? -2147483648)%Z then lift Undef else
    combination_loop ($360 / fofZ number_of_colors) color_hsl color [color] (upto (number_of_colors - 1)).

(** color_combinations.cpp:4-7; [[1]] is undefined when there is no second element *)
Definition create_complimentary (color : ptr) : M ptr :=
  l <- create_combination color 2 ;;
  match nth_error l 1 with Some p => ret p | None => lift Undef end.
(** color_combinations.cpp:9-12 *)
Definition create_triplet (color : ptr) : M (list ptr) := create_combination color 3.
(** color_combinations.cpp:14-17 *)
Definition create_quartet (color : ptr) : M (list ptr) := create_combination color 4.
(** color_combinations.cpp:19-22 *)
Definition create_quintet (color : ptr) : M (list ptr) := create_combination color 5.

(** color_combinations.cpp:46-59 *)
Definition create_analogous (base_color : ptr) (distance_between : F) : M (list ptr) :=
  if distance_between ==? $0 then throw_invalid
  else if $360 / $3 <? distance_between then throw_invalid
  else
    color_hsl <- convertTo base_color HSL ;;
    a <- turned (fun h => h - distance_between) color_hsl base_color ;;
    b <- turned (fun h => h + distance_between) color_hsl base_color ;;
    ret [a; base_color; b].

(** color_combinations.cpp:76, 79, 82: [new hsl(last_hsl->hue(), ...)] *)
Definition restated (last_hsl base_color : ptr) : M ptr :=
  d <- load_as HSL last_hsl ;;
  c <- load base_color ;;
  r <- lift (with3 d (fun h s l => hsl h s l (alpha c) (rgb_space c))) ;;
  alloc r.

(** color_combinations.cpp:71-89: the body of the loop, from the last colour to the next *)
Definition mono_step (base_color : ptr) (in_color_type : ctype) (mode : Z) (amount : F) (last : ptr) : M ptr :=
  last_hsl <- convertTo last HSL ;;
  match mode with
  | 0%Z => n <- restated last_hsl base_color ;;
           s <- saturate_in_hsl_space n amount ;; convertTo s in_color_type
  | 1%Z => n <- restated last_hsl base_color ;;
           s <- luminate_in_hsl_space n amount ;; convertTo s in_color_type
  | 2%Z => n <- restated last_hsl base_color ;;
           s <- saturate_in_hsl_space n amount ;; t <- luminate_in_hsl_space s amount ;; convertTo t in_color_type
  | _ => throw_invalid
  end.
(** The loop: [count] further colours after [last], the last one of [combination] *)
Fixpoint mono_loop (step : ptr -> M ptr) (combination : list ptr) (last : ptr) (count : nat) : M (list ptr) :=
  match count with
  | O => ret combination
  | S n => q <- step last ;; mono_loop step (combination ++ [q]) q n
  end.

(** color_combinations.cpp:61-92 *)
Definition create_monochromatic (base_color : ptr) (mode : Z) (amount : F) (color_count : Z) : M (list ptr) :=
  if amount <? $0 then throw_invalid
  else if $1 <? amount then throw_invalid
  else if (color_count <=? 0)%Z then throw_invalid
  else
    c <- load base_color ;;
    mono_loop (mono_step base_color (ty c) mode (amount * fz (-1))) [base_color] base_color (Z.to_nat (color_count - 1)).

(** color_combinations.cpp:94-106 *)
Definition create_complimentary_split (base_color : ptr) (amount : F) : M (list ptr) :=
  convertTo base_color HSL ;;;
  complimentary_color <- create_complimentary base_color ;;
  analogous_colors <- create_analogous complimentary_color amount ;;
  match nth_error analogous_colors 0, nth_error analogous_colors 2 with
  | Some a, Some b => ret [a; base_color; b]
  | _, _ => lift Undef
  end.

End Combine.
