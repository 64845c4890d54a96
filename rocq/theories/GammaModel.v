(** * spaces/gamma.h *)
From Coq Require Import ZArith QArith List Bool.
From Verif Require Import Arith Outcome ColorModel.
Import ListNotations.

(** spaces/gamma.h:18-157 class gamma_part: a (possibly empty) function and an upper
    border.  The std::function is modelled as a total function on floats. *)
Record gamma_part (F : Type) := GammaPart { g_fun : option (F -> F); g_border : F }.
Arguments GammaPart {F} g_fun g_border.
Arguments g_fun {F} g. Arguments g_border {F} g.

(** spaces/gamma.h:159-369 class gamma: two sorted vectors of (non-null) pieces.
    Simplification: pieces are represented by value; the vectors contain no null
    pointers (the sort would dereference them). *)
Record gamma (F : Type) := Gamma { g_parts : list (gamma_part F); ig_parts : list (gamma_part F) }.
Arguments Gamma {F} g_parts ig_parts.
Arguments g_parts {F} g. Arguments ig_parts {F} g.

Section Gamma.
Context {F : Type} {AF : Arith F}.

(** spaces/gamma.h:84-87, 108-111 operator< : smaller upper border *)
Definition part_lt (a b : gamma_part F) : bool := flt (g_border a) (g_border b).

(** spaces/gamma.h:353-362 std::sort with operator<.  The order of pieces with equal
    borders is unspecified in C++; the model uses a stable insertion sort, and the
    theorems about curves hold for every sorted permutation. *)
Fixpoint insert_part (p : gamma_part F) (l : list (gamma_part F)) : list (gamma_part F) :=
  match l with
  | [] => [p]
  | q :: t => if part_lt q p then q :: insert_part p t else p :: l
  end.
Fixpoint sort_parts (l : list (gamma_part F)) : list (gamma_part F) :=
  match l with
  | [] => []
  | p :: t => insert_part p (sort_parts t)
  end.

(** spaces/gamma.h:174-178 constructor *)
Definition gamma_ctor (g ig : list (gamma_part F)) : gamma F := Gamma (sort_parts g) (sort_parts ig).
(** spaces/gamma.h:180-187 copy constructor, 198-208 assignment *)
Definition gamma_copy (o : gamma F) : gamma F := Gamma (sort_parts (g_parts o)) (sort_parts (ig_parts o)).
(** spaces/gamma.h:279-283 add_gamma_curve_part, 302-306 add_inverse_gamma_curve_part *)
Definition add_gamma_curve_part (g : gamma F) (p : gamma_part F) : gamma F :=
  Gamma (sort_parts (g_parts g ++ [p])) (ig_parts g).
Definition add_inverse_gamma_curve_part (g : gamma F) (p : gamma_part F) : gamma F :=
  Gamma (g_parts g) (sort_parts (ig_parts g ++ [p])).
(** spaces/gamma.h:292-296 set_gamma_curve_parts, 315-319 set_inverse_gamma_curve_parts *)
Definition set_gamma_curve_parts (g : gamma F) (l : list (gamma_part F)) : gamma F :=
  Gamma (sort_parts l) (ig_parts g).
Definition set_inverse_gamma_curve_parts (g : gamma F) (l : list (gamma_part F)) : gamma F :=
  Gamma (g_parts g) (sort_parts l).

(** The loop of gamma_correction and inverse_gamma_correction. *)
Fixpoint apply_parts (l : list (gamma_part F)) (x : F) : F :=
  match l with
  | [] => x
  | p :: t =>
      match g_fun p with
      | None => apply_parts t x
      | Some f => if fle x (g_border p) then f x else apply_parts t x
      end
  end.
(** spaces/gamma.h:322-334 gamma_correction *)
Definition gamma_correction (g : gamma F) (x : F) : F := apply_parts (g_parts g) x.
(** spaces/gamma.h:337-349 inverse_gamma_correction *)
Definition inverse_gamma_correction (g : gamma F) (x : F) : F := apply_parts (ig_parts g) x.

(** ** Presets, spaces/gamma.h:371-482 *)
Definition piece (f : F -> F) (border : Q) : gamma_part F := GammaPart (Some f) (lit border).

(** [powf(x, 1.f / e)] and [powf(x, e)] *)
Definition pow_inv (e : Q) (x : F) : F := fpow x (fdiv (fz 1) (lit e)).
Definition pow_of (e : Q) (x : F) : F := fpow x (lit e).

(** The simple power curves share this shape (default border 1.f). *)
Definition power_gamma (e : Q) : gamma F :=
  gamma_ctor [piece (pow_inv e) 1] [piece (pow_of e) 1].
Definition gamma1_8 := power_gamma (18 # 10).          (* gamma.h:378-387 *)
Definition gamma2_2 := power_gamma (22 # 10).          (* gamma.h:390-399 *)
Definition gamma2_6 := power_gamma (26 # 10).          (* gamma.h:402-411 *)
Definition gamma2_8 := power_gamma (28 # 10).          (* gamma.h:414-423 *)
Definition gammaAdobe := power_gamma (219921875 # 100000000). (* gamma.h:442-451 *)

(** gamma.h:426-439 *)
Definition gamma_sRGB : gamma F :=
  gamma_ctor
    [piece (fun x => fmul (lit (1292 # 100)) x) (31308 # 10000000);
     piece (fun x => fsub (fmul (lit (1055 # 1000)) (pow_inv (24 # 10) x)) (lit (55 # 1000))) 1]
    [piece (fun x => fdiv x (lit (1292 # 100))) (4045 # 100000);
     piece (fun x => pow_of (24 # 10) (fdiv (fadd x (lit (55 # 1000))) (lit (1055 # 1000)))) 1].

(** gamma.h:454-466 *)
Definition gammaRomm : gamma F :=
  gamma_ctor
    [piece (fun x => fmul (fz 16) x) (1953 # 1000000);
     piece (pow_inv (18 # 10)) 1]
    [piece (fun x => fdiv x (fz 16)) (1953 # 1000000);
     piece (pow_of (18 # 10)) 1].

(** gamma.h:469-481 *)
Definition gammaUHDTV : gamma F :=
  gamma_ctor
    [piece (fun x => fdiv x (lit (45 # 10))) (81 # 1000);
     piece (fun x => pow_inv (45 # 100) (fdiv (fadd x (lit (99 # 1000))) (lit (1099 # 1000)))) 1]
    [piece (fun x => fmul (lit (45 # 10)) x) (18053968510807 # 1000000000000000);
     piece (fun x => fsub (fmul (lit (1099 # 1000)) (pow_of (45 # 100) x)) (lit (99 # 1000))) 1].

End Gamma.
