(** * The colour objects a client can produce with the public interface of the
    fifteen colour classes (spaces/): constructors, copies, setters, assignment,
    gamma correction, in any order and number. *)
From Coq Require Import ZArith QArith List Bool Ascii.
From Verif Require Import Arith Outcome ColorModel HexModel GammaModel MatrixModel SpaceModel Heap.
Import ListNotations.

Section History.
Context {F : Type} {AF : Arith F}.

(** Objects made by a constructor taking numbers, a hex string or a hex integer. *)
Inductive constructed : color F -> Prop :=
| mk_rgb_true r g b a sp c : rgb_truecolor r g b a sp = Ok c -> constructed c
| mk_rgb_true1 v a sp c : rgb_truecolor1 v a sp = Ok c -> constructed c
| mk_hex s sp c : rgb_truecolor_hex s sp = Ok c -> constructed c
| mk_int n sp c : rgb_truecolor_int n sp = Ok c -> constructed c
| mk_rgb_deep r g b a sp c : rgb_deepcolor r g b a sp = Ok c -> constructed c
| mk_rgb_deep1 v a sp c : rgb_deepcolor1 v a sp = Ok c -> constructed c
| mk_grey_true v a sp c : grey_truecolor v a sp = Ok c -> constructed c
| mk_grey_deep v a sp c : grey_deepcolor v a sp = Ok c -> constructed c
| mk_cmyk x y z k a sp c : cmyk x y z k a sp = Ok c -> constructed c
| mk_hsi x y z a sp c : hsi x y z a sp = Ok c -> constructed c
| mk_hsv x y z a sp c : hsv x y z a sp = Ok c -> constructed c
| mk_hsl x y z a sp c : hsl x y z a sp = Ok c -> constructed c
| mk_hcy x y z a sp c : hcy x y z a sp = Ok c -> constructed c
| mk_xyz x y z a sp c : xyz x y z a sp = Ok c -> constructed c
| mk_xyy x y z a sp c : xyy x y z a sp = Ok c -> constructed c
| mk_cieluv x y z a sp c : cieluv x y z a sp = Ok c -> constructed c
| mk_lab x y z a sp c : lab x y z a sp = Ok c -> constructed c
| mk_lch_ab x y z a sp c : lch_ab x y z a sp = Ok c -> constructed c
| mk_lch_uv x y z a sp c : lch_uv x y z a sp = Ok c -> constructed c.

(** The classes whose first component has its own limits that differ from the
    limits of the class, so that the untyped setters use the wrong ones. *)
Definition own_first_limit (k : ctype) : bool :=
  match k with LAB | CIELUV => true | _ => false end.

(** All objects reachable by a finite history of operations. *)
Inductive reachable : color F -> Prop :=
| r_new c : constructed c -> reachable c
| r_copy c : reachable c -> reachable (copy_ctor (cls c) c)
| r_from_base k c c' : reachable c -> from_base_ctor k c = Ok c' -> reachable c'
| r_assign x y : reachable x -> reachable y -> cls x = cls y -> reachable (assign x y)
| r_named c v i c' : reachable c -> named_set (cls c) c v i = Ok c' -> reachable c'
| r_index c v i c' : reachable c -> (own_first_limit (cls c) = false \/ i <> 0%Z) ->
    set_component c v i = Ok c' -> reachable c'
| r_alpha c a : reachable c -> reachable (alpha_set c a)
| r_space c sp : reachable c -> reachable (set_rgb_color_space c sp)
| r_gamma c h c' h' : reachable c -> own_first_limit (cls c) = false ->
    do_gamma_correction c h = (Ok c', h') -> reachable c'
| r_inv_gamma c h c' h' : reachable c -> own_first_limit (cls c) = false ->
    do_inverse_gamma_correction c h = (Ok c', h') -> reachable c'.

End History.
