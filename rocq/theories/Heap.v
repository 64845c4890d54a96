(** * The heap of colour objects and RGB space definitions, and the monad in which
    the manipulation/ functions run.

    Objects are never freed by the library (every result is a raw [new]), so
    addresses are list positions and allocation appends. *)
From Coq Require Import ZArith QArith List Bool.
From Verif Require Import Arith Outcome ColorModel GammaModel MatrixModel SpaceModel.
Import ListNotations.

Record heap (F : Type) := Heap { colors : list (color F); spaces : list (space_def F) }.
Arguments Heap {F} colors spaces.
Arguments colors {F} h. Arguments spaces {F} h.

(** A colour pointer: [None] is nullptr. *)
Definition ptr := option nat.

(** A computation: reads and writes the heap, and has an outcome.  The heap paired
    with [Throw] is the heap seen by the handler; with [Undef]/[Diverge] it is
    meaningless. *)
Definition M (F A : Type) := heap F -> outcome A * heap F.

Section Heap.
Context {F : Type} {AF : Arith F}.
Local Notation heap := (heap F).
Local Notation M := (M F).
Local Notation color := (color F).

Definition ret {A} (a : A) : M A := fun h => (Ok a, h).
Definition bind {A B} (m : M A) (f : A -> M B) : M B := fun h =>
  match m h with
  | (Ok a, h') => f a h'
  | (Throw e, h') => (Throw e, h')
  | (Undef, h') => (Undef, h')
  | (Diverge, h') => (Diverge, h')
  end.
(** run a heap-free computation *)
Definition lift {A} (o : outcome A) : M A := fun h => (o, h).

(** dereference a colour pointer; null and dangling pointers are undefined behaviour *)
Definition load (p : ptr) : M color := fun h =>
  match p with
  | None => (Undef, h)
  | Some i => match nth_error (colors h) i with
              | Some c => (Ok c, h)
              | None => (Undef, h)
              end
  end.

(** overwrite the object a pointer refers to *)
Definition store (p : ptr) (c : color) : M unit := fun h =>
  match p with
  | None => (Undef, h)
  | Some i => if Nat.ltb i (length (colors h))
              then (Ok tt, Heap (upd i c (colors h)) (spaces h))
              else (Undef, h)
  end.

(** [new T(...)]: [c] is the constructed object *)
Definition alloc (c : color) : M ptr := fun h =>
  (Ok (Some (length (colors h))), Heap (colors h ++ [c]) (spaces h)).

(** [new rgb_color_space_definition(...)] *)
Definition alloc_space (s : space_def F) : M (option nat) := fun h =>
  (Ok (Some (length (spaces h))), Heap (colors h) (spaces h ++ [s])).

(** use the object behind [p] as an object of class [T], i.e. after a [static_cast<T*>];
    if its dynamic class is another one, the behaviour is undefined *)
Definition load_as (T : ctype) (p : ptr) : M color :=
  bind (load p) (fun c => if ctype_eq_dec (cls c) T then ret c else lift Undef).

(** [static_cast<T*>(p)] without a subsequent access *)
Definition cast (T : ctype) (p : ptr) : M ptr :=
  bind (load_as T p) (fun _ => ret p).

(** dereference an RGB space pointer *)
Definition load_space (sp : option nat) : M (space_def F) := fun h =>
  match sp with
  | None => (Undef, h)
  | Some i => match nth_error (spaces h) i with
              | Some s => (Ok s, h)
              | None => (Undef, h)
              end
  end.

(** [color->get_rgb_color_space()->get_white_point()] dereferenced *)
Definition load_white (c : color) : M (white_point F) :=
  bind (load_space (rgb_space c)) (fun s =>
    match s_white s with
    | Some (_, w) => ret w
    | None => lift Undef
    end).

(** [m_rgb_color_space->get_gamma_curve()] dereferenced *)
Definition load_gamma (c : color) : M (gamma F) :=
  bind (load_space (rgb_space c)) (fun s =>
    match s_gamma s with
    | Some g => ret g
    | None => lift Undef
    end).

(** spaces/color_base.h:221-227 do_gamma_correction and 233-239
    do_inverse_gamma_correction, as functions from the old to the new object.  With no
    components the curve is not looked up. *)
Definition correct_with (curve : gamma F -> F -> F) (c : color) : M color :=
  match comps c with
  | [] => ret c
  | _ => bind (load_gamma c) (fun g =>
           ret (with_comps c (map (fun v => clamp (curve g v) (m_max c) (m_min c)) (comps c))))
  end.
Definition do_gamma_correction := correct_with gamma_correction.
Definition do_inverse_gamma_correction := correct_with inverse_gamma_correction.

(** Two colour space pointers are the same *)
Definition space_ptr_eqb (a b : option nat) : bool :=
  match a, b with
  | None, None => true
  | Some x, Some y => Nat.eqb x y
  | _, _ => false
  end.

(** The components of an object of a class with 1, 3 or 4 components (every object of
    such a class has exactly that many; see [reachable_arity] in the proofs). *)
Definition with1 {X} (c : color) (k : F -> outcome X) : outcome X :=
  match comps c with [a] => k a | _ => Undef end.
Definition with3 {X} (c : color) (k : F -> F -> F -> outcome X) : outcome X :=
  match comps c with [a; b; d] => k a b d | _ => Undef end.
Definition with4 {X} (c : color) (k : F -> F -> F -> F -> outcome X) : outcome X :=
  match comps c with [a; b; d; e] => k a b d e | _ => Undef end.

End Heap.

Declare Scope monad_scope.
Delimit Scope monad_scope with monad.
Notation "x <- m ;; k" := (bind m (fun x => k))
  (at level 61, m at next level, right associativity) : monad_scope.
Notation "m ;;; k" := (bind m (fun _ => k))
  (at level 61, right associativity) : monad_scope.
