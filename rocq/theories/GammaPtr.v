(** * spaces/gamma.h once more, with the pieces behind pointers.

    GammaModel.v represents the pieces of a curve by value.  Here they are objects of a
    store, as in the code, so that sharing, null pointers, modification of a piece and
    comparison of curves can be talked about. *)
From Coq Require Import ZArith QArith List Bool.
From Verif Require Import Arith Outcome ColorModel GammaModel.
Import ListNotations.

(** The gamma_part objects, by address *)
Definition piece_store (F : Type) := list (gamma_part F).
(** A [gamma_part*]: null or an address *)
Definition piece_ptr := option nat.

(** spaces/gamma.h:364-368 data members *)
Record pgamma := PGamma { pg_parts : list piece_ptr; pig_parts : list piece_ptr }.

Section GammaPtr.
Context {F : Type} {AF : Arith F}.

(** dereference; null and dangling pointers are undefined behaviour *)
Definition piece_at (st : piece_store F) (p : piece_ptr) : outcome (gamma_part F) :=
  match p with
  | None => Undef
  | Some i => match nth_error st i with Some x => Ok x | None => Undef end
  end.

(** spaces/gamma.h:353-362, the comparison passed to std::sort *)
Definition ptr_lt (st : piece_store F) (p q : piece_ptr) : outcome bool :=
  let! x := piece_at st p in let! y := piece_at st q in Ok (part_lt x y).

(** The stable insertion sort of GammaModel.v on pointers *)
Fixpoint insert_ptr (st : piece_store F) (p : piece_ptr) (l : list piece_ptr) : outcome (list piece_ptr) :=
  match l with
  | [] => Ok [p]
  | q :: t => let! b := ptr_lt st q p in
              if b then let! r := insert_ptr st p t in Ok (q :: r) else Ok (p :: l)
  end.
Fixpoint sort_ptrs (st : piece_store F) (l : list piece_ptr) : outcome (list piece_ptr) :=
  match l with
  | [] => Ok []
  | p :: t => let! r := sort_ptrs st t in insert_ptr st p r
  end.

(** spaces/gamma.h:174-178 constructor *)
Definition pgamma_ctor (st : piece_store F) (g ig : list piece_ptr) : outcome pgamma :=
  let! a := sort_ptrs st g in let! b := sort_ptrs st ig in Ok (PGamma a b).
(** spaces/gamma.h:181-187 copy constructor: copies the pointers and sorts *)
Definition pgamma_copy (st : piece_store F) (o : pgamma) : outcome pgamma := pgamma_ctor st (pg_parts o) (pig_parts o).
(** spaces/gamma.h:279-283 add_gamma_curve_part, 302-306 add_inverse_gamma_curve_part *)
Definition padd_part (st : piece_store F) (g : pgamma) (p : piece_ptr) : outcome pgamma :=
  let! a := sort_ptrs st (pg_parts g ++ [p]) in Ok (PGamma a (pig_parts g)).
Definition padd_inverse_part (st : piece_store F) (g : pgamma) (p : piece_ptr) : outcome pgamma :=
  let! a := sort_ptrs st (pig_parts g ++ [p]) in Ok (PGamma (pg_parts g) a).

(** spaces/gamma.h:286-289 remove_gamma_curve_part, 309-312 remove_inverse_gamma_curve_part
    ([position]: index of the iterator).  The piece is erased, then control reaches the end
    of a function that returns bool. *)
Definition premove_part (g : pgamma) (position : nat) : outcome (bool * pgamma) := Undef.
Definition premove_inverse_part (g : pgamma) (position : nat) : outcome (bool * pgamma) := Undef.

(** spaces/gamma.h:322-334, 337-349: the loops; null pointers are skipped *)
Fixpoint apply_ptrs (st : piece_store F) (l : list piece_ptr) (x : F) : outcome F :=
  match l with
  | [] => Ok x
  | None :: t => apply_ptrs st t x
  | Some i :: t =>
      let! p := piece_at st (Some i) in
      match g_fun p with
      | None => apply_ptrs st t x
      | Some f => if fle x (g_border p) then Ok (f x) else apply_ptrs st t x
      end
  end.
Definition pgamma_correction (st : piece_store F) (g : pgamma) (x : F) : outcome F := apply_ptrs st (pg_parts g) x.
Definition pinverse_gamma_correction (st : piece_store F) (g : pgamma) (x : F) : outcome F := apply_ptrs st (pig_parts g) x.

(** spaces/gamma.h:135 set_upper_border on the piece at address [i] *)
Definition set_upper_border (st : piece_store F) (i : nat) (b : F) : outcome (piece_store F) :=
  match nth_error st i with
  | None => Undef
  | Some p => Ok (upd i (GammaPart (g_fun p) b) st)
  end.

(** [p == q] on pointers *)
Definition piece_ptr_eqb (p q : piece_ptr) : bool :=
  match p, q with
  | None, None => true
  | Some a, Some b => Nat.eqb a b
  | _, _ => false
  end.
(** The loops of operator== over vectors of the same size *)
Fixpoint ptrs_eqb (a b : list piece_ptr) : bool :=
  match a, b with
  | [], [] => true
  | p :: a', q :: b' => piece_ptr_eqb p q && ptrs_eqb a' b'
  | _, _ => false
  end.
(** spaces/gamma.h:211-264 operator==: compares the pointers *)
Definition pgamma_eqb (a b : pgamma) : bool := ptrs_eqb (pg_parts a) (pg_parts b) && ptrs_eqb (pig_parts a) (pig_parts b).

(** spaces/gamma.h:144-149 get_gamma_function_address: reads the representation of a
    std::function object through an lvalue of type long *)
Definition get_gamma_function_address (p : gamma_part F) : outcome Z :=
  match g_fun p with None => Ok 0%Z | Some _ => Undef end.
(** spaces/gamma.h:60-69 gamma_part::operator== *)
Definition part_eqb (a b : gamma_part F) : outcome bool :=
  if feq (g_border a) (g_border b)
  then let! x := get_gamma_function_address a in let! y := get_gamma_function_address b in Ok (Z.eqb x y)
  else Ok false.

End GammaPtr.
