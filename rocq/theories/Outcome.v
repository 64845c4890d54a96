(** * Outcomes of a C++ call.

    A call either returns, throws, runs into undefined behaviour (reading an
    uninitialised or out-of-range location, dereferencing a null pointer, a
    [static_cast] to the wrong class, ...), or does not terminate. *)
From Coq Require Import List Bool.
Import ListNotations.

(** Exception class, and whether it is thrown by pointer ([throw new X(..)]) or by value. *)
Inductive exn_kind := invalid_argument | out_of_range.
Inductive exn := by_pointer (k : exn_kind) | by_value (k : exn_kind).

Inductive outcome (A : Type) :=
| Ok (a : A)
| Throw (e : exn)
| Undef
| Diverge.
Arguments Ok {A} a.
Arguments Throw {A} e.
Arguments Undef {A}.
Arguments Diverge {A}.

Definition obind {A B} (m : outcome A) (f : A -> outcome B) : outcome B :=
  match m with
  | Ok a => f a
  | Throw e => Throw e
  | Undef => Undef
  | Diverge => Diverge
  end.

Definition omap {A B} (f : A -> B) (m : outcome A) : outcome B :=
  obind m (fun a => Ok (f a)).

Notation "'let!' x ':=' m 'in' k" := (obind m (fun x => k))
  (at level 200, x pattern, m at level 100, k at level 200, right associativity).

(** The call returned normally with some value satisfying [P]. *)
Definition returns {A} (m : outcome A) (P : A -> Prop) : Prop :=
  exists a, m = Ok a /\ P a.

Lemma obind_ok {A B} (m : outcome A) (f : A -> outcome B) b :
  obind m f = Ok b -> exists a, m = Ok a /\ f a = Ok b.
Proof. destruct m; simpl; try discriminate; eauto. Qed.
