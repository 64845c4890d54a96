(** * Programs that use the library

    A program is a sequence of calls of the public functions.  Its variables are the colour
    pointers it got so far, numbered in the order in which they were returned; the RGB space
    definitions are numbered in the order in which they were created.  Numeric arguments are
    arbitrary constants; the numbers returned by the distance functions are dropped (a later
    call may use any number).

    [accepted] is a static discipline: it looks only at the types and spaces of the variables
    and at the numeric arguments, not at the components of the colours. *)
From Coq Require Import ZArith QArith Reals List Bool.
From Flocq Require Import Core IEEE754.BinarySingleNaN.
From Verif Require Import Arith Outcome ColorModel GammaModel SpaceModel Heap Converter Calculation Blend Adjust Combine Distance Adapt
  F32 Spec Spec32 History Spec_Conv Spec_Calc Spec_Blend Spec_Adjust Spec_Combine Spec_Distance Spec_Adapt Core4_Proofs.
Import ListNotations.

Inductive call :=
| NewSpace (rx ry gx gy bx by_ : f32) (b : nat) (w : white_point f32) (g : gamma f32)
| NewColor (k : ctype) (l : list f32) (a : f32) (s : option nat)
| SetComponent (k : ctype) (x : nat) (v : f32) (i : nat)
| SetAlpha (x : nat) (a : f32)
| SetIndex (x : nat) (v : f32) (i : Z)
| Copy (k : ctype) (x : nat)
| Assign (k : ctype) (x y : nat)
| GammaCorrect (x : nat) | InverseGamma (x : nat)
| Convert (Y : ctype) (x : nat)
| ConvertTo (x : nat) (Y : ctype)
| Add (x y : nat) (w1 w2 : f32) (ia : bool)
| Mix (x y : nat) (w : f32) (ia : bool)
| Minus (x y : nat) (w : f32) (ia : bool)
| TypedAdd (X : ctype) (x y : nat) (w1 w2 : f32) (ia : bool)
| TypedMix (X : ctype) (x y : nat) (w : f32) (ia : bool)
| TypedMinus (X : ctype) (x y : nat) (w : f32) (ia : bool)
| Average (X : ctype) (xs : list nat) (ia : bool)
| Compose (p : operator) (x y : nat)
| BlendMode (m : mode f32) (x y : nat) (us ud : bool)
| BlendHcy (m : hcy_mode) (x y : nat) (us ud : bool)
| AdjustNew (a : adjustment) (x : nat) (pc : f32)
| AdjustRef (a : adjustment) (x : nat) (pc : f32)
| Combination (x : nat) (n : Z)
| Complimentary (x : nat)
| Analogous (x : nat) (d : f32)
| Monochromatic (x : nat) (md : Z) (amount : f32) (n : Z)
| ComplimentarySplit (x : nat) (amount : f32)
| DistanceOf (d : distance_fun f32) (x y : nat)
| AdaptTo (m : method f32) (x : nat) (b : nat) (w : white_point f32).

(** ** Execution *)
Definition state := (heap f32 * list ptr)%type.
(** An unknown variable is a null pointer. *)
Definition var (env : list ptr) (x : nat) : ptr := nth x env None.

Definition push {A} (m : M f32 A) (f : A -> list ptr) (st : state) : outcome state :=
  match m (fst st) with
  | (Ok a, h') => Ok (h', snd st ++ f a)
  | (Throw e, _) => Throw e
  | (Undef, _) => Undef
  | (Diverge, _) => Diverge
  end.
Definition new (m : M f32 ptr) : state -> outcome state := push m (fun p => [p]).
Definition several (m : M f32 (list ptr)) : state -> outcome state := push m (fun l => l).
Definition effect {A} (m : M f32 A) : state -> outcome state := push m (fun _ => []).

(** A member function that changes the object behind [p]. *)
Definition on_object (p : ptr) (f : color f32 -> M f32 (color f32)) : M f32 unit :=
  bind (load p) (fun c => bind (f c) (store p)).

Definition exec (o : oracle) (c : call) (st : state) : outcome state :=
  let v := var (snd st) in
  match c with
  | NewSpace rx ry gx gy bx by_ b w g =>
      effect (bind (lift (@space_ctor f32 (F32 o) rx ry gx gy bx by_ (Some (b, w)) (Some g))) alloc_space) st
  | NewColor k l a s => new (bind (lift (@ctor_of f32 (F32 o) k l a s)) alloc) st
  | SetComponent k x r i => effect (bind (load_as k (v x)) (fun c => bind (lift (@named_set f32 (F32 o) k c r i)) (store (v x)))) st
  | SetAlpha x a => effect (on_object (v x) (fun c => ret (@alpha_set f32 (F32 o) c a))) st
  | SetIndex x r i => effect (on_object (v x) (fun c => lift (@set_component f32 (F32 o) c r i))) st
  | Copy k x => new (bind (load_as k (v x)) (fun c => alloc (@copy_ctor f32 (F32 o) k c))) st
  | Assign k x y => effect (bind (load_as k (v y)) (fun d => bind (load_as k (v x)) (fun c => store (v x) (assign c d)))) st
  | GammaCorrect x => effect (on_object (v x) (@do_gamma_correction f32 (F32 o))) st
  | InverseGamma x => effect (on_object (v x) (@do_inverse_gamma_correction f32 (F32 o))) st
  | Convert Y x => new (@to_type f32 (F32 o) Y (v x)) st
  | ConvertTo x Y => new (@convertTo f32 (F32 o) (v x) Y) st
  | Add x y w1 w2 ia => new (@add f32 (F32 o) (v x) (v y) w1 w2 ia) st
  | Mix x y w ia => new (@mix f32 (F32 o) (v x) (v y) w ia) st
  | Minus x y w ia => new (@subtract f32 (F32 o) (v x) (v y) w ia) st
  | TypedAdd X x y w1 w2 ia => new (@typed_add f32 (F32 o) X (v x) (v y) w1 w2 ia) st
  | TypedMix X x y w ia => new (@typed_mix f32 (F32 o) X (v x) (v y) w ia) st
  | TypedMinus X x y w ia => new (@typed_subtract f32 (F32 o) X (v x) (v y) w ia) st
  | Average X xs ia => new (@average f32 (F32 o) X (map v xs) ia) st
  | Compose p x y => new (@composite f32 (F32 o) p (v x) (v y)) st
  | BlendMode m x y us ud => new (@blend f32 (F32 o) m (v x) (v y) us ud) st
  | BlendHcy m x y us ud => new (@blend_hcy f32 (F32 o) m (v x) (v y) us ud) st
  | AdjustNew a x pc => new (@adjust f32 (F32 o) a (v x) pc) st
  | AdjustRef a x pc => match v x with Some p => effect (@adjust_in_place f32 (F32 o) a p pc) st | None => Undef end
  | Combination x n => several (@create_combination f32 (F32 o) (v x) n) st
  | Complimentary x => new (@create_complimentary f32 (F32 o) (v x)) st
  | Analogous x d => several (@create_analogous f32 (F32 o) (v x) d) st
  | Monochromatic x md amount n => several (@create_monochromatic f32 (F32 o) (v x) md amount n) st
  | ComplimentarySplit x amount => several (@create_complimentary_split f32 (F32 o) (v x) amount) st
  | DistanceOf d x y => effect (@distance f32 (F32 o) d (v x) (v y)) st
  | AdaptTo m x b w => new (@adaptation f32 (F32 o) m (v x) (Some (b, w))) st
  end.

Fixpoint run (o : oracle) (l : list call) (st : state) : outcome state :=
  match l with
  | [] => Ok st
  | c :: l => obind (exec o c st) (run o l)
  end.

(** ** The static discipline *)
(** What is known about a variable: the type of the colour and the number of its RGB space;
    nothing is known about a variable with [None], and it must not be used. *)
Definition known := option (ctype * option nat).
(** The variables, and the address of the white point of every RGB space. *)
Record context := Context { vars : list known; whites : list nat }.
Definition is_var (G : context) (x : nat) (X : ctype) (s : option nat) : Prop := nth_error (vars G) x = Some (Some (X, s)).
Definition same_color (X : ctype) (s : option nat) : known := Some (X, s).

(** Conversion to a CIE type changes a deep RGB colour (see C29). *)
Definition if_deep (X Y : ctype) (x : nat) : list nat :=
  match X with RGB_DEEP => if cie Y then [x] else [] | _ => [] end.

(** [accepted G c ks ws ms]: the call may be made, it returns the colours [ks], creates RGB
    spaces with the white points [ws], and changes at most the colours of the variables [ms]. *)
Inductive accepted (G : context) : call -> list known -> list nat -> list nat -> Prop :=
| a_space rx ry gx gy bx by_ b w g : accepted G (NewSpace rx ry gx gy bx by_ b w g) [] [b] []
| a_color k l a s : In k all_types -> length l = arity k -> (forall i, s = Some i -> i < length (whites G))%nat ->
    accepted G (NewColor k l a s) [same_color k s] [] []
| a_set k x v i s : is_var G x k s -> (i < arity k)%nat -> accepted G (SetComponent k x v i) [] [] [x]
| a_alpha x a X s : is_var G x X s -> accepted G (SetAlpha x a) [] [] [x]
| a_index x v i X s : is_var G x X s -> (0 <= i < Z.of_nat (arity X))%Z -> (own_first_limit X = false \/ i <> 0%Z) -> accepted G (SetIndex x v i) [] [] [x]
| a_copy k x s : is_var G x k s -> accepted G (Copy k x) [same_color k s] [] []
| a_assign k x y s t : is_var G x k s -> is_var G y k t -> accepted G (Assign k x y) [] [] [x]
| a_gamma x X s : is_var G x X s -> s <> None -> own_first_limit X = false -> accepted G (GammaCorrect x) [] [] [x]
| a_inverse_gamma x X s : is_var G x X s -> s <> None -> own_first_limit X = false -> accepted G (InverseGamma x) [] [] [x]
| a_convert Y x X s : is_var G x X s -> In Y all_types -> (needs_space X Y = true -> s <> None) ->
    accepted G (Convert Y x) [same_color Y s] [] (if_deep X Y x)
| a_convert_to Y x X s : is_var G x X s -> In Y all_types -> convertible Y = true -> (needs_space X Y = true -> s <> None) ->
    accepted G (ConvertTo x Y) [same_color Y s] [] (if_deep X Y x)
| a_add x y w1 w2 ia X s Y t : is_var G x X s -> is_var G y Y t -> In X add_types -> (cie X = true -> s <> None) -> (needs_space X Y = true -> t <> None) ->
    in_interval 0 1 w1 -> in_interval 0 1 w2 -> accepted G (Add x y w1 w2 ia) [same_color X s] [] (if_deep Y X y)
| a_mix x y w ia X s Y t : is_var G x X s -> is_var G y Y t -> In X mix_types -> (cie X = true -> s <> None) -> (needs_space X Y = true -> t <> None) ->
    positive_unit w -> accepted G (Mix x y w ia) [same_color X s] [] (if_deep Y X y)
| a_minus x y w ia X s Y t : is_var G x X s -> is_var G y Y t -> In X mix_types -> (cie X = true -> s <> None) -> (needs_space X Y = true -> t <> None) ->
    positive_unit w -> accepted G (Minus x y w ia) [same_color X s] [] (if_deep Y X y)
| a_typed_add x y w1 w2 ia X s t : is_var G x X s -> is_var G y X t -> (cie X = true -> s <> None /\ t <> None) ->
    in_interval 0 1 w1 -> in_interval 0 1 w2 -> accepted G (TypedAdd X x y w1 w2 ia) [same_color X s] [] []
| a_typed_mix x y w ia X s t : is_var G x X s -> is_var G y X t -> (cie X = true -> s <> None /\ t <> None) ->
    in_interval 0 1 w -> accepted G (TypedMix X x y w ia) [same_color X s] [] []
| a_typed_minus x y w ia X s t : is_var G x X s -> is_var G y X t -> (cie X = true -> s <> None /\ t <> None) ->
    in_interval 0 1 w -> accepted G (TypedMinus X x y w ia) [same_color X s] [] []
| a_average x xs ia X s : is_var G x X s -> (forall y, In y xs -> exists t, is_var G y X t) ->
    accepted G (Average X (x :: xs) ia) [same_color X s] [] []
| a_compose p x y X Y s : is_var G x X s -> is_var G y Y s -> convertible X = true -> (cie X || cie Y = true -> s <> None) ->
    accepted G (Compose p x y) [if ctype_eq_dec X RGB_DEEP then None else same_color X s] [] []
| a_blend m x y us ud X Y s : is_var G x X s -> is_var G y Y s -> convertible X = true -> (cie X || cie Y = true -> s <> None) ->
    accepted G (BlendMode m x y us ud) [if ctype_eq_dec X RGB_DEEP then None else same_color X s] [] []
| a_blend_hcy m x y us ud X s Y t : is_var G x X s -> is_var G y Y t -> convertible X = true -> (cie X = true -> s <> None) -> (cie Y = true -> t <> None) ->
    accepted G (BlendHcy m x y us ud) [same_color X s] [] []
| a_adjust a x pc X s : is_var G x X s -> convertible X = true -> (cie X = true -> s <> None) ->
    accepted G (AdjustNew a x pc) [same_color X s] [] (match X with HSL => if in_hsl a then [x] else [] | _ => [] end)
| a_adjust_ref a x pc X s : is_var G x X s -> convertible X = true -> (cie X = true -> s <> None) ->
    accepted G (AdjustRef a x pc) [] [] [x]
| a_combination x n X s : is_var G x X s -> convertible X = true -> (cie X = true -> s <> None) -> (2 <= n <= 360)%Z ->
    accepted G (Combination x n) (repeat (same_color X s) (Z.to_nat n)) [] []
| a_complimentary x X s : is_var G x X s -> convertible X = true -> (cie X = true -> s <> None) ->
    accepted G (Complimentary x) [same_color X s] [] []
| a_analogous x d X s : is_var G x X s -> convertible X = true -> (cie X = true -> s <> None) -> ~ is_value d 0 -> ~ above 120 d ->
    accepted G (Analogous x d) (repeat (same_color X s) 3) [] []
| a_mono x md amount n X s : is_var G x X s -> convertible X = true -> (cie X = true -> s <> None) ->
    (0 <= md <= 2)%Z -> ~ outside_unit amount -> (1 <= n)%Z ->
    accepted G (Monochromatic x md amount n) (repeat (same_color X s) (Z.to_nat n)) [] []
| a_split x amount X s : is_var G x X s -> convertible X = true -> (cie X = true -> s <> None) -> ~ is_value amount 0 -> ~ above 120 amount ->
    accepted G (ComplimentarySplit x amount) (repeat (same_color X s) 3) [] []
| a_distance d x y X s Y t : is_var G x X s -> is_var G y Y t ->
    (needs_space X (compared_in d) = true -> s <> None) -> (needs_space Y (compared_in d) = true -> t <> None) ->
    match d with Cie00 _ _ _ _ _ => False | _ => True end ->
    accepted G (DistanceOf d x y) [] [] (if_deep X (compared_in d) x ++ if_deep Y (compared_in d) y)
| a_adapt_same m x w X i b : is_var G x X (Some i) -> nth_error (whites G) i = Some b ->
    accepted G (AdaptTo m x b w) [same_color X (Some i)] [] []
| a_adapt m x b w X i a : is_var G x X (Some i) -> nth_error (whites G) i = Some a -> a <> b -> convertible X = true ->
    second_component m && grey X = false ->
    accepted G (AdaptTo m x b w) [same_color X (Some (length (whites G)))] [b] (if_deep X XYZ x).

Definition extend (G : context) (ks : list known) (ws : list nat) : context := Context (vars G ++ ks) (whites G ++ ws).

Inductive accepts : context -> list call -> context -> list nat -> Prop :=
| accepts_nil G : accepts G [] G []
| accepts_cons G c l ks ws ms G' ms' : accepted G c ks ws ms -> accepts (extend G ks ws) l G' ms' -> accepts G (c :: l) G' (ms ++ ms').

(** ** What the discipline says about a state *)
Definition good_state (o : oracle) (G : context) (st : state) : Prop :=
  length (snd st) = length (vars G) /\
  (forall x X s, is_var G x X s -> exists p c, nth_error (snd st) x = Some (Some p) /\ at_addr (fst st) p c /\ @wf_color f32 (F32 o) X c /\ rgb_space c = s /\
     forall i, s = Some i -> (i < length (whites G))%nat) /\
  length (spaces (fst st)) = length (whites G) /\
  (forall i a, nth_error (whites G) i = Some a -> exists s w, nth_error (spaces (fst st)) i = Some s /\ usable_space s /\ s_white s = Some (a, w)).

(** Nothing but the colours of the variables [ms] was changed. *)
Definition only_changed (ms : list nat) (st st' : state) : Prop :=
  (exists l, snd st' = snd st ++ l) /\ (exists l, spaces (fst st') = spaces (fst st) ++ l) /\
  forall i c, at_addr (fst st) i c -> (forall x, In x ms -> var (snd st') x <> Some i) -> at_addr (fst st') i c.
