(** * Properties: what the setters of an RGB colour space keep *)
From Coq Require Import ZArith Reals List Bool.
From Flocq Require Import Core.
From Verif Require Import Arith Outcome ColorModel GammaModel MatrixModel SpaceModel Spec F32 RArith Setters_Proofs.
Import ListNotations.
Local Open Scope R_scope.

(** C232, in binary32 and in exact arithmetic *)
Theorem C232_setters : forall o rx ry gx gy bx by_ (w w' : white_ptr f32) g g' s, @space_ctor f32 (F32 o) rx ry gx gy bx by_ w g = Ok s ->
  @space_ctor f32 (F32 o) rx ry gx gy bx by_ w g' = Ok (set_gamma_curve s g') /\
  @set_white_point f32 (F32 o) s w' = @space_ctor f32 (F32 o) rx ry gx gy bx by_ w' g /\
  (forall s', @set_white_point f32 (F32 o) s w' = Ok s' ->
    @set_white_point f32 (F32 o) s' w = Ok s /\ @set_white_point f32 (F32 o) (set_gamma_curve s g') w' = Ok (set_gamma_curve s' g')).
Proof. intros o. exact (setters f32 (F32 o)). Qed.
Print Assumptions C232_setters.
Theorem C232_setters_exact : forall rx ry gx gy bx by_ (w w' : white_ptr R) g g' s, space_ctor rx ry gx gy bx by_ w g = Ok s ->
  space_ctor rx ry gx gy bx by_ w g' = Ok (set_gamma_curve s g') /\
  set_white_point s w' = space_ctor rx ry gx gy bx by_ w' g /\
  (forall s', set_white_point s w' = Ok s' ->
    set_white_point s' w = Ok s /\ set_white_point (set_gamma_curve s g') w' = Ok (set_gamma_curve s' g')).
Proof. exact (setters R RArith). Qed.
Print Assumptions C232_setters_exact.
Theorem C232_gamma : forall (s : space_def f32) g, let s' := set_gamma_curve s g in
  s_gamma s' = g /\ s_white s' = s_white s /\ s_red s' = s_red s /\ s_green s' = s_green s /\ s_blue s' = s_blue s /\
  s_matrix s' = s_matrix s /\ s_inverse s' = s_inverse s.
Proof. exact gamma_set. Qed.
Print Assumptions C232_gamma.
Example C232_example : let w := White (95 / 100) 1 (109 / 100) 0 0 0 in let w' := White 1 1 1 0 0 0 in
  exists s s', space_ctor (64 / 100) (33 / 100) (3 / 10) (6 / 10) (15 / 100) (6 / 100) (Some (0%nat, w)) None = Ok s /\
    set_white_point s (Some (1%nat, w')) = Ok s' /\ s_white s' <> s_white s.
Proof. exact setters_example. Qed.
