(** * Property C205: distances of arbitrary colours in binary32 *)
From Coq Require Import ZArith Reals List.
From Flocq Require Import Core IEEE754.BinarySingleNaN.
From Verif Require Import Arith Outcome ColorModel Heap Distance F32 Spec Spec32 Spec_Conv Spec_Distance Spec_Rank Spec_Mix Spec_Metric Metric_Proofs.
Import ListNotations.
Local Open Scope R_scope.

Theorem C205_accuracy : forall o, accurate_square o -> positive_square o -> forall d X1 X2 (h : heap f32) p1 c1 p2 c2, plain_distance d -> p1 <> p2 ->
  at_addr h p1 c1 -> at_addr h p2 c2 -> @wf_color f32 (F32 o) X1 c1 -> @wf_color f32 (F32 o) X2 c2 ->
  (needs_space X1 (compared_in d) = true -> has_space h c1) -> (needs_space X2 (compared_in d) = true -> has_space h c2) ->
  exists h' d1 d2 x, @converted_pair f32 (F32 o) (compared_in d) h p1 p2 h' d1 d2 /\ @distance f32 (F32 o) d (Some p1) (Some p2) h = (Ok x, h') /\
    measures (euclid (numbers d1) (numbers d2)) x /\ 0 <= B2R x /\ (numbers d1 = numbers d2 -> B2R x = 0) /\ (X1 = compared_in d -> d1 = c1) /\ (X2 = compared_in d -> d2 = c2).
Proof. exact metric_accuracy. Qed.
Print Assumptions C205_accuracy.

Theorem C205_squared : forall o, accurate_square o -> positive_square o -> forall s X1 X2 (h : heap f32) p1 c1 p2 c2, p1 <> p2 ->
  at_addr h p1 c1 -> at_addr h p2 c2 -> @wf_color f32 (F32 o) X1 c1 -> @wf_color f32 (F32 o) X2 c2 ->
  (needs_space X1 (@compared_in f32 (Squared s)) = true -> has_space h c1) -> (needs_space X2 (@compared_in f32 (Squared s)) = true -> has_space h c2) ->
  exists h' d1 d2 x, @converted_pair f32 (F32 o) (@compared_in f32 (Squared s)) h p1 p2 h' d1 d2 /\ @distance f32 (F32 o) (Squared s) (Some p1) (Some p2) h = (Ok x, h') /\
    measures2 (squared_distance (numbers d1) (numbers d2)) x /\ 0 <= B2R x /\ (numbers d1 = numbers d2 -> B2R x = 0).
Proof. exact metric_squared. Qed.
Print Assumptions C205_squared.

Theorem C205_symmetric : forall o, even_square o -> forall d (h : heap f32) p1 c1 p2 c2, plain_distance d \/ (exists s, d = Squared s) ->
  at_addr h p1 c1 -> at_addr h p2 c2 -> @wf_color f32 (F32 o) (compared_in d) c1 -> @wf_color f32 (F32 o) (compared_in d) c2 ->
  (cie (compared_in d) = true -> has_space h c1 /\ has_space h c2) ->
  @distance f32 (F32 o) d (Some p1) (Some p2) h = @distance f32 (F32 o) d (Some p2) (Some p1) h.
Proof. exact metric_symmetric. Qed.
Print Assumptions C205_symmetric.

Theorem C205_triangle : forall o, accurate_square o -> positive_square o -> forall d (h : heap f32) p1 c1 p2 c2 p3 c3, plain_distance d -> p1 <> p2 -> p2 <> p3 -> p1 <> p3 ->
  at_addr h p1 c1 -> at_addr h p2 c2 -> at_addr h p3 c3 -> @wf_color f32 (F32 o) (compared_in d) c1 -> @wf_color f32 (F32 o) (compared_in d) c2 -> @wf_color f32 (F32 o) (compared_in d) c3 ->
  (cie (compared_in d) = true -> has_space h c1 /\ has_space h c2 /\ has_space h c3) ->
  exists x y z, @distance f32 (F32 o) d (Some p1) (Some p2) h = (Ok x, h) /\ @distance f32 (F32 o) d (Some p2) (Some p3) h = (Ok y, h) /\ @distance f32 (F32 o) d (Some p1) (Some p3) h = (Ok z, h) /\
    is_finite x = true /\ is_finite y = true /\ is_finite z = true /\ B2R z <= (B2R x + B2R y) * (1 + / 262144) + / 67108864.
Proof. exact metric_triangle. Qed.
Print Assumptions C205_triangle.

Theorem C205_order : forall o, accurate_square o -> positive_square o -> forall d (h : heap f32) p1 c1 p2 c2 p3 c3, plain_distance d -> p1 <> p2 -> p1 <> p3 ->
  at_addr h p1 c1 -> at_addr h p2 c2 -> at_addr h p3 c3 -> @wf_color f32 (F32 o) (compared_in d) c1 -> @wf_color f32 (F32 o) (compared_in d) c2 -> @wf_color f32 (F32 o) (compared_in d) c3 ->
  (cie (compared_in d) = true -> has_space h c1 /\ has_space h c2 /\ has_space h c3) ->
  euclid (numbers c1) (numbers c2) * (1 + / 262144) + / 67108864 < euclid (numbers c1) (numbers c3) ->
  exists x y, @distance f32 (F32 o) d (Some p1) (Some p2) h = (Ok x, h) /\ @distance f32 (F32 o) d (Some p1) (Some p3) h = (Ok y, h) /\
    is_finite x = true /\ is_finite y = true /\ B2R x < B2R y.
Proof. exact metric_order. Qed.
Print Assumptions C205_order.

(** A math library with these squares exists, and (50, 3, 4) is 5 away from (50, 0, 0). *)
Example C205_oracle : exists o, accurate_square o /\ positive_square o /\ even_square o.
Proof. exact metric_oracle. Qed.
Example C205_five : forall o, accurate_square o -> positive_square o ->
  exists (h : heap f32) c1 c2 x, at_addr h 0%nat c1 /\ at_addr h 1%nat c2 /\ @wf_color f32 (F32 o) LAB c1 /\ @wf_color f32 (F32 o) LAB c2 /\
    numbers c1 = [50; 0; 0] /\ numbers c2 = [50; 3; 4] /\ @distance f32 (F32 o) Cie76 (Some 0%nat) (Some 1%nat) h = (Ok x, h) /\ measures 5 x.
Proof. exact metric_five. Qed.
