(** * rgb_color_space_definition: what the setters keep *)
From Coq Require Import ZArith QArith Reals Lra Lia List Bool.
From Flocq Require Import Core IEEE754.BinarySingleNaN.
From Verif Require Import Arith Outcome ColorModel GammaModel MatrixModel SpaceModel Spec F32 RArith Laws Spec_Matrix Spec_Space Space_Proofs.
Import ListNotations.

Section Setters.
Context {F : Type} {AF : Arith F}.

Lemma gamma_set (s : space_def F) g : let s' := set_gamma_curve s g in
  s_gamma s' = g /\ s_white s' = s_white s /\ s_red s' = s_red s /\ s_green s' = s_green s /\ s_blue s' = s_blue s /\
  s_matrix s' = s_matrix s /\ s_inverse s' = s_inverse s.
Proof. repeat split. Qed.

Lemma gamma_as_constructed rx ry gx gy bx by_ (w : white_ptr F) g g' s : space_ctor rx ry gx gy bx by_ w g = Ok s ->
  space_ctor rx ry gx gy bx by_ w g' = Ok (set_gamma_curve s g').
Proof.
  unfold space_ctor. destruct w as [[a wp]|]; [|discriminate].
  destruct (calculate_transformation_matrix _ _ _ _) as [m| | |]; cbn [obind]; try discriminate.
  destruct (invert m) as [i| | |]; cbn [obind]; try discriminate. intros E. injection E as <-. reflexivity.
Qed.

Lemma white_as_constructed rx ry gx gy bx by_ (w w' : white_ptr F) g s : space_ctor rx ry gx gy bx by_ w g = Ok s ->
  set_white_point s w' = space_ctor rx ry gx gy bx by_ w' g.
Proof.
  unfold space_ctor at 1. destruct w as [[a wp]|]; [|discriminate].
  destruct (calculate_transformation_matrix _ _ _ _) as [m| | |]; cbn [obind]; try discriminate.
  destruct (invert m) as [i| | |]; cbn [obind]; try discriminate. intros E. injection E as <-.
  unfold set_white_point, space_ctor. cbn [s_red s_green s_blue s_gamma]. destruct w' as [[a' wp']|]; reflexivity.
Qed.

Lemma white_last (s : space_def F) w w' s' : set_white_point s w = Ok s' -> set_white_point s' w' = set_white_point s w'.
Proof.
  unfold set_white_point at 1. destruct w as [[a wp]|]; [|discriminate].
  destruct (calculate_transformation_matrix _ _ _ _) as [m| | |]; cbn [obind]; try discriminate.
  destruct (invert m) as [i| | |]; cbn [obind]; try discriminate. intros E. injection E as <-. reflexivity.
Qed.

Lemma setters_commute (s : space_def F) w g s' : set_white_point s w = Ok s' -> set_white_point (set_gamma_curve s g) w = Ok (set_gamma_curve s' g).
Proof.
  unfold set_white_point, set_gamma_curve. cbn [s_red s_green s_blue s_gamma s_white s_matrix s_inverse]. destruct w as [[a wp]|]; [|discriminate].
  destruct (calculate_transformation_matrix _ _ _ _) as [m| | |]; cbn [obind]; try discriminate.
  destruct (invert m) as [i| | |]; cbn [obind]; try discriminate. intros E. injection E as <-. reflexivity.
Qed.

Lemma there_and_back rx ry gx gy bx by_ (w w' : white_ptr F) g s s' : space_ctor rx ry gx gy bx by_ w g = Ok s -> set_white_point s w' = Ok s' -> set_white_point s' w = Ok s.
Proof. intros E E'. rewrite (white_last s w' w s' E'), (white_as_constructed _ _ _ _ _ _ w w g s E). exact E. Qed.
End Setters.

Lemma setters (F : Type) (AF : Arith F) rx ry gx gy bx by_ (w w' : white_ptr F) g g' s : space_ctor rx ry gx gy bx by_ w g = Ok s ->
  space_ctor rx ry gx gy bx by_ w g' = Ok (set_gamma_curve s g') /\
  set_white_point s w' = space_ctor rx ry gx gy bx by_ w' g /\
  (forall s', set_white_point s w' = Ok s' ->
    set_white_point s' w = Ok s /\ set_white_point (set_gamma_curve s g') w' = Ok (set_gamma_curve s' g')).
Proof.
  intros E. split; [apply (gamma_as_constructed _ _ _ _ _ _ w g g' s E)|]. split; [apply (white_as_constructed _ _ _ _ _ _ w w' g s E)|].
  intros s' E'. split; [apply (there_and_back _ _ _ _ _ _ w w' g s s' E E')|apply setters_commute, E'].
Qed.

Local Open Scope R_scope.
Lemma setters_example : let w := White (95 / 100) 1 (109 / 100) 0 0 0 in let w' := White 1 1 1 0 0 0 in
  exists s s', space_ctor (64 / 100) (33 / 100) (3 / 10) (6 / 10) (15 / 100) (6 / 100) (Some (0%nat, w)) None = Ok s /\
    set_white_point s (Some (1%nat, w')) = Ok s' /\ s_white s' <> s_white s.
Proof.
  intros w w'.
  destruct (space_ctor_ok (64 / 100) (33 / 100) (3 / 10) (6 / 10) (15 / 100) (6 / 100) 0%nat w None) as [s [E [Ew _]]].
  { unfold w, nondegenerate, white_xyz, det_cols3. cbn [tx ty_ tz]. repeat split; lra. }
  destruct (space_ctor_ok (64 / 100) (33 / 100) (3 / 10) (6 / 10) (15 / 100) (6 / 100) 1%nat w' None) as [s' [E' [Ew' _]]].
  { unfold w', nondegenerate, white_xyz, det_cols3. cbn [tx ty_ tz]. repeat split; lra. }
  exists s, s'. split; [exact E|]. split; [rewrite (white_as_constructed _ _ _ _ _ _ _ (Some (1%nat, w')) None s E); exact E'|].
  rewrite Ew, Ew'. intros Q. discriminate Q.
Qed.
