(** * White points and RGB colour spaces in exact arithmetic (C24 - C27) *)
From Coq Require Import ZArith QArith Qreals Reals Lra Lia List Bool.
From Verif Require Import Arith Outcome ColorModel GammaModel MatrixModel SpaceModel RArith Laws Spec_Matrix Spec_Space Matrix_Proofs Det_Proofs Invert_Proofs.
Import ListNotations.
Local Open Scope R_scope.

(** ** C24 *)
Lemma chroma_sum x y z a b c : x + y + z <> 0 ->
  tristimulus_to_chromaticity (F := R) (x, y, z) = (a, b, c) -> a + b + c = 1.
Proof. intros H E. injection E as <- <- <-. cbn [fdiv fadd RArith]. field. exact H. Qed.
Lemma tri_chroma_tri x z : x + 1 + z <> 0 ->
  chromaticity_to_tristimulus (tristimulus_to_chromaticity (F := R) (x, 1, z)) 1 = (x, 1, z).
Proof.
  intros H. cbn. f_equal; [f_equal|]; field; auto; split; auto; lra.
Qed.
Lemma chroma_tri_chroma x y z Y : y <> 0 -> Y <> 0 -> x + y + z = 1 ->
  tristimulus_to_chromaticity (chromaticity_to_tristimulus (F := R) (x, y, z) Y) = (x, y, z).
Proof.
  intros Hy HY S. cbn.
  assert (E : Y / y * x + Y / y * y + Y / y * z = Y / y) by (rewrite <- !Rmult_plus_distr_l, S; ring).
  rewrite E. f_equal; [f_equal|]; field; auto.
Qed.
Lemma white2 x y : y <> 0 -> let w := white_point2 (F := R) x y in
  ty_ w = 1 /\ cx w = x /\ cy w = y /\ cx w + cy w + cz w = 1 /\
  tristimulus_to_chromaticity (tx w, ty_ w, tz w) = (x, y, cz w).
Proof.
  intros H. unfold white_point2. rewrite fzR. cbn [fsub RArith].
  remember (chromaticity_to_tristimulus (x, y, 1 - x - y) 1) as t eqn:E. pose proof E as E'. destruct t as [[a b] c].
  cbn in E'. injection E' as Ea Eb Ec. cbn [tx ty_ tz cx cy cz]. repeat split; try lra.
  - rewrite Eb. field. exact H.
  - rewrite E. apply chroma_tri_chroma; [exact H|lra|ring].
Qed.
Lemma white3 x y z : x + y + z <> 0 -> let w := white_point3 (F := R) x y z in
  tx w = x /\ ty_ w = y /\ tz w = z /\ cx w + cy w + cz w = 1 /\
  cx w * (x + y + z) = x /\ cy w * (x + y + z) = y /\ cz w * (x + y + z) = z.
Proof. intros H. cbn. repeat split; field; exact H. Qed.
Lemma white5 x y z c d : let w := white_point5 (F := R) x y z c d in
  tx w = x /\ ty_ w = y /\ tz w = z /\ cx w = c /\ cy w = d /\ cx w + cy w + cz w = 1.
Proof. cbn. unfold fz. cbn. unfold Q2R, inject_Z. cbn. repeat split; lra. Qed.

(** ** C25 *)
Lemma consistentI e x y z c d : 0 < x + y + z ->
  (c - e * c) * (x + y + z) <= x <= (c + e * c) * (x + y + z) ->
  (d - e * d) * (x + y + z) <= y <= (d + e * d) * (x + y + z) ->
  ((1 - c - d) - e * (1 - c - d)) * (x + y + z) <= z <= ((1 - c - d) + e * (1 - c - d)) * (x + y + z) ->
  consistent e (white_point5 x y z c d).
Proof.
  intros S A B C. unfold consistent. destruct (white5 x y z c d) as [E1 [E2 [E3 [E4 [E5 E6]]]]]. cbv zeta in *.
  set (w := white_point5 x y z c d) in *. replace (cz w) with (1 - c - d) by lra. rewrite E1, E2, E3, E4, E5.
  assert (D : forall u v, (u - e * u) * (x + y + z) <= v <= (u + e * u) * (x + y + z) -> rel_err e u (v / (x + y + z))).
  { intros u v [L H]. unfold rel_err. apply Rabs_le.
    assert (u - e * u <= v / (x + y + z)) by (apply (Rmult_le_reg_r (x + y + z)); [exact S|]; replace (v / (x + y + z) * (x + y + z)) with v by (field; lra); exact L).
    assert (v / (x + y + z) <= u + e * u) by (apply (Rmult_le_reg_r (x + y + z)); [exact S|]; replace (v / (x + y + z) * (x + y + z)) with v by (field; lra); exact H).
    lra. }
  auto.
Qed.
Definition good_whites : list (white_point R) :=
  [wp_D50_2Degree; wp_D55_2Degree; wp_D65_2Degree; wp_D75_2Degree; wp_B_2Degree; wp_C_2Degree; wp_F1_2Degree; wp_F2_2Degree;
   wp_F5_2Degree; wp_F6_2Degree; wp_F7_2Degree; wp_F8_2Degree; wp_F10_2Degree; wp_D50_10Degree; wp_D55_10Degree; wp_D65_10Degree;
   wp_D75_10Degree; wp_B_10Degree; wp_C_10Degree; wp_F1_10Degree; wp_F5_10Degree; wp_F7_10Degree; wp_F8_10Degree; wp_F10_10Degree].
Definition bad_whites : list (white_point R) :=
  [wp_A_2Degree; wp_E_2Degree; wp_F3_2Degree; wp_F4_2Degree; wp_F9_2Degree; wp_F11_2Degree; wp_F12_2Degree; wp_A_10Degree;
   wp_E_10Degree; wp_F2_10Degree; wp_F3_10Degree; wp_F4_10Degree; wp_F6_10Degree; wp_F9_10Degree; wp_F11_10Degree; wp_F12_10Degree].
Lemma good_consistent : forall w, In w good_whites -> consistent (1 / 1000) w.
Proof.
  intros w I. unfold good_whites in I. cbn [In] in I.
  repeat match type of I with _ \/ _ => destruct I as [<-|I] end; try contradiction;
    (apply consistentI; cbn [lit RArith]; unfold Q2R; cbn [Qnum Qden]; lra).
Qed.
Lemma bad_inconsistent : forall w, In w bad_whites -> cy w * (14 / 10) * (tx w + ty_ w + tz w) < ty_ w /\ ~ consistent (1 / 100) w.
Proof.
  assert (K : forall w, 0 < tx w + ty_ w + tz w -> 0 < cy w -> cy w * (14 / 10) * (tx w + ty_ w + tz w) < ty_ w ->
     cy w * (14 / 10) * (tx w + ty_ w + tz w) < ty_ w /\ ~ consistent (1 / 100) w).
  { intros w S C H. split; [exact H|]. intros [_ [X _]]. unfold rel_err in X. pose proof (Rle_abs (ty_ w / (tx w + ty_ w + tz w) - cy w)).
    assert (ty_ w / (tx w + ty_ w + tz w) * (tx w + ty_ w + tz w) = ty_ w) by (field; lra). nra. }
  intros w I. unfold bad_whites in I. cbn [In] in I.
  repeat match type of I with _ \/ _ => destruct I as [<-|I] end; try contradiction;
    (apply K; match goal with |- context [?w] => idtac end; cbn [tx ty_ tz cy white_point5
       wp_A_2Degree wp_E_2Degree wp_F3_2Degree wp_F4_2Degree wp_F9_2Degree wp_F11_2Degree wp_F12_2Degree wp_A_10Degree
       wp_E_10Degree wp_F2_10Degree wp_F3_10Degree wp_F4_10Degree wp_F6_10Degree wp_F9_10Degree wp_F11_10Degree wp_F12_10Degree];
      cbn [lit RArith]; unfold Q2R; cbn [Qnum Qden]; lra).
Qed.
Lemma presets_split : forall w : white_point R, In w white_presets <-> In w good_whites \/ In w bad_whites.
Proof. intros w. unfold white_presets, good_whites, bad_whites. cbn [In]. tauto. Qed.

(** ** C26 *)
Definition cols3 (r g b : R * R * R) : matrix R :=
  let '(r0, r1, r2) := r in let '(g0, g1, g2) := g in let '(b0, b1, b2) := b in
  Mat 3 3 [[r0; g0; b0]; [r1; g1; b1]; [r2; g2; b2]].
Lemma rect33 a b c d e f g h i : rect (F := R) 3 3 (Mat 3 3 [[a; b; c]; [d; e; f]; [g; h; i]]).
Proof. repeat split. intros row [<-|[<-|[<-|[]]]]; reflexivity. Qed.
Lemma mmul33 a b c d e f g h i a' b' c' d' e' f' g' h' i' :
  mmul (AF := RArith) (Mat 3 3 [[a; b; c]; [d; e; f]; [g; h; i]]) (Mat 3 3 [[a'; b'; c']; [d'; e'; f']; [g'; h'; i']]) =
  Ok (Mat 3 3 [[a * a' + b * d' + c * g'; a * b' + b * e' + c * h'; a * c' + b * f' + c * i'];
               [d * a' + e * d' + f * g'; d * b' + e * e' + f * h'; d * c' + e * f' + f * i'];
               [g * a' + h * d' + i * g'; g * b' + h * e' + i * h'; g * c' + h * f' + i * i']]).
Proof. rewrite (mmul_ok 3) by apply rect33. unfold mk. cbn. repeat (f_equal; try ring). Qed.
Lemma mulvec33 a b c d e f g h i x y z :
  mulvec (AF := RArith) (Mat 3 3 [[a; b; c]; [d; e; f]; [g; h; i]]) [x; y; z] =
  Ok [a * x + b * y + c * z; d * x + e * y + f * z; g * x + h * y + i * z].
Proof. rewrite (mulvec_ok 3) by (reflexivity || apply rect33). cbn. repeat (f_equal; try ring). Qed.
Lemma mat_sq3 a b c d e f g h i : matrix_sq (AF := RArith) 3 [a; b; c; d; e; f; g; h; i] = Ok (Mat 3 3 [[a; b; c]; [d; e; f]; [g; h; i]]).
Proof. reflexivity. Qed.
Lemma rect33_inv (m : matrix R) : rect 3 3 m -> exists a b c d e f g h i, m = Mat 3 3 [[a; b; c]; [d; e; f]; [g; h; i]].
Proof.
  destruct m as [r c v]. intros [E1 [E2 [L W]]]. cbn in *. subst r c.
  destruct v as [|r0 [|r1 [|r2 [|]]]]; try discriminate L.
  pose proof (W r0 ltac:(cbn; auto)) as L0. pose proof (W r1 ltac:(cbn; auto)) as L1. pose proof (W r2 ltac:(cbn; auto)) as L2.
  destruct r0 as [|? [|? [|? [|]]]]; try discriminate L0. destruct r1 as [|? [|? [|? [|]]]]; try discriminate L1.
  destruct r2 as [|? [|? [|? [|]]]]; try discriminate L2. repeat eexists.
Qed.
Lemma det_mat33 a b c d e f g h i : det 3 (entry (Mat 3 3 [[a; b; c]; [d; e; f]; [g; h; i]])) = det_cols3 (a, d, g) (b, e, h) (c, f, i).
Proof. rewrite det_det3. unfold det3, entry, det_cols3. cbn. ring. Qed.

Definition vec (p : R * R * R) : list R := let '(a, b, c) := p in [a; b; c].
Lemma transformation red green blue w :
  det_cols3 red green blue <> 0 ->
  exists m t0 t1 t2, calculate_transformation_matrix red green blue (vec w) = Ok m /\ rect 3 3 m /\
    mulvec m [1; 1; 1] = Ok (vec w) /\
    mulvec m [1; 0; 0] = Ok (scale t0 red) /\ mulvec m [0; 1; 0] = Ok (scale t1 green) /\ mulvec m [0; 0; 1] = Ok (scale t2 blue) /\
    t0 * det_cols3 red green blue = det_cols3 w green blue /\
    t1 * det_cols3 red green blue = det_cols3 red w blue /\
    t2 * det_cols3 red green blue = det_cols3 red green w /\
    det 3 (entry m) = t0 * t1 * t2 * det_cols3 red green blue.
Proof.
  destruct red as [[r0 r1] r2], green as [[g0 g1] g2], blue as [[b0 b1] b2], w as [[w0 w1] w2]. intros D.
  unfold calculate_transformation_matrix. rewrite mat_sq3. cbn [obind].
  destruct (invert_two_sided 3 (Mat 3 3 [[r0; g0; b0]; [r1; g1; b1]; [r2; g2; b2]])) as [i [e [Ei [Ee [Ri [M1 M2]]]]]];
    [lia|apply rect33|rewrite det_mat33; exact D|].
  rewrite Ei. cbn [obind vec].
  destruct (rect33_inv i Ri) as [i0 [i1 [i2 [i3 [i4 [i5 [i6 [i7 [i8 ->]]]]]]]]].
  rewrite mulvec33. cbn [obind]. rewrite mat_sq3. cbn [obind].
  set (t0 := i0 * w0 + i1 * w1 + i2 * w2). set (t1 := i3 * w0 + i4 * w1 + i5 * w2). set (t2 := i6 * w0 + i7 * w1 + i8 * w2).
  rewrite mmul33 in M1. rewrite identity_ok in Ee. injection Ee as <-. 
  assert (EE : Mat 3 3 [[r0 * i0 + g0 * i3 + b0 * i6; r0 * i1 + g0 * i4 + b0 * i7; r0 * i2 + g0 * i5 + b0 * i8];
     [r1 * i0 + g1 * i3 + b1 * i6; r1 * i1 + g1 * i4 + b1 * i7; r1 * i2 + g1 * i5 + b1 * i8];
     [r2 * i0 + g2 * i3 + b2 * i6; r2 * i1 + g2 * i4 + b2 * i7; r2 * i2 + g2 * i5 + b2 * i8]] = Mat 3 3 [[1;0;0];[0;1;0];[0;0;1]]).
  { injection M1; intros; repeat f_equal; assumption. }
  clear M1 M2. injection EE as H00 H01 H02 H10 H11 H12 H20 H21 H22.
  rewrite fzR. rewrite mmul33.
  assert (W0 : r0 * t0 + g0 * t1 + b0 * t2 = w0).
  { unfold t0, t1, t2. transitivity ((r0 * i0 + g0 * i3 + b0 * i6) * w0 + (r0 * i1 + g0 * i4 + b0 * i7) * w1 + (r0 * i2 + g0 * i5 + b0 * i8) * w2); [ring|].
    rewrite H00, H01, H02. ring. }
  assert (W1 : r1 * t0 + g1 * t1 + b1 * t2 = w1).
  { unfold t0, t1, t2. transitivity ((r1 * i0 + g1 * i3 + b1 * i6) * w0 + (r1 * i1 + g1 * i4 + b1 * i7) * w1 + (r1 * i2 + g1 * i5 + b1 * i8) * w2); [ring|].
    rewrite H10, H11, H12. ring. }
  assert (W2 : r2 * t0 + g2 * t1 + b2 * t2 = w2).
  { unfold t0, t1, t2. transitivity ((r2 * i0 + g2 * i3 + b2 * i6) * w0 + (r2 * i1 + g2 * i4 + b2 * i7) * w1 + (r2 * i2 + g2 * i5 + b2 * i8) * w2); [ring|].
    rewrite H20, H21, H22. ring. }
  clearbody t0 t1 t2. clear - W0 W1 W2.
  eexists. exists t0, t1, t2. split; [reflexivity|]. split; [apply rect33|].
  rewrite !mulvec33. rewrite det_mat33. cbn [scale]. repeat split.
  - do 2 f_equal; [rewrite <- W0; ring|]. f_equal; [rewrite <- W1; ring|]. f_equal. rewrite <- W2; ring.
  - f_equal. repeat (f_equal; try ring).
  - f_equal. repeat (f_equal; try ring).
  - f_equal. repeat (f_equal; try ring).
  - unfold det_cols3. rewrite <- W0, <- W1, <- W2. ring.
  - unfold det_cols3. rewrite <- W0, <- W1, <- W2. ring.
  - unfold det_cols3. rewrite <- W0, <- W1, <- W2. ring.
  - unfold det_cols3. ring.
Qed.

Lemma space_core red green blue w : nondegenerate red green blue (white_xyz w) ->
  exists m i, calculate_transformation_matrix red green blue (tristimulus w) = Ok m /\ invert m = Ok i /\
  forall g a, maps_properly (Space red green blue (Some (a, w)) g m i) red green blue w.
Proof.
  intros [D [D0 [D1 D2]]]. destruct (transformation red green blue (white_xyz w) D) as [m [t0 [t1 [t2 [E [Rm [M1 [Mr [Mg [Mb [T0 [T1 [T2 DM]]]]]]]]]]]]].
  assert (N0 : t0 <> 0) by (intros ->; apply D0; lra). assert (N1 : t1 <> 0) by (intros ->; apply D1; lra).
  assert (N2 : t2 <> 0) by (intros ->; apply D2; lra).
  assert (ND : det 3 (entry m) <> 0).
  { rewrite DM. repeat apply Rmult_integral_contrapositive_currified; auto. }
  destruct (invert_two_sided 3 m) as [i [e [Ei [Ee [Ri [I1 I2]]]]]]; [lia|exact Rm|exact ND|].
  exists m, i. split; [exact E|]. split; [exact Ei|]. intros g a.
  unfold maps_properly. cbn [s_matrix s_inverse].
  split; [exact M1|]. split; [eexists; split; [exact Mr|exists t0; auto]|]. split; [eexists; split; [exact Mg|exists t1; auto]|].
  split; [eexists; split; [exact Mb|exists t2; auto]|]. split; [exact Rm|]. split; [exact Ri|]. exists e. auto.
Qed.
Lemma space_ctor_ok rx ry gx gy bx by_ a w g :
  nondegenerate (rx, ry, 1 - rx - ry) (gx, gy, 1 - gx - gy) (bx, by_, 1 - bx - by_) (white_xyz w) ->
  exists s, space_ctor rx ry gx gy bx by_ (Some (a, w)) g = Ok s /\
    s_white s = Some (a, w) /\ s_gamma s = g /\
    s_red s = (rx, ry, 1 - rx - ry) /\ s_green s = (gx, gy, 1 - gx - gy) /\ s_blue s = (bx, by_, 1 - bx - by_) /\
    maps_properly s (rx, ry, 1 - rx - ry) (gx, gy, 1 - gx - gy) (bx, by_, 1 - bx - by_) w.
Proof.
  intros N. destruct (space_core _ _ _ w N) as [m [i [E [Ei P]]]].
  unfold space_ctor, primary. rewrite fzR. cbn [fsub RArith]. rewrite E. cbn [obind]. rewrite Ei. cbn [obind].
  eexists. split; [reflexivity|]. cbn [s_white s_gamma s_red s_green s_blue]. repeat split. all: apply (P g a).
Qed.
Lemma set_white_point_ok s a w : nondegenerate (s_red s) (s_green s) (s_blue s) (white_xyz w) ->
  exists s', set_white_point s (Some (a, w)) = Ok s' /\
    s_white s' = Some (a, w) /\ s_gamma s' = s_gamma s /\ s_red s' = s_red s /\ s_green s' = s_green s /\ s_blue s' = s_blue s /\
    maps_properly s' (s_red s) (s_green s) (s_blue s) w.
Proof.
  intros N. destruct (space_core _ _ _ w N) as [m [i [E [Ei P]]]].
  unfold set_white_point. rewrite E. cbn [obind]. rewrite Ei. cbn [obind].
  eexists. split; [reflexivity|]. cbn [s_white s_gamma s_red s_green s_blue]. repeat split. all: apply (P (s_gamma s) a).
Qed.

(** ** C27 *)
Lemma preset_proper addr rx ry gx gy bx by_ w g :
  nondegenerate (rx, ry, 1 - rx - ry) (gx, gy, 1 - gx - gy) (bx, by_, 1 - bx - by_) (white_xyz w) ->
  exists s, space_ctor rx ry gx gy bx by_ (Some (addr, w)) (Some g) = Ok s /\ proper s.
Proof.
  intros N. destruct (space_ctor_ok rx ry gx gy bx by_ addr w (Some g) N) as [s [E [Ew [Eg [Er [Egr [Eb M]]]]]]].
  exists s. split; [exact E|]. exists addr, w. rewrite Er, Egr, Eb. split; [exact Ew|]. split; [rewrite Eg; discriminate|exact M].
Qed.
Lemma presets_proper addr : forall o, In o (space_presets addr) -> exists s, o = Ok s /\ proper s.
Proof.
  intros o I. unfold space_presets in I. cbn [In] in I.
  repeat match type of I with _ \/ _ => destruct I as [<-|I] end; try contradiction;
  (apply preset_proper; unfold nondegenerate, white_xyz, det_cols3; cbn [tx ty_ tz wp_D65_2Degree wp_D50_2Degree wp_C_2Degree wp_E_2Degree white_point5];
   cbn [lit RArith]; unfold Q2R; cbn [Qnum Qden]; repeat split; lra).
Qed.
