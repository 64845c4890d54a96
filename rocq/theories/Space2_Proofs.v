(** * Default and degenerate RGB spaces, equality of white points (C131 - C133) *)
From Coq Require Import ZArith QArith Reals Lra Lia List Bool.
From Flocq Require Import Core IEEE754.BinarySingleNaN.
From Verif Require Import Arith Outcome ColorModel GammaModel MatrixModel SpaceModel Heap Converter F32 F32Facts RArith Laws
  Spec Spec32 Spec_Matrix Spec_Space Spec_Conv.
From Verif Require Import NormalForms Core_Proofs Hex_Proofs Core3_Proofs Matrix_Proofs Det_Proofs Invert_Proofs Space_Proofs Matrix2_Proofs
  Conv_Proofs Conv2_Proofs Total_Proofs Convert_Proofs.
Import ListNotations.

(** ** The default RGB space *)
Section D.
Context {F : Type} {AF : Arith F} {AL : ArithLaws F}.

Lemma mulvec_empty (x y z : F) : mulvec (Mat 0 0 []) [x; y; z] = Ok [fz 0; fz 0; fz 0].
Proof. reflexivity. Qed.

Lemma default_to_xyz (h : heap F) p c i a : at_addr h p c -> wf_color RGB_DEEP c -> rgb_space c = Some i ->
  nth_error (spaces h) i = Some (space_default a) ->
  exists q r h', to_xyz (Some p) h = (Ok (Some q), h') /\ at_addr h' q r /\ ty r = XYZ /\
    comps r = [clamp (fz 0) (fz 100) (fz 0); clamp (fz 0) (fz 100) (fz 0); clamp (fz 0) (fz 100) (fz 0)].
Proof.
  intros Hp W S Hs. unfold to_xyz, bind at 1, load. unfold at_addr in Hp. rewrite Hp, (wf_ty _ _ W).
  unfold rgb_deep_to_xyz, bind. rewrite (load_as_ok h p c _ Hp W).
  destruct (comps3 _ c W eq_refl) as [x [y [z Ec]]].
  unfold do_inverse_gamma_correction, correct_with. rewrite Ec. unfold load_gamma, bind, load_space, ret. rewrite S, Hs. cbn [space_default s_gamma].
  rewrite (store_ok h p c _ Hp). cbn [spaces rgb_space with_comps comps map]. rewrite S, Hs. unfold lift. cbn [s_matrix space_default].
  rewrite mulvec_empty. rewrite xyz_nf.
  match goal with |- context [alloc ?r ?h0] => exists (length (colors h0)), r, (Heap (colors h0 ++ [r]) (spaces h0)) end.
  split; [reflexivity|]. split; [unfold at_addr; cbn [colors]; rewrite nth_error_app2 by lia; rewrite Nat.sub_diag; reflexivity|].
  split; reflexivity.
Qed.
End D.

Lemma zero_100 o : is_value (@clamp f32 (F32 o) (@fz f32 (F32 o) 0) (@fz f32 (F32 o) 100) (@fz f32 (F32 o) 0)) 0.
Proof.
  split; [vm_compute; reflexivity|].
  replace (@clamp f32 (F32 o) (@fz f32 (F32 o) 0) (@fz f32 (F32 o) 100) (@fz f32 (F32 o) 0)) with (B754_zero (prec := 24) (emax := 128) false); [reflexivity|].
  symmetry. apply B2SF_inj. vm_compute. reflexivity.
Qed.

Lemma default_black o (h : heap f32) p c i a : at_addr h p c -> @wf_color f32 (F32 o) RGB_DEEP c -> rgb_space c = Some i ->
  nth_error (spaces h) i = Some (@space_default f32 (F32 o) a) ->
  exists q r h', @to_xyz f32 (F32 o) (Some p) h = (Ok (Some q), h') /\ at_addr h' q r /\ ty r = XYZ /\
    forall k, (k < 3)%nat -> comp_sat r k (fun x => is_value x 0).
Proof.
  intros Hp W S Hs. destruct (default_to_xyz h p c i a Hp W S Hs) as [q [r [h' [E [P [T C]]]]]].
  exists q, r, h'. repeat split; auto. intros k K. unfold comp_sat. rewrite C.
  destruct k as [|[|[|k]]]; [| | |lia]; (eexists; split; [reflexivity|apply zero_100]).
Qed.

(** ** Degenerate primaries *)
Local Open Scope R_scope.
Lemma degenerate_core red green blue w : det_cols3 red green blue = 0 ->
  exists m, calculate_transformation_matrix red green blue (vec w) = Ok m /\ rect 3 3 m /\ det 3 (entry m) = 0 /\ invert m = Ok m.
Proof.
  destruct red as [[r0 r1] r2], green as [[g0 g1] g2], blue as [[b0 b1] b2], w as [[w0 w1] w2]. intros D.
  unfold calculate_transformation_matrix. rewrite mat_sq3. cbn [obind].
  rewrite (invert_singular 3); [|apply rect33|lia|rewrite det_mat33; exact D].
  cbn [obind vec]. rewrite mulvec33. cbn [obind]. rewrite mat_sq3. cbn [obind]. rewrite fzR, mmul33.
  eexists. split; [reflexivity|]. split; [apply rect33|].
  match goal with |- det 3 (entry ?m) = 0 /\ _ => assert (Z : det 3 (entry m) = 0) end.
  { rewrite det_mat33. unfold det_cols3 in *.
    match goal with |- _ * (_ - _) - _ + _ = 0 => idtac end.
    transitivity ((r0 * w0 + g0 * w1 + b0 * w2) * (r1 * w0 + g1 * w1 + b1 * w2) * (r2 * w0 + g2 * w1 + b2 * w2) *
      (r0 * (g1 * b2 - g2 * b1) - g0 * (r1 * b2 - r2 * b1) + b0 * (r1 * g2 - r2 * g1))); [ring|]. rewrite D. ring. }
  split; [exact Z|]. apply (invert_singular 3); [apply rect33|lia|exact Z].
Qed.

Lemma degenerate_accepted rx ry gx gy bx by_ a w g :
  det_cols3 (rx, ry, 1 - rx - ry) (gx, gy, 1 - gx - gy) (bx, by_, 1 - bx - by_) = 0 ->
  exists s, space_ctor rx ry gx gy bx by_ (Some (a, w)) g = Ok s /\ s_inverse s = s_matrix s /\
    det 3 (entry (s_matrix s)) = 0 /\ (forall v e, identity 3 = Ok e -> rect 3 3 v -> mmul (s_matrix s) v <> Ok e).
Proof.
  intros D. destruct (degenerate_core _ _ _ (white_xyz w) D) as [m [E [Rm [Z I]]]].
  unfold space_ctor, primary. rewrite fzR. cbn [fsub RArith].
  change (tristimulus w) with (vec (white_xyz w)). rewrite E. cbn [obind]. rewrite I. cbn [obind].
  eexists. split; [reflexivity|]. split; [reflexivity|]. split; [exact Z|]. cbn [s_matrix]. intros v e Ie Rv H.
  destruct (rect33_inv m Rm) as [a0 [a1 [a2 [a3 [a4 [a5 [a6 [a7 [a8 ->]]]]]]]]].
  destruct (rect33_inv v Rv) as [b0 [b1 [b2 [b3 [b4 [b5 [b6 [b7 [b8 ->]]]]]]]]].
  rewrite mmul33 in H. rewrite identity_ok in Ie. injection Ie as <-. apply (f_equal (fun x => match x with Ok m => m | _ => Mat 0 0 [] end)) in H.
  rewrite det_mat33 in Z.
  assert (D1 : det_cols3 (1, 0, 0) (0, 1, 0) (0, 0, 1) = det_cols3 (a0, a3, a6) (a1, a4, a7) (a2, a5, a8) * det_cols3 (b0, b3, b6) (b1, b4, b7) (b2, b5, b8)).
  { injection H as H0 H1 H2 H3 H4 H5 H6 H7 H8. unfold det_cols3.
    transitivity ((a0 * b0 + a1 * b3 + a2 * b6) * ((a3 * b1 + a4 * b4 + a5 * b7) * (a6 * b2 + a7 * b5 + a8 * b8) - (a6 * b1 + a7 * b4 + a8 * b7) * (a3 * b2 + a4 * b5 + a5 * b8))
      - (a0 * b1 + a1 * b4 + a2 * b7) * ((a3 * b0 + a4 * b3 + a5 * b6) * (a6 * b2 + a7 * b5 + a8 * b8) - (a6 * b0 + a7 * b3 + a8 * b6) * (a3 * b2 + a4 * b5 + a5 * b8))
      + (a0 * b2 + a1 * b5 + a2 * b8) * ((a3 * b0 + a4 * b3 + a5 * b6) * (a6 * b1 + a7 * b4 + a8 * b7) - (a6 * b0 + a7 * b3 + a8 * b6) * (a3 * b1 + a4 * b4 + a5 * b7))); [|ring].
    rewrite H0, H1, H2, H3, H4, H5, H6, H7, H8. ring. }
  rewrite Z in D1. unfold det_cols3 in D1. lra.
Qed.

(** ** Equality of white points *)
Lemma white_eqb_iff {F} {AF : Arith F} (a b : white_point F) : white_eqb a b = true <->
  feq (tx a) (tx b) = true /\ feq (ty_ a) (ty_ b) = true /\ feq (tz a) (tz b) = true /\
  feq (cx a) (cx b) = true /\ feq (cy a) (cy b) = true /\ feq (cz a) (cz b) = true.
Proof.
  unfold white_eqb. cbn.
  destruct (feq (tx a) _), (feq (ty_ a) _), (feq (tz a) _), (feq (cx a) _), (feq (cy a) _), (feq (cz a) _); cbn; intuition discriminate.
Qed.
Lemma Reqb_iff x y : Reqb x y = true <-> x = y.
Proof. split; [apply Reqb_true|]. intros ->. unfold Reqb. destruct (Req_EM_T y y); congruence. Qed.
Lemma white_eqb_R (a b : white_point R) : white_eqb a b = true <-> a = b.
Proof.
  rewrite white_eqb_iff. destruct a as [a1 a2 a3 a4 a5 a6], b as [b1 b2 b3 b4 b5 b6].
  cbn [SpaceModel.tx SpaceModel.ty_ SpaceModel.tz SpaceModel.cx SpaceModel.cy SpaceModel.cz feq RArith]. rewrite !Reqb_iff. split.
  - intros [-> [-> [-> [-> [-> ->]]]]]. reflexivity.
  - intros H'. injection H' as -> -> -> -> -> ->. auto 10.
Qed.
