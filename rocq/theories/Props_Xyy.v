(** * Properties: XYZ to xyY and back in binary32 *)
From Coq Require Import ZArith Reals List.
From Flocq Require Import Core IEEE754.BinarySingleNaN.
From Verif Require Import Arith Outcome ColorModel Heap Converter F32 RArith Spec Spec32 Spec_Conv Spec_Round Spec_Error Xyy_Proofs Xyy2_Proofs.
Import ListNotations.
Local Open Scope R_scope.

(** C219 *)
Theorem C219_accurate : forall o (h : heap f32) p (c : color f32) x y z, at_addr h p c -> @wf_color f32 (F32 o) XYZ c -> comps c = [x; y; z] -> / 1000000 <= B2R y ->
  forall X Y Z, X = B2R x -> Y = B2R y -> Z = B2R z ->
  @via f32 (@to_xyy f32 (F32 o)) (@to_xyz f32 (F32 o)) h p (fun m d =>
    ty m = XYY /\ rgb_space m = rgb_space c /\
    comp_sat m 0 (approx (X / (X + Y + Z)) (/ 2097152)) /\ comp_sat m 1 (approx (Y / (X + Y + Z)) (/ 2097152)) /\ comp_sat m 2 (fun v => v = y) /\
    ty d = XYZ /\ rgb_space d = rgb_space c /\
    comp_sat d 0 (approx X ((X + Y + Z) / 1048576)) /\ comp_sat d 1 (fun v => v = y) /\ comp_sat d 2 (approx Z ((X + Y + Z) / 1048576))).
Proof. exact xyy_round32. Qed.
Print Assumptions C219_accurate.
Example C219_example : forall o, exists (h : heap f32) (c : color f32) x y z, at_addr h 0%nat c /\ @wf_color f32 (F32 o) XYZ c /\ comps c = [x; y; z] /\ B2R x = 1 /\ B2R y = 2 /\ B2R z = 3.
Proof. exact xyz_123. Qed.

(** Without luminance the chromaticity is lost, even in exact arithmetic *)
Theorem C220_dark_refuted : forall (h : heap R) p c x z, at_addr h p c -> wf_color XYZ c -> comps c = [x; 0; z] -> 0 < x + z ->
  via to_xyy to_xyz h p (fun m d => comps m = [x / (x + z); 0; 0] /\ comps d = [0; 0; 0]).
Proof. exact xyy_dark. Qed.
Print Assumptions C220_dark_refuted.
Example C220_example : exists (h : heap R) c, at_addr h 0%nat c /\ wf_color XYZ c /\ comps c = [1; 0; 2].
Proof. exact xyz_dark_example. Qed.
