(** * Properties: accuracy of Lab coordinates in binary32 *)
From Coq Require Import ZArith Reals List.
From Flocq Require Import Core IEEE754.BinarySingleNaN.
From Verif Require Import Arith Outcome ColorModel SpaceModel Heap Converter F32 Spec Spec32 Spec_Conv Spec_Round Spec_Formula Spec_Error Spec_Lab PowRef_Proofs Detour2_Proofs Lab9_Proofs Lab10_Proofs.
Import ListNotations.
Local Open Scope R_scope.

(** C217 *)
Theorem C217_to_lab : forall o (h : heap f32) p (c : color f32) w x y z, accurate_pow o -> at_addr h p c -> @wf_color f32 (F32 o) XYZ c -> comps c = [x; y; z] ->
  @white_of f32 (F32 o) h c w -> below_white x (tx w) -> below_white y (ty_ w) -> below_white z (tz w) ->
  forall W, W = white_value w ->
  @yields f32 (@to_lab f32 (F32 o)) h p (fun m => ty m = LAB /\ rgb_space m = rgb_space c /\
    comp_sat m 0 (approx (cut 0 100 (cie_L W (B2R y))) (/ 4000)) /\ comp_sat m 1 (approx (cut (-128) 128 (cie_a W (B2R x) (B2R y))) (/ 500)) /\
    comp_sat m 2 (approx (cut (-128) 128 (cie_b W (B2R y) (B2R z))) (/ 1250))).
Proof. exact to_lab_accurate. Qed.
Print Assumptions C217_to_lab.

(** C218 *)
Theorem C218_lab_round : forall o (h : heap f32) p (c : color f32) w x y z, accurate_pow o -> at_addr h p c -> @wf_color f32 (F32 o) XYZ c -> comps c = [x; y; z] ->
  @white_of f32 (F32 o) h c w -> below_white x (tx w) -> below_white y (ty_ w) -> below_white z (tz w) ->
  forall W, W = white_value w -> 1 / 1000 <= tx W <= 100 -> 1 / 1000 <= ty_ W <= 100 -> 1 / 1000 <= tz W <= 100 ->
  Rabs (cie_a W (B2R x) (B2R y)) <= 127.9 -> Rabs (cie_b W (B2R y) (B2R z)) <= 127.9 ->
  @via f32 (@to_lab f32 (F32 o)) (@to_xyz f32 (F32 o)) h p (fun m d => ty m = LAB /\ ty d = XYZ /\ rgb_space d = rgb_space c /\
    comp_sat d 0 (approx (B2R x) (tx W / 65536)) /\ comp_sat d 1 (approx (B2R y) (ty_ W / 65536)) /\ comp_sat d 2 (approx (B2R z) (tz W / 65536))).
Proof. exact lab_round32. Qed.
Print Assumptions C218_lab_round.

(** The white of D65, a colour in a space with this white point *)
Example C217_example : forall o, exists (h : heap f32) (c : color f32) w x y z W, at_addr h 0%nat c /\ @wf_color f32 (F32 o) XYZ c /\ comps c = [x; y; z] /\ @white_of f32 (F32 o) h c w /\
  below_white x (tx w) /\ below_white y (ty_ w) /\ below_white z (tz w) /\ W = white_value w /\
  1 / 1000 <= tx W <= 100 /\ 1 / 1000 <= ty_ W <= 100 /\ 1 / 1000 <= tz W <= 100 /\ cie_L W (B2R y) = 100 /\ cie_a W (B2R x) (B2R y) = 0 /\ cie_b W (B2R y) (B2R z) = 0.
Proof. exact d65_example. Qed.
Example C217_presets : forall o w, In w (@white_presets f32 (F32 o)) -> forall v, In v [tx w; ty_ w; tz w] -> is_finite v = true /\ 1 / 1000 <= B2R v <= 100.
Proof. exact presets_fit. Qed.
Example C217_power : forall o addr, accurate_pow ref_oracle /\ exists s, Ok s = @space_sRGB f32 (F32 o) addr.
Proof. exact srgb_example. Qed.
