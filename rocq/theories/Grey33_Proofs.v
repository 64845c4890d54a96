(** * Example colours of C196 *)
From Coq Require Import ZArith QArith Reals Lra Lia List Bool.
From Flocq Require Import Core IEEE754.BinarySingleNaN.
From Verif Require Import Calculation Blend Spec_Calc Spec_Blend Calc_Proofs Blend_Proofs Blend2_Proofs Mirror3_Proofs.
From Verif Require Import Arith Outcome ColorModel GammaModel MatrixModel SpaceModel Heap Converter F32 F32Facts RArith
  Spec Spec32 Laws NormalForms Alpha8 Core_Proofs Core2_Proofs Core3_Proofs Core4_Proofs Hue32 Spec_Conv Error_Proofs Error2_Proofs Error3_Proofs Error4_Proofs Grey32_Proofs.
Import ListNotations.
Local Open Scope R_scope.

Lemma grey_things : forall o, exists (h : heap f32) (g s b : color f32) v hue z k,
  at_addr h 0%nat g /\ @wf_color f32 (F32 o) RGB_DEEP g /\ comps g = [v; v; v] /\ is_value v (1 / 2) /\
  at_addr h 1%nat s /\ @wf_color f32 (F32 o) HSV s /\ comps s = [hue; z; v] /\ is_value hue 200 /\ is_value z 0 /\
  at_addr h 2%nat b /\ @wf_color f32 (F32 o) GREY_TRUE b /\ comps b = [k] /\ is_value k (IZR 119).
Proof.
  intros o. destruct (half32 o) as [U Vh]. set (v := @half f32 (F32 o)) in * . clearbody v. pose proof (proj1 U) as Fh.
  set (one := @fz f32 (F32 o) 1). destruct (fz_val o 200) as [F2 V2]; [sm|]. set (hue := @fz f32 (F32 o) 200) in * . clearbody hue.
  destruct (fz_val o 0) as [F0 V0]; [sm|]. set (z := @fz f32 (F32 o) 0) in * . clearbody z.
  destruct (fz_val o 119) as [F1 V1]; [sm|]. set (k := @fz f32 (F32 o) 119) in * . clearbody k.
  destruct (rgb_deepcolor_made (AF := F32 o) (AL := F32Laws o) v v v one None) as [g [Eg [Wg _]]].
  rewrite rgb_deepcolor_nf in Eg. apply Ok_inj in Eg. rewrite (c01_id o v U) in Eg.
  destruct (hsv_made (AF := F32 o) (AL := F32Laws o) hue z v one None) as [s [Es [Ws _]]].
  rewrite (hsv_nf (AL := F32Laws o)) in Es. apply Ok_inj in Es. rewrite (c01_id o v U) in Es.
  rewrite (c01_id o z) in Es by (split; [exact F0|rewrite V0; lra]).
  destruct (hue_norm_up o hue 200 0) as [_ Hn]; [split; [exact F2|rewrite V2, Rminus_diag_eq, Rabs_R0 by reflexivity; lra]|rewrite V2; lra|lra|lra|].
  destruct (grey_truecolor_made (AF := F32 o) (AL := F32Laws o) k one None) as [b [Eb [Wb _]]].
  rewrite grey_truecolor_nf in Eb. apply Ok_inj in Eb. rewrite (c255_val o k) in Eb by (auto; rewrite V1; lra).
  assert (Nh : is_finite (@hue_norm f32 (F32 o) hue) = true).
  { destruct (hue_norm_up o hue 200 0) as [[Q _] _]; [split; [exact F2|rewrite V2, Rminus_diag_eq, Rabs_R0 by reflexivity; lra]|rewrite V2; lra|lra|lra|]. exact Q. }
  exists (Heap [g; s; b] []), g, s, b, v, (@hue_norm f32 (F32 o) hue), z, k.
  split; [reflexivity|]. split; [exact Wg|]. split; [rewrite <- Eg; reflexivity|]. split; [split; assumption|].
  split; [reflexivity|]. split; [exact Ws|]. split; [rewrite <- Es; reflexivity|].
  split; [split; [exact Nh|change (fval (@hue_norm f32 (F32 o) hue) = 200); rewrite Hn; exact V2]|]. split; [split; assumption|].
  split; [reflexivity|]. split; [exact Wb|]. split; [rewrite <- Eb; reflexivity|]. split; assumption.
Qed.
