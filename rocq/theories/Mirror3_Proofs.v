(** * Hard mix is not symmetric in binary32 (C189) *)
From Coq Require Import ZArith QArith Reals Lra Lia List Bool.
From Flocq Require Import Core IEEE754.BinarySingleNaN.
From Verif Require Import Arith Outcome ColorModel Heap Converter Calculation Blend F32 F32Facts RArith
  Spec Spec32 Laws NormalForms Core_Proofs Core2_Proofs Alpha8 Spec_Conv Spec_Calc Spec_Blend Spec_Algebra
  Conv_Proofs Conv2_Proofs Conv3_Proofs HueR_Proofs Calc_Proofs Blend_Proofs Blend2_Proofs Blend3_Proofs.
Import ListNotations.
Local Open Scope R_scope.

Definition low : f32 := lit32 (3 # 67108864).
Definition high : f32 := lit32 (16777215 # 16777216).

Lemma unit_by o x : @within f32 (F32 o) 0 1 x -> unit32 x.
Proof. intros W. apply within32 in W; [exact W|sm|sm]. Qed.
Lemma low_unit (o : oracle) : unit32 low.
Proof. apply (unit_by o). split; vm_compute; reflexivity. Qed.
Lemma high_unit (o : oracle) : unit32 high.
Proof. apply (unit_by o). split; vm_compute; reflexivity. Qed.
Lemma mix_low o : @hard_mix_func f32 (F32 o) low high = @fz f32 (F32 o) 0.
Proof.
  unfold hard_mix_func. assert (E : @flt f32 (F32 o) low (@fsub f32 (F32 o) (@fz f32 (F32 o) 1) high) = true) by (vm_compute; reflexivity).
  rewrite E. reflexivity.
Qed.
Lemma mix_high o : @hard_mix_func f32 (F32 o) high low = @fz f32 (F32 o) 1.
Proof.
  unfold hard_mix_func. assert (E : @flt f32 (F32 o) high (@fsub f32 (F32 o) (@fz f32 (F32 o) 1) low) = false) by (vm_compute; reflexivity).
  rewrite E. reflexivity.
Qed.
Lemma clamp_zero o : unit_clamp (@fz f32 (F32 o) 0) = 0.
Proof.
  destruct (zero32 o) as [Fz Vz]. unfold unit_clamp. destruct (@fz f32 (F32 o) 0); try discriminate Fz; rewrite Vz; unfold Rmax, Rmin; repeat destruct (Rle_dec _ _); lra.
Qed.
Lemma clamp_one o : unit_clamp (@fz f32 (F32 o) 1) = 1.
Proof.
  destruct (one32 o) as [Fz Vz]. unfold unit_clamp. destruct (@fz f32 (F32 o) 1); try discriminate Fz; rewrite Vz; unfold Rmax, Rmin; repeat destruct (Rle_dec _ _); lra.
Qed.

Lemma hard_mix_asymmetric o : exists (h : heap f32) c1 c2, at_addr h 0%nat c1 /\ at_addr h 1%nat c2 /\
  @wf_color f32 (F32 o) RGB_DEEP c1 /\ @wf_color f32 (F32 o) RGB_DEEP c2 /\ is_value (m_alpha c1) 1 /\ is_value (m_alpha c2) 1 /\
  rgb_space c1 = rgb_space c2 /\ forall us ud,
  returns (@blend f32 (F32 o) HardMix (Some 0%nat) (Some 1%nat) us ud) h (fun r => forall i, (i < 3)%nat -> comp_sat r i (fun v => is_value v 0)) /\
  returns (@blend f32 (F32 o) HardMix (Some 1%nat) (Some 0%nat) us ud) h (fun r => forall i, (i < 3)%nat -> comp_sat r i (fun v => is_value v 1)).
Proof.
  pose (u := @fz f32 (F32 o) 1). destruct (one32 o) as [F1 V1]. fold u in F1, V1.
  destruct (rgb_deepcolor_made (AF := F32 o) (AL := F32Laws o) low low low u None) as [c1 [E1 [W1 [A1 S1]]]].
  destruct (rgb_deepcolor_made (AF := F32 o) (AL := F32Laws o) high high high u None) as [c2 [E2 [W2 [A2 S2]]]].
  rewrite rgb_deepcolor_nf in E1, E2. apply Ok_inj in E1. apply Ok_inj in E2.
  rewrite (c01_id o low (low_unit o)) in E1. rewrite (c01_id o high (high_unit o)) in E2.
  assert (I1 : is_value (m_alpha c1) 1) by (rewrite A1; split; assumption). assert (I2 : is_value (m_alpha c2) 1) by (rewrite A2; split; assumption).
  assert (C1 : comps c1 = [low; low; low]) by (rewrite <- E1; reflexivity). assert (C2 : comps c2 = [high; high; high]) by (rewrite <- E2; reflexivity).
  assert (SP : rgb_space c1 = rgb_space c2) by congruence. clear E1 E2 A1 A2 S1 S2.
  exists (Heap [c1; c2] []), c1, c2. assert (H1 : at_addr (Heap [c1; c2] []) 0%nat c1) by reflexivity. assert (H2 : at_addr (Heap [c1; c2] []) 1%nat c2) by reflexivity.
  repeat (split; [assumption|]). intros us ud. split.
  - apply (returns_impl _ _ _ _ (opaque_blend o HardMix us ud _ _ _ _ _ H1 H2 W1 W2 I1 I2 SP)). intros r [_ R] i L.
    assert (Hs : nth_error (comps c1) i = Some low) by (rewrite C1; destruct i as [|[|[|]]]; [reflexivity..|lia]).
    assert (Hd : nth_error (comps c2) i = Some high) by (rewrite C2; destruct i as [|[|[|]]]; [reflexivity..|lia]).
    destruct (R i low high Hs Hd) as [v [Hv Iv]]. exists v. split; [exact Hv|]. cbn [blend_function] in Iv. rewrite mix_low, clamp_zero in Iv. exact Iv.
  - apply (returns_impl _ _ _ _ (opaque_blend o HardMix us ud _ _ _ _ _ H2 H1 W2 W1 I2 I1 (eq_sym SP))). intros r [_ R] i L.
    assert (Hs : nth_error (comps c1) i = Some low) by (rewrite C1; destruct i as [|[|[|]]]; [reflexivity..|lia]).
    assert (Hd : nth_error (comps c2) i = Some high) by (rewrite C2; destruct i as [|[|[|]]]; [reflexivity..|lia]).
    destruct (R i high low Hd Hs) as [v [Hv Iv]]. exists v. split; [exact Hv|]. cbn [blend_function] in Iv. rewrite mix_high, clamp_one in Iv. exact Iv.
Qed.
