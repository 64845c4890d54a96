(** * In binary32 the order of the modes has exceptions (C193) *)
From Coq Require Import ZArith QArith Reals Lra Lia List Bool.
From Flocq Require Import Core IEEE754.BinarySingleNaN.
From Verif Require Import Arith Outcome ColorModel Heap Converter Calculation Blend F32 F32Facts RArith
  Spec Spec32 Laws NormalForms Core_Proofs Core2_Proofs Alpha8 Spec_Conv Spec_Calc Spec_Blend Spec_Order
  Conv_Proofs Conv2_Proofs Conv3_Proofs HueR_Proofs Calc_Proofs Blend_Proofs Blend2_Proofs Blend3_Proofs Mirror3_Proofs.
Import ListNotations.
Local Open Scope R_scope.

Lemma reversed o (m m' : mode f32) x y : unit32 x -> unit32 y ->
  (forall c1 c2 : color f32, forall i, unit32 (@blend_function f32 (F32 o) m c1 c2 i x y) /\ unit32 (@blend_function f32 (F32 o) m' c1 c2 i x y) /\
    Bltb (@blend_function f32 (F32 o) m' c1 c2 i x y) (@blend_function f32 (F32 o) m c1 c2 i x y) = true) ->
  exists (h : heap f32) c1 c2, at_addr h 0%nat c1 /\ at_addr h 1%nat c2 /\
  @wf_color f32 (F32 o) RGB_DEEP c1 /\ @wf_color f32 (F32 o) RGB_DEEP c2 /\ is_value (m_alpha c1) 1 /\ is_value (m_alpha c2) 1 /\
  rgb_space c1 = rgb_space c2 /\ forall us ud,
  returns (@blend f32 (F32 o) m (Some 0%nat) (Some 1%nat) us ud) h (fun r =>
    returns (@blend f32 (F32 o) m' (Some 0%nat) (Some 1%nat) us ud) h (fun r' =>
      forall i, (i < 3)%nat -> comp_sat r i (fun v => comp_sat r' i (fun v' => B2R v' < B2R v)))).
Proof.
  intros X Y H. pose (u := @fz f32 (F32 o) 1). destruct (one32 o) as [F1 V1]. fold u in F1, V1.
  destruct (rgb_deepcolor_made (AF := F32 o) (AL := F32Laws o) x x x u None) as [c1 [E1 [W1 [A1 S1]]]].
  destruct (rgb_deepcolor_made (AF := F32 o) (AL := F32Laws o) y y y u None) as [c2 [E2 [W2 [A2 S2]]]].
  rewrite rgb_deepcolor_nf in E1, E2. apply Ok_inj in E1. apply Ok_inj in E2.
  rewrite (c01_id o x X) in E1. rewrite (c01_id o y Y) in E2.
  assert (I1 : is_value (m_alpha c1) 1) by (rewrite A1; split; assumption). assert (I2 : is_value (m_alpha c2) 1) by (rewrite A2; split; assumption).
  assert (C1 : comps c1 = [x; x; x]) by (rewrite <- E1; reflexivity). assert (C2 : comps c2 = [y; y; y]) by (rewrite <- E2; reflexivity).
  assert (SP : rgb_space c1 = rgb_space c2) by congruence. clear E1 E2 A1 A2 S1 S2.
  exists (Heap [c1; c2] []), c1, c2. assert (H1 : at_addr (Heap [c1; c2] []) 0%nat c1) by reflexivity. assert (H2 : at_addr (Heap [c1; c2] []) 1%nat c2) by reflexivity.
  repeat (split; [assumption|]). intros us ud.
  apply (returns_impl _ _ _ _ (opaque_blend o m us ud _ _ _ _ _ H1 H2 W1 W2 I1 I2 SP)). intros r [_ R].
  apply (returns_impl _ _ _ _ (opaque_blend o m' us ud _ _ _ _ _ H1 H2 W1 W2 I1 I2 SP)). intros r' [_ R'] i L.
  assert (Hs : nth_error (comps c1) i = Some x) by (rewrite C1; destruct i as [|[|[|]]]; [reflexivity..|lia]).
  assert (Hd : nth_error (comps c2) i = Some y) by (rewrite C2; destruct i as [|[|[|]]]; [reflexivity..|lia]).
  destruct (R i x y Hs Hd) as [v [Hv [_ Iv]]]. destruct (R' i x y Hs Hd) as [v' [Hv' [_ Iv']]]. exists v. split; [exact Hv|]. exists v'. split; [exact Hv'|].
  destruct (H c1 c2 i) as [[G1 G2] [[K1 K2] LT]]. rewrite unit_clamp_fin in Iv by exact G1. rewrite unit_clamp_fin in Iv' by exact K1.
  rewrite Bltb_fin in LT by assumption. destruct (Rlt_bool_spec (fval (@blend_function f32 (F32 o) m' c1 c2 i x y)) (fval (@blend_function f32 (F32 o) m c1 c2 i x y))) as [Q|Q]; [|discriminate LT].
  rewrite Iv, Iv'. unfold Rmax, Rmin. repeat destruct Rle_dec; lra.
Qed.

Definition faint : f32 := lit32 (1 # 67108864).
Definition faint3 : f32 := lit32 (3 # 67108864).
Definition faint6 : f32 := lit32 (3 # 33554432).
Definition full : f32 := lit32 1.

Ltac unit_vm o := apply (unit_by o); split; vm_compute; reflexivity.
Lemma mode_order_fails o (m m' : mode f32) : In (m, m') [(Lighten, Screen); (Screen, LinearDodge); (LinearBurn, Multiply)] ->
  exists (h : heap f32) c1 c2, at_addr h 0%nat c1 /\ at_addr h 1%nat c2 /\
  @wf_color f32 (F32 o) RGB_DEEP c1 /\ @wf_color f32 (F32 o) RGB_DEEP c2 /\ is_value (m_alpha c1) 1 /\ is_value (m_alpha c2) 1 /\
  rgb_space c1 = rgb_space c2 /\ forall us ud,
  returns (@blend f32 (F32 o) m (Some 0%nat) (Some 1%nat) us ud) h (fun r =>
    returns (@blend f32 (F32 o) m' (Some 0%nat) (Some 1%nat) us ud) h (fun r' =>
      forall i, (i < 3)%nat -> comp_sat r i (fun v => comp_sat r' i (fun v' => B2R v' < B2R v)))).
Proof.
  intros I. cbn [In] in I. repeat (destruct I as [I|I]; [injection I as <- <-|]); try destruct I.
  - apply (reversed o Lighten Screen faint faint); [unit_vm o..|]. intros c1 c2 i. cbn [blend_function]. split; [unit_vm o|]. split; [unit_vm o|]. vm_compute. reflexivity.
  - apply (reversed o Screen LinearDodge faint3 faint3); [unit_vm o..|]. intros c1 c2 i. cbn [blend_function]. split; [unit_vm o|]. split; [unit_vm o|]. vm_compute. reflexivity.
  - apply (reversed o LinearBurn Multiply full faint6); [unit_vm o..|]. intros c1 c2 i. cbn [blend_function]. split; [unit_vm o|]. split; [unit_vm o|]. vm_compute. reflexivity.
Qed.
