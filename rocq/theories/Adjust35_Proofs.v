(** * Colours for the examples of C198 and C199 *)
From Coq Require Import ZArith QArith Reals Lra Lia List Bool.
From Flocq Require Import Core IEEE754.BinarySingleNaN.
From Verif Require Import Arith Outcome ColorModel GammaModel MatrixModel SpaceModel Heap Converter F32 F32Facts RArith
  Spec Spec32 Laws NormalForms Alpha8 Core_Proofs Core2_Proofs Core3_Proofs Core4_Proofs Spec_Conv Spec_Round
  Conv_Proofs Conv2_Proofs Conv3_Proofs Round_Proofs Error_Proofs Error2_Proofs Error3_Proofs Error4_Proofs Error5_Proofs Error6_Proofs Error7_Proofs
  Round2_Proofs Blend Spec_Error Spec_Byte Spec_Order Grey32_Proofs Blend2_Proofs.
Import ListNotations.
Local Open Scope R_scope.

Lemma adjust32_things : forall o, exists (h : heap f32) (c d : color f32) p, at_addr h 0%nat c /\ @wf_color f32 (F32 o) RGB_TRUE c /\ has_bytes 30 60 90 c /\ is_value (@alpha f32 (F32 o) c) (IZR 200) /\
  at_addr h 1%nat d /\ @wf_color f32 (F32 o) RGB_DEEP d /\ darker32 d d /\ is_value p (-1) /\ in_interval (-1) 8 p.
Proof.
  intros o. set (f := fun n => @fz f32 (F32 o) n).
  assert (Q : forall k, (-1 <= k <= 255)%Z -> is_value (f k) (IZR k)) by (intros k Hk; apply (fz_val o k); unfold small; lia).
  assert (C : forall k, (0 <= k <= 255)%Z -> @c255 f32 (F32 o) (f k) = f k).
  { intros k Hk. destruct (Q k ltac:(lia)) as [F V]. apply c255_val; [exact F|]. change (0 <= B2R (f k) <= 255). rewrite V. split; apply IZR_le; lia. }
  destruct (half32 o) as [U Vh]. set (v := @half f32 (F32 o)) in * . clearbody v.
  destruct (rgb_truecolor_made (AF := F32 o) (AL := F32Laws o) (f 30%Z) (f 60%Z) (f 90%Z) (f 200%Z) None) as [c [Ec [Wc _]]].
  rewrite rgb_truecolor_nf in Ec. apply Ok_inj in Ec. rewrite !C in Ec by lia.
  destruct (rgb_deepcolor_made (AF := F32 o) (AL := F32Laws o) v v v (f 1%Z) None) as [d [Ed [Wd _]]].
  rewrite rgb_deepcolor_nf in Ed. apply Ok_inj in Ed. rewrite (c01_id o v U) in Ed.
  exists (Heap [c; d] []), c, d, (f (-1)%Z). split; [reflexivity|]. split; [exact Wc|]. split.
  { rewrite <- Ec. split; [reflexivity|]. split; [|split]; (eexists; split; [reflexivity|apply Q; lia]). }
  split. { rewrite <- Ec. unfold alpha. cbn [cls]. change (is_value (@fmul f32 (F32 o) (@c01 f32 (F32 o) (@fdiv f32 (F32 o) (f 200%Z) (@fz f32 (F32 o) 255))) (@fz f32 (F32 o) 255)) (IZR 200)). apply (byte_scaled o); [lia|apply Q; lia]. }
  split; [reflexivity|]. split; [exact Wd|]. split.
  { split; [reflexivity|]. split; [reflexivity|]. rewrite <- Ed. intros i x y Ex Ey. rewrite Ex in Ey. injection Ey as <-.
    assert (x = v) by (apply nth_error_In in Ex; destruct Ex as [<-|[<-|[<-|[]]]]; reflexivity). subst x. split; [apply U|]. split; [apply U|apply Rle_refl]. }
  split; [apply (Q (-1)%Z); lia|]. destruct (Q (-1)%Z ltac:(lia)) as [F V]. split; [exact F|]. rewrite V. lra.
Qed.
