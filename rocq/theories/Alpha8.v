(** * Scaling a stored 8-bit alpha to 0..255 and back gives the same number *)
From Coq Require Import ZArith QArith Reals Lra Lia List Bool.
From Flocq Require Import Core IEEE754.BinarySingleNaN.
From Verif Require Import Arith Outcome ColorModel Spec F32 RArith F32Facts Spec32 Laws Core_Proofs Core2_Proofs Core3_Proofs.
Import ListNotations.
Local Open Scope Z_scope.

Class Alpha8Laws (F : Type) {AF : Arith F} : Prop := {
  alpha8_scale : forall a : F, fdiv (fmul (alpha8 a) (fz 255)) (fz 255) = alpha8 a
}.

#[global] Instance F32Alpha8 (o : oracle) : @Alpha8Laws f32 (F32 o).
Proof.
  constructor. intros a. destruct (alpha8_stable o a) as [[Fm Rm] [Fq Vq]].
  set (m := @alpha8 f32 (F32 o) a) in *.
  destruct (fz_val o 0) as [F0 V0]; [sm|]. destruct (fz_val o 1) as [F1 V1]; [sm|]. destruct (fz_val o 255) as [F2 V2]; [sm|].
  set (k := @fz f32 (F32 o) 255) in *.
  assert (B : (IZR 0 <= fval m * fval k <= IZR 255)%R) by (rewrite V2; lra).
  destruct (Bmult_ok m k 0 255 Fm F2) as [P1 P2]; try sm; auto.
  set (p := Bmult mode_NE m k) in *.
  assert (Rp : (IZR 0 <= fval p <= IZR 255)%R) by (rewrite P2; apply rnd32_bounds; try sm; auto).
  assert (B3 : (IZR 0 <= fval p / fval k <= IZR 1)%R) by (rewrite V2; lra).
  assert (NZ : fval k <> 0%R) by (rewrite V2; lra).
  destruct (Bdiv_ok p k 0 1 P1 F2) as [P3 P4]; try sm; auto.
  set (q := Bdiv mode_NE p k) in *.
  assert (Rq : (IZR 0 <= fval q <= IZR 1)%R) by (rewrite P4; apply rnd32_bounds; try sm; auto).
  assert (E : fval q = fval m).
  { rewrite <- Vq. apply (f_equal fval). unfold alpha8. rewrite clamp_F32.
    change (@fdiv f32 (F32 o) (@fmul f32 (F32 o) m k) k) with q.
    symmetry. apply clamp32_id; auto. rewrite V0, V1. exact Rq. }
  change (q = m).
  apply B2R_Bsign_inj; auto.
  assert (S1 : Bsign p = xorb (Bsign m) (Bsign k)).
  { pose proof (Bmult_correct 24 128 _ _ mode_NE m k) as C. cbv zeta in C.
    destruct (Rlt_bool _ _) in C.
    - destruct C as [_ [_ C]]. apply C. apply fin_not_nan, P1.
    - exfalso. fold p in C. destruct p as [s|s| |s mm ee Hh]; try discriminate P1;
        unfold binary_overflow in C; simpl in C; discriminate C. }
  assert (S2 : Bsign q = xorb (Bsign p) (Bsign k)).
  { pose proof (Bdiv_correct 24 128 _ _ mode_NE p k NZ) as C. cbv zeta in C.
    destruct (Rlt_bool _ _) in C.
    - destruct C as [_ [_ C]]. apply C. apply fin_not_nan, P3.
    - exfalso. fold q in C. destruct q as [s|s| |s mm ee Hh]; try discriminate P3;
        unfold binary_overflow in C; simpl in C; discriminate C. }
  rewrite S2, S1, Bool.xorb_assoc, Bool.xorb_nilpotent. apply Bool.xorb_false_r.
Qed.

#[global] Instance RAlpha8 : @Alpha8Laws R RArith.
Proof. constructor. intros a. rewrite fzR. cbn [fdiv fmul RArith]. field. Qed.
