(** * Binary32 round trips between deep RGB and CMYK; the trips as library calls *)
From Coq Require Import ZArith QArith Reals Lra Lia List Bool.
From Flocq Require Import Core IEEE754.BinarySingleNaN.
From Verif Require Import Arith Outcome ColorModel GammaModel MatrixModel SpaceModel Heap Converter F32 F32Facts RArith
  Spec Spec32 Laws NormalForms Alpha8 Core_Proofs Core2_Proofs Core3_Proofs Core4_Proofs Hue32 Spec_Matrix Spec_Conv Spec_Round
  Conv_Proofs Conv2_Proofs Run_Proofs HueR_Proofs Round_Proofs Round2_Proofs Error_Proofs Error2_Proofs Error3_Proofs Error4_Proofs Error5_Proofs Spec_Error.
Import ListNotations.
Local Open Scope R_scope.
Local Notation fin x := (is_finite x = true).

Section E.
Context (o : oracle).
Local Notation "x +. y" := (@fadd f32 (F32 o) x y) (at level 50, left associativity).
Local Notation "x -. y" := (@fsub f32 (F32 o) x y) (at level 50, left associativity).
Local Notation "x *. y" := (@fmul f32 (F32 o) x y) (at level 40, left associativity).
Local Notation "x /. y" := (@fdiv f32 (F32 o) x y) (at level 40, left associativity).
Local Notation "$ n" := (fz (H := F32 o) n) (at level 2).
Local Notation c1 := (@c01 f32 (F32 o)).

(** One channel: [m] is the largest channel. *)
Section Channel.
Variables (m x : f32).
Hypothesis (Fm : fin m) (Fx : fin x) (Bm : 0 <= fval m <= 1) (Bx : 0 <= fval x <= fval m).
Let k := $1 -. m.
Let d := $1 -. k.
Let q := ($1 -. x -. k) /. d.
Let res := ($1 -. c1 q) *. ($1 -. c1 k).

Lemma key_close : near k (1 - fval m) (101 / 100 * u).
Proof. eapply near_weaken; [apply (near_sub o _ _ _ _ _ _ 1 (near_one o) (near_self m Fm))|]; try (apply Rabs_le; lra); num. Qed.
Lemma white_close y : near y (1 - fval m) (101 / 100 * u) -> near ($1 -. y) (fval m) (21 / 10 * u).
Proof.
  intros N. replace (fval m) with (1 - (1 - fval m)) by ring.
  eapply near_weaken; [apply (near_sub o _ _ _ _ _ _ 1 (near_one o) N)|]; try (apply Rabs_le; lra); num.
Qed.
Lemma cmyk_chan : near (c1 res) (fval x) (64 * u).
Proof.
  pose proof key_close as NK. pose proof (white_close k NK) as ND. fold d in ND.
  assert (NW : near ($1 -. c1 k) (fval m) (21 / 10 * u)) by (apply white_close, near_01; [exact NK|num|lra]).
  assert (N1 : near ($1 -. x) (1 - fval x) (101 / 100 * u)).
  { eapply near_weaken; [apply (near_sub o _ _ _ _ _ _ 1 (near_one o) (near_self x Fx))|]; try (apply Rabs_le; lra); num. }
  assert (N2 : near ($1 -. x -. k) (fval m - fval x) (31 / 10 * u)).
  { replace (fval m - fval x) with (1 - fval x - (1 - fval m)) by ring.
    eapply near_weaken; [apply (near_sub o _ _ _ _ _ _ 1 N1 NK)|]; try (apply Rabs_le; lra); num. }
  apply near_01; [|num|lra].
  assert (A : exists C e, near (c1 q) C e /\ 0 <= C <= 1 /\ 0 <= e <= 1 /\ fval m * e <= 10 * u /\ Rabs ((1 - C) * fval m - fval x) <= 32 * u).
  { destruct (Rle_lt_dec (fval m) (32 * u)) as [S|S].
    - destruct (c01_unit o q) as [Fq Bq]. exists (fval (c1 q)), 0. split; [apply near_self, Fq|]. split; [exact Bq|]. split; [lra|]. split; [num|].
      assert (0 <= (1 - fval (c1 q)) * fval m <= fval m).
      { split; [apply Rmult_le_pos; lra|]. rewrite <- (Rmult_1_l (fval m)) at 2. apply Rmult_le_compat_r; lra. }
      apply Rabs_le. lra.
    - exists ((fval m - fval x) / fval m), (4 / 3 * (31 / 10 * u + 21 / 10 * u) / fval m + 2 * u).
      assert (P : 0 < fval m) by num.
      assert (Q : 0 <= (fval m - fval x) / fval m <= 1) by (apply div_bounds; lra).
      assert (Q2 : 0 <= 4 / 3 * (31 / 10 * u + 21 / 10 * u) / fval m <= 1 / 2) by (apply div_bounds; num).
      split; [apply near_01; [apply near_ratio; auto; num|num|exact Q]|]. split; [exact Q|]. split; [num|]. split.
      + replace (fval m * (4 / 3 * (31 / 10 * u + 21 / 10 * u) / fval m + 2 * u)) with (4 / 3 * (31 / 10 * u + 21 / 10 * u) + fval m * (2 * u)) by (field; lra). num.
      + replace ((1 - (fval m - fval x) / fval m) * fval m - fval x) with 0 by (field; lra). rewrite Rabs_R0. num. }
  destruct A as [C [e [NC [BC [He [Hm HT]]]]]].
  assert (N3 : near ($1 -. c1 q) (1 - C) (e + 21 / 10 * u)).
  { eapply near_weaken; [apply (near_sub o _ _ _ _ _ _ 1 (near_one o) NC)|]; try (apply Rabs_le; lra); num. }
  assert (BT : 0 <= (1 - C) * fval m <= 1) by (apply mul01; lra).
  eapply near_weaken; [eapply near_move; [apply (near_mul o _ _ _ _ _ _ 1 (fval m) 1 N3 NW)|exact HT]|]; try (apply Rabs_le; lra); num.
Qed.
End Channel.

Section Trip.
Variables (c : color f32) (r g b : f32).
Hypothesis (W : @wf_color f32 (F32 o) RGB_DEEP c) (Ec : comps c = [r; g; b]).
Let R := fval r. Let G := fval g. Let B := fval b.

Lemma cmyk_trip : trip CMYK (@rgb_deep_to_cmyk_f f32 (F32 o)) (@cmyk_to_rgb_deep_f f32 (F32 o)) c R G B (64 * u) True.
Proof.
  destruct (chan o c r g b W Ec) as [[Fr Br] [[Fg Bg] [Fb Bb]]]. destruct (chan_mx o c r g b W Ec) as [Fx Vx].
  destruct (chan_range o c r g b W Ec) as [B0 [B1 BD]]. pose proof (mx3_ge (fval r) (fval g) (fval b)) as [X1 [X2 X3]].
  do 5 eexists. split; [|split; [|split; [|split; [|split; [|split; [|split; [|split; [|split]]]]]]]].
  - unfold rgb_deep_to_cmyk_f, with3. rewrite Ec. rewrite cmyk_nf. rewrite (alpha_std c _ W eq_refl). reflexivity.
  - unfold cmyk_to_rgb_deep_f, with4. cbn [comps]. rewrite rgb_deepcolor_nf. reflexivity.
  - reflexivity.
  - reflexivity.
  - reflexivity.
  - apply cmyk_chan; auto; rewrite Vx; lra.
  - apply cmyk_chan; auto; rewrite Vx; lra.
  - apply cmyk_chan; auto; rewrite Vx; lra.
  - reflexivity.
  - reflexivity.
Qed.
End Trip.
End E.
