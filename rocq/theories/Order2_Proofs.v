(** * The blend functions are monotone in binary32 (C192, C194) *)
From Coq Require Import ZArith QArith Reals Lra Lia List Bool.
From Flocq Require Import Core Mult_error IEEE754.BinarySingleNaN.
From Verif Require Import Arith Outcome ColorModel Heap Converter Calculation Blend
  Spec F32 F32Facts Spec32 Laws NormalForms Core_Proofs Core2_Proofs Core3_Proofs Core4_Proofs Convert_Proofs Alpha8 Spec_Conv Spec_Calc Spec_Blend Spec_Order
  Conv_Proofs Conv2_Proofs Conv3_Proofs Calc_Proofs Calc2_Proofs Blend_Proofs Blend32_Proofs Blend2_Proofs Order_Proofs.
Import ListNotations.
Local Open Scope R_scope.

(** ** Real functions with rounding *)
Lemma rnd_mul_le2 a b c d : 0 <= a <= c -> 0 <= b <= d -> rnd32 (a * b) <= rnd32 (c * d).
Proof. intros A B. apply rnd32_le. apply Rmult_le_compat; lra. Qed.

Definition screen_r (s d : R) : R := rnd32 (1 - rnd32 (rnd32 (1 - d) * rnd32 (1 - s))).
Lemma screen_r_le s d s' d' : 0 <= s <= s' -> 0 <= d <= d' -> s' <= 1 -> d' <= 1 -> screen_r s d <= screen_r s' d'.
Proof.
  intros S D S1 D1. unfold screen_r. apply rnd32_le. assert (rnd32 (rnd32 (1 - d') * rnd32 (1 - s')) <= rnd32 (rnd32 (1 - d) * rnd32 (1 - s))); [|lra].
  apply rnd_mul_le2; (split; [apply rnd_pos; lra|apply rnd32_le; lra]).
Qed.

Definition hard_light_r (s d : R) : R :=
  if Rle_dec s (1 / 2) then rnd32 (2 * d * s) else rnd32 (1 - rnd32 (rnd32 (1 - d) * (2 - 2 * s))).
(** In the upper branch no component becomes darker. *)
Lemma upper_ge s d : rnd32 s = s -> rnd32 d = d -> 1 / 2 < s <= 1 -> 0 <= d <= 1 -> d <= rnd32 (1 - rnd32 (rnd32 (1 - d) * (2 - 2 * s))).
Proof.
  intros Fs Fd S D.
  assert (U : 2 - 2 * s <= 1 - 2 * uu).
  { destruct (Req_dec s 1) as [->|N]; [unfold uu; lra|]. destruct (grid s Fs) as [k [E K]]; [lra|].
    rewrite E in *. unfold uu in *. assert (8388608 < IZR k) by lra. apply lt_IZR in H. assert (8388609 <= IZR k) by (apply IZR_le; lia). lra. }
  set (x := rnd32 (1 - d)). assert (X : 0 <= x <= 1) by (apply rnd_unit; lra).
  assert (P : 0 <= 2 - 2 * s) by lra.
  assert (Fx : rnd32 x = x) by apply format_idem.
  rewrite <- Fd at 1. apply rnd32_le.
  destruct (Rlt_le_dec d (1 / 2)) as [L|L].
  - assert (x <= 1 - d + uu / 2).
    { destruct (Req_dec d 0) as [->|N]; [unfold uu; lra|]. apply rnd_1. lra. }
    assert (1 / 2 <= x). { replace (1 / 2) with (rnd32 (IZR 8388608 * uu)) by (rewrite format_grid by lia; unfold uu; lra). apply rnd32_le. unfold uu. lra. }
    assert (rnd32 (x * (2 - 2 * s)) <= rnd32 ((1 - uu) * x)).
    { rewrite (Rmult_comm (1 - uu)). apply rnd_mul_le; [lra|]. unfold uu in *. lra. }
    pose proof (rnd_shrink x Fx ltac:(lra)). lra.
  - assert (E : x = 1 - d).
    { destruct (Req_dec d 1) as [->|N]; [unfold x; rewrite Rminus_diag_eq by reflexivity; apply (rnd32_int 0); sm|].
      destruct (grid d Fd) as [k [E K]]; [lra|]. unfold x. rewrite E. replace (1 - IZR k * uu) with (IZR (16777216 - k) * uu) by (rewrite minus_IZR; unfold uu; lra).
      apply format_grid. lia. }
    assert (rnd32 (x * (2 - 2 * s)) <= x).
    { rewrite <- Fx at 2. rewrite <- (Rmult_1_r x) at 2. apply rnd_mul_le; lra. }
    lra.
Qed.
Lemma hard_light_r_le s d s' d' : rnd32 s' = s' -> rnd32 d = d -> rnd32 d' = d' -> 0 <= s <= s' -> 0 <= d <= d' -> s' <= 1 -> d' <= 1 -> hard_light_r s d <= hard_light_r s' d'.
Proof.
  intros Fs Fd Fd' S D S1 D1. unfold hard_light_r. destruct (Rle_dec s (1 / 2)), (Rle_dec s' (1 / 2)); try lra.
  - apply rnd_mul_le2; lra.
  - apply Rle_trans with d.
    + rewrite <- Fd at 2. apply rnd32_le. assert (d * s <= d * (1 / 2)) by (apply Rmult_le_compat_l; lra). lra.
    + apply Rle_trans with (1 := proj2 D). apply upper_ge; auto; lra.
  - apply rnd32_le. assert (rnd32 (rnd32 (1 - d') * (2 - 2 * s')) <= rnd32 (rnd32 (1 - d) * (2 - 2 * s))); [|lra].
    apply rnd_mul_le2; [|lra]. split; [apply rnd_pos; lra|apply rnd32_le; lra].
Qed.

Definition linear_light_r (s d : R) : R :=
  if Rle_dec s (1 / 2) then rnd32 (rnd32 (d + 2 * s) - 1) else rnd32 (d + (2 * s - 1)).
Lemma linear_light_r_le s d s' d' : rnd32 s' = s' -> 0 <= s <= s' -> 0 <= d <= d' -> s' <= 1 -> d' <= 1 -> linear_light_r s d <= linear_light_r s' d'.
Proof.
  intros Fs S D S1 D1. unfold linear_light_r. destruct (Rle_dec s (1 / 2)), (Rle_dec s' (1 / 2)); try lra.
  - apply rnd32_le. assert (rnd32 (d + 2 * s) <= rnd32 (d' + 2 * s')) by (apply rnd32_le; lra). lra.
  - apply rnd32_le.
    assert (U : 2 * uu <= 2 * s' - 1).
    { destruct (Req_dec s' 1) as [->|N]; [unfold uu; lra|]. destruct (grid s' Fs) as [k [E K]]; [lra|].
      rewrite E in *. unfold uu in *. assert (8388608 < IZR k) by lra. apply lt_IZR in H. assert (8388609 <= IZR k) by (apply IZR_le; lia). lra. }
    assert (L : rnd32 (d + 2 * s) <= rnd32 (d + 1)) by (apply rnd32_le; lra).
    assert (rnd32 (d + 1) <= d + 1 + uu).
    { destruct (Req_dec d 1) as [->|N]; [replace (1 + 1) with (IZR 2) by (simpl; lra); rewrite (rnd32_int 2) by sm; unfold uu; lra|].
      pose proof (rnd_abs (d + 1) 1 ltac:(lia)) as H. apply Rabs_le_inv in H; [|rewrite Rabs_pos_eq; simpl; lra].
      replace (bpow radix2 (1 - 25)) with uu in H by (unfold uu; simpl; lra). lra. }
    lra.
  - apply rnd32_le. lra.
Qed.

Section F.
Variable o : oracle.
Local Notation fz := (@fz f32 (F32 o)).

Lemma screen_val s d : unit32 s -> unit32 d -> unit32 (@screen_func f32 (F32 o) s d) /\ fval (@screen_func f32 (F32 o) s d) = screen_r (fval s) (fval d).
Proof.
  intros S D. unfold screen_func. cbn [fsub fmul F32].
  destruct (compl_unit o s S) as [S1 S2]. destruct (compl_unit o d D) as [D1 D2]. destruct (mul_unit _ _ D1 S1) as [M1 M2]. destruct (compl_unit o _ M1) as [R1 R2].
  split; [exact R1|]. rewrite R2, M2, D2, S2. reflexivity.
Qed.

(** twice the excess over 1/2, exactly *)
Lemma excess s : unit32 s -> 1 / 2 < fval s ->
  let e := Bmult mode_NE (fz 2) (Bminus mode_NE s (@half f32 (F32 o))) in unit32 e /\ fval e = 2 * fval s - 1.
Proof.
  intros [Fs Rs] L. destruct (half32 o) as [[Fh _] Vh]. destruct (Bminus_ok s _ 0 1 Fs Fh) as [A B]; try sm; [rewrite Vh; lra|]. rewrite Vh in B.
  assert (E : fval (Bminus mode_NE s (@half f32 (F32 o))) = fval s - 1 / 2).
  { rewrite B. destruct (Req_dec (fval s) 1) as [->|N].
    - replace (1 - 1 / 2) with (IZR 8388608 * uu) by (unfold uu; lra). apply format_grid. lia.
    - destruct (grid (fval s) (rnd32_id s)) as [k [Ek K]]; [lra|]. rewrite Ek. replace (IZR k * uu - 1 / 2) with (IZR (k - 8388608) * uu) by (rewrite minus_IZR; unfold uu; lra).
      apply format_grid. rewrite Ek in L. unfold uu in L. assert (8388608 < IZR k) by lra. apply lt_IZR in H. lia. }
  destruct (fz_val o 2) as [F2 V2]; [sm|]. destruct (Bmult_ok (fz 2) _ 0 1 F2 A) as [A' B']; try sm; [rewrite V2, E; simpl; lra|].
  assert (V : fval (Bmult mode_NE (fz 2) (Bminus mode_NE s (@half f32 (F32 o)))) = 2 * fval s - 1).
  { rewrite B', V2. rewrite Rmult_comm. replace (IZR 2) with (bpow radix2 1) by (simpl; lra). rewrite rnd_scale by (lia || apply rnd32_id). rewrite E. simpl. lra. }
  cbv zeta. split; [|exact V]. split; [exact A'|]. rewrite V. lra.
Qed.

Lemma hard_light_val s d : unit32 s -> unit32 d -> unit32 (@hard_light_func f32 (F32 o) s d) /\ fval (@hard_light_func f32 (F32 o) s d) = hard_light_r (fval s) (fval d).
Proof.
  intros S D. split; [apply hard_light_unit; assumption|]. unfold hard_light_func, hard_light_r.
  destruct (half32 o) as [[Fh _] Vh]. destruct (fz_val o 2) as [F2 V2]; [sm|].
  cbn [fle fmul fsub F32]. rewrite Bleb_fin by (try apply S; exact Fh). rewrite Vh.
  destruct (Rle_bool_spec (fval s) (1 / 2)) as [L|L]; (destruct (Rle_dec (fval s) (1 / 2)); [|lra]) || (destruct (Rle_dec (fval s) (1 / 2)); [lra|]).
  - destruct (Bmult_ok d (fz 2) 0 2 (proj1 D) F2) as [A B]; try sm; [rewrite V2; destruct D; lra|].
    assert (E : fval (Bmult mode_NE d (fz 2)) = 2 * fval d).
    { rewrite B, V2. replace (IZR 2) with (bpow radix2 1) by (simpl; lra). rewrite rnd_scale by (lia || apply rnd32_id). simpl. lra. }
    destruct D as [Fd Rd]. destruct S as [Fs Rs].
    assert (P : 0 <= 2 * fval d * fval s <= 1) by (split; nra).
    destruct (Bmult_ok (Bmult mode_NE d (fz 2)) s 0 1 A Fs) as [A' B']; try sm; [rewrite E; exact P|]. rewrite B', E. reflexivity.
  - destruct (excess s S L) as [U V]. destruct (compl_unit o _ U) as [U1 U2]. destruct (compl_unit o _ D) as [D1 D2].
    destruct (mul_unit _ _ D1 U1) as [M1 M2]. destruct (compl_unit o _ M1) as [R1 R2]. rewrite R2, M2, D2, U2, V. f_equal. f_equal. f_equal. f_equal.
    replace (1 - (2 * fval s - 1)) with (2 - 2 * fval s) by lra.
    destruct (Req_dec (fval s) 1) as [->|N]; [replace (2 - 2 * 1) with (IZR 0) by (simpl; lra); apply rnd32_int; sm|].
    destruct (grid (fval s) (rnd32_id s)) as [k [Ek K]]; [destruct S; lra|]. rewrite Ek. replace (2 - 2 * (IZR k * uu)) with (IZR (33554432 - 2 * k) * uu) by (rewrite minus_IZR, mult_IZR; unfold uu; lra).
    apply format_grid. rewrite Ek in L. unfold uu in L. assert (8388608 < IZR k) by lra. apply lt_IZR in H. lia.
Qed.

Lemma add_val s d : unit32 s -> unit32 d -> is_finite (Bplus mode_NE s d) = true /\ 0 <= fval (Bplus mode_NE s d) <= 2 /\ fval (Bplus mode_NE s d) = rnd32 (fval s + fval d).
Proof.
  intros [Fs Rs] [Fd Rd]. destruct (Bplus_ok s d 0 2 Fs Fd) as [A B]; try sm; [lra|]. split; [exact A|]. split; [|exact B]. rewrite B. apply (rnd32_bounds _ 0 2); try sm. lra.
Qed.
Lemma less_one x : is_finite x = true -> 0 <= fval x <= 2 -> wide32 (Bminus mode_NE x (fz 1)) /\ fval (Bminus mode_NE x (fz 1)) = rnd32 (fval x - 1).
Proof.
  intros Fx Rx. destruct (one32 o) as [F1 V1]. destruct (Bminus_ok x (fz 1) (-1) 1 Fx F1) as [A B]; try sm; [rewrite V1; lra|]. rewrite V1 in B.
  split; [|exact B]. split; [exact A|]. rewrite B. pose proof (rnd32_bounds (fval x - 1) (-1) 1 ltac:(sm) ltac:(sm) ltac:(lra)). lra.
Qed.
Lemma linear_light_val s d : unit32 s -> unit32 d -> wide32 (@linear_light_func f32 (F32 o) s d) /\ fval (@linear_light_func f32 (F32 o) s d) = linear_light_r (fval s) (fval d).
Proof.
  intros S D. unfold linear_light_func, linear_light_r. destruct (half32 o) as [[Fh _] Vh]. destruct (fz_val o 2) as [F2 V2]; [sm|].
  cbn [fle fmul fsub fadd F32]. rewrite Bleb_fin by (try apply S; exact Fh). rewrite Vh.
  destruct (Rle_bool_spec (fval s) (1 / 2)) as [L|L]; (destruct (Rle_dec (fval s) (1 / 2)); [|lra]) || (destruct (Rle_dec (fval s) (1 / 2)); [lra|]).
  - assert (U : unit32 (Bmult mode_NE (fz 2) s)) by (apply double_unit; [apply S|destruct S; lra]).
    assert (V : fval (Bmult mode_NE (fz 2) s) = 2 * fval s).
    { destruct (Bmult_ok (fz 2) s 0 1 F2 (proj1 S)) as [_ B]; try sm; [rewrite V2; destruct S; lra|]. rewrite B, V2, Rmult_comm.
      replace (IZR 2) with (bpow radix2 1) by (simpl; lra). rewrite rnd_scale by (lia || apply rnd32_id). simpl. lra. }
    destruct (add_val d _ D U) as [A [B C]]. destruct (less_one _ A B) as [W E]. split; [exact W|]. rewrite E, C, V. reflexivity.
  - destruct (excess s S L) as [U V]. destruct (add_val d _ D U) as [A [B C]]. split; [split; [exact A|lra]|]. rewrite C, V. reflexivity.
Qed.

Lemma dodge_val s d : unit32 s -> unit32 d -> fval d <> 0 -> fval s <> 1 ->
  fval (@color_dodge_func f32 (F32 o) s d) = Rmin 1 (rnd32 (fval d / rnd32 (1 - fval s))) /\ 0 < rnd32 (1 - fval s).
Proof.
  intros S D Nd Ns. destruct (one32 o) as [F1 V1]. destruct (zero32 o) as [F0 V0]. destruct (compl_unit o s S) as [C1 C2].
  assert (P : uu <= rnd32 (1 - fval s)).
  { destruct S as [_ S]. assert (uu <= 1 - fval s).
    { destruct (Rlt_le_dec (fval s) (1 / 2)); [unfold uu; lra|].
      destruct (grid (fval s) (rnd32_id s)) as [k [Ek Kk]]; [lra|]. rewrite Ek. assert (IZR k <= 16777215) by (apply IZR_le; lia). unfold uu. lra. }
    replace uu with (rnd32 (IZR 1 * uu)) by (rewrite format_grid by lia; lra). apply rnd32_le. lra. }
  assert (U : 0 < uu) by (unfold uu; lra).
  unfold color_dodge_func. cbn [feq fle fdiv fsub F32]. cbv zeta. rewrite !Beqb_fin by (try apply S; try apply D; assumption). rewrite V0, V1.
  rewrite !Req_bool_false by assumption. destruct D as [Fd Rd]. destruct C1 as [Fc Rc]. rewrite <- C2 in P.
  assert (Q : 0 <= fval d / fval (Bminus mode_NE (fz 1) s) <= IZR 16777216).
  { unfold Rdiv. assert (0 < / fval (Bminus mode_NE (fz 1) s)) by (apply Rinv_0_lt_compat; lra).
    assert (/ fval (Bminus mode_NE (fz 1) s) <= IZR 16777216).
    { replace (IZR 16777216) with (/ uu) by (unfold uu; simpl; lra). apply Rinv_le; assumption. }
    split; [apply Rmult_le_pos; lra|]. rewrite <- (Rmult_1_l (IZR 16777216)). apply Rmult_le_compat; lra. }
  destruct (Bdiv_ok d (Bminus mode_NE (fz 1) s) 0 16777216 Fd Fc) as [A B]; try sm; [lra|exact Q|].
  rewrite Bleb_fin by assumption. rewrite V1. rewrite C2 in B. split; [|rewrite <- C2; lra]. rewrite <- B.
  destruct (Rle_bool_spec (fval (Bdiv mode_NE d (Bminus mode_NE (fz 1) s))) 1) as [L|L]; [rewrite Rmin_right by lra; reflexivity|rewrite Rmin_left by lra; exact V1].
Qed.

(** ** The order of results *)
Lemma rising32 m c1 c2 c1' c2' i s d s' d' : rising m = true -> unit32 s -> unit32 d -> unit32 s' -> unit32 d' -> fval s <= fval s' -> fval d <= fval d' ->
  wide32 (@blend_function f32 (F32 o) m c1 c2 i s d) /\ wide32 (@blend_function f32 (F32 o) m c1' c2' i s' d') /\
  fval (@blend_function f32 (F32 o) m c1 c2 i s d) <= fval (@blend_function f32 (F32 o) m c1' c2' i s' d').
Proof.
  intros E S D S' D' LS LD. destruct (one32 o) as [F1 V1]. destruct (zero32 o) as [F0 V0]. destruct (half32 o) as [[Fh _] Vh].
  pose proof (proj2 S) as RS. pose proof (proj2 D) as RD. pose proof (proj2 S') as RS'. pose proof (proj2 D') as RD'.
  assert (BM : bounded m = true -> wide32 (@blend_function f32 (F32 o) m c1 c2 i s d) /\ wide32 (@blend_function f32 (F32 o) m c1' c2' i s' d')).
  { intros B. split; apply unit_wide, bounded_maps32; assumption. }
  destruct m; cbn [rising] in E; try discriminate E; try specialize (BM eq_refl); try (split; [exact (proj1 BM)|split; [exact (proj2 BM)|]]); try clear BM; cbn [blend_function].
  - exact LS.
  - unfold multiply_func. cbn [fmul F32]. rewrite (proj2 (mul_unit s d S D)), (proj2 (mul_unit s' d' S' D')). apply rnd_mul_le2; lra.
  - rewrite (proj2 (screen_val s d S D)), (proj2 (screen_val s' d' S' D')). apply screen_r_le; lra.
  - unfold overlay_func. rewrite (proj2 (hard_light_val d s D S)), (proj2 (hard_light_val d' s' D' S')). apply hard_light_r_le; try apply rnd32_id; lra.
  - unfold darken_func. cbn [fmin F32]. rewrite (proj2 (fmin32_fin s d (proj1 S) (proj1 D))), (proj2 (fmin32_fin s' d' (proj1 S') (proj1 D'))).
    unfold Rmin. repeat destruct Rle_dec; lra.
  - unfold lighten_func. cbn [fmax F32]. rewrite (proj2 (fmax32_fin s d (proj1 S) (proj1 D))), (proj2 (fmax32_fin s' d' (proj1 S') (proj1 D'))).
    unfold Rmax. repeat destruct Rle_dec; lra.
  - pose proof (bounded_maps32 o ColorDodge c1' c2' i s' d' eq_refl S' D') as U'. cbn [blend_function] in U'.
    pose proof (bounded_maps32 o ColorDodge c1 c2 i s d eq_refl S D) as U. cbn [blend_function] in U. destruct U as [_ U]. destruct U' as [_ U'].
    destruct (Req_dec (fval d) 0) as [Z|Z].
    { assert (K : fval (@color_dodge_func f32 (F32 o) s d) = 0); [|lra].
      unfold color_dodge_func. cbn [feq F32]. rewrite Beqb_fin by (apply D || exact F0). rewrite V0, Req_bool_true by exact Z. exact V0. }
    destruct (Req_dec (fval s') 1) as [Z'|Z'].
    { assert (K : fval (@color_dodge_func f32 (F32 o) s' d') = 1); [|lra].
      unfold color_dodge_func. cbn [feq F32]. rewrite !Beqb_fin by (apply D' || apply S' || assumption). rewrite V0, V1, Req_bool_false by lra. rewrite Req_bool_true by exact Z'. exact V1. }
    destruct (dodge_val s d S D Z ltac:(lra)) as [V P]. destruct (dodge_val s' d' S' D' ltac:(lra) Z') as [V' P']. rewrite V, V'.
    assert (rnd32 (fval d / rnd32 (1 - fval s)) <= rnd32 (fval d' / rnd32 (1 - fval s'))).
    { assert (rnd32 (1 - fval s') <= rnd32 (1 - fval s)) by (apply rnd32_le; lra). unfold Rdiv. apply rnd_mul_le2; [lra|].
      split; [left; apply Rinv_0_lt_compat, P|]. apply Rinv_le; assumption. }
    unfold Rmin. repeat destruct Rle_dec; lra.
  - unfold linear_dodge_func. cbn [fadd F32]. destruct (add_val s d S D) as [A [B C]]. destruct (add_val s' d' S' D') as [A' [B' C']].
    split; [split; [exact A|lra]|]. split; [split; [exact A'|lra]|]. rewrite C, C'. apply rnd32_le. lra.
  - unfold linear_burn_func. cbn [fadd fsub F32]. destruct (add_val d s D S) as [A [B C]]. destruct (add_val d' s' D' S') as [A' [B' C']].
    destruct (less_one _ A B) as [W E1]. destruct (less_one _ A' B') as [W' E2]. split; [exact W|]. split; [exact W'|]. rewrite E1, E2, C, C'.
    apply rnd32_le. assert (rnd32 (fval d + fval s) <= rnd32 (fval d' + fval s')) by (apply rnd32_le; lra). lra.
  - rewrite (proj2 (hard_light_val s d S D)), (proj2 (hard_light_val s' d' S' D')). apply hard_light_r_le; try apply rnd32_id; lra.
  - destruct (linear_light_val s d S D) as [W E1]. destruct (linear_light_val s' d' S' D') as [W' E2]. split; [exact W|]. split; [exact W'|]. rewrite E1, E2.
    apply linear_light_r_le; try apply rnd32_id; lra.
  - unfold pin_light_func. cbn [fle fmin fmax fmul fsub F32]. rewrite !Bleb_fin by (try apply S; try apply S'; exact Fh). rewrite Vh.
    destruct (fz_val o 2) as [F2 V2]; [sm|].
    assert (DB : forall t, unit32 t -> fval t <= 1 / 2 -> unit32 (Bmult mode_NE (fz 2) t) /\ fval (Bmult mode_NE (fz 2) t) = 2 * fval t).
    { intros t [Ft Rt] Lt. split; [apply double_unit; [exact Ft|lra]|]. destruct (Bmult_ok (fz 2) t 0 1 F2 Ft) as [_ B]; try sm; [rewrite V2; lra|]. rewrite B, V2, Rmult_comm.
      replace (IZR 2) with (bpow radix2 1) by (simpl; lra). rewrite rnd_scale by (lia || apply rnd32_id). simpl. lra. }
    destruct (Rle_bool_spec (fval s) (1 / 2)) as [L|L], (Rle_bool_spec (fval s') (1 / 2)) as [L'|L']; try lra.
    + destruct (DB s S L) as [U V]. destruct (DB s' S' L') as [U' V'].
      rewrite (proj2 (fmin32_fin d _ (proj1 D) (proj1 U))), (proj2 (fmin32_fin d' _ (proj1 D') (proj1 U'))), V, V'. unfold Rmin. repeat destruct Rle_dec; lra.
    + destruct (DB s S L) as [U V]. destruct (excess s' S' L') as [U' V'].
      rewrite (proj2 (fmin32_fin d _ (proj1 D) (proj1 U))), (proj2 (fmax32_fin d' _ (proj1 D') (proj1 U'))), V, V'. unfold Rmin, Rmax. repeat destruct Rle_dec; lra.
    + destruct (excess s S L) as [U V]. destruct (excess s' S' L') as [U' V'].
      rewrite (proj2 (fmax32_fin d _ (proj1 D) (proj1 U))), (proj2 (fmax32_fin d' _ (proj1 D') (proj1 U'))), V, V'. unfold Rmax. repeat destruct Rle_dec; lra.
  - unfold hard_mix_func. cbn [flt fsub F32]. destruct (compl_unit o d D) as [A B]. destruct (compl_unit o d' D') as [A' B'].
    rewrite !Bltb_fin by (try apply S; try apply S'; try apply A; apply A'). rewrite B, B'.
    assert (rnd32 (1 - fval d') <= rnd32 (1 - fval d)) by (apply rnd32_le; lra).
    destruct (Rlt_bool_spec (fval s) (rnd32 (1 - fval d))), (Rlt_bool_spec (fval s') (rnd32 (1 - fval d'))); lra.
  - unfold plus_lighter_func, linear_dodge_func. cbn [fadd F32]. destruct (add_val s d S D) as [A [B C]]. destruct (add_val s' d' S' D') as [A' [B' C']].
    split; [split; [exact A|lra]|]. split; [split; [exact A'|lra]|]. rewrite C, C'. apply rnd32_le. lra.
  - unfold plus_darker_func, linear_dodge_func. cbn [fadd fsub F32]. destruct (add_val s d S D) as [A [B C]]. destruct (add_val s' d' S' D') as [A' [B' C']].
    destruct (less_one _ A B) as [W E1]. destruct (less_one _ A' B') as [W' E2]. split; [exact W|]. split; [exact W'|]. rewrite E1, E2, C, C'.
    apply rnd32_le. assert (rnd32 (fval s + fval d) <= rnd32 (fval s' + fval d')) by (apply rnd32_le; lra). lra.
Qed.

Lemma ordered32 m m' (c1 c2 c1' c2' : color f32) i s d : In (m, m') mode_order_32 -> unit32 s -> unit32 d ->
  wide32 (@blend_function f32 (F32 o) m c1 c2 i s d) /\ wide32 (@blend_function f32 (F32 o) m' c1' c2' i s d) /\
  fval (@blend_function f32 (F32 o) m c1 c2 i s d) <= fval (@blend_function f32 (F32 o) m' c1' c2' i s d).
Proof.
  intros I S D. pose proof (proj2 S) as RS. pose proof (proj2 D) as RD.
  assert (Fs : rnd32 (fval s) = fval s) by apply rnd32_id. assert (Fd : rnd32 (fval d) = fval d) by apply rnd32_id.
  assert (MU : fval (@multiply_func f32 (F32 o) s d) <= fval s /\ fval (@multiply_func f32 (F32 o) s d) <= fval d).
  { unfold multiply_func. cbn [fmul F32]. rewrite (proj2 (mul_unit s d S D)). split.
    - rewrite <- Fs at 2. apply rnd32_le. rewrite <- (Rmult_1_r (fval s)) at 2. apply Rmult_le_compat_l; lra.
    - rewrite <- Fd at 2. apply rnd32_le. rewrite <- (Rmult_1_l (fval d)) at 2. apply Rmult_le_compat_r; lra. }
  pose proof (proj2 (fmin32_fin s d (proj1 S) (proj1 D))) as MN. pose proof (proj2 (fmax32_fin s d (proj1 S) (proj1 D))) as MX.
  assert (DF : @difference_func f32 (F32 o) s d = Babs (Bminus mode_NE d s)) by reflexivity.
  assert (DV : fval (Babs (Bminus mode_NE d s)) = Rabs (rnd32 (fval d - fval s))).
  { destruct (Bminus_ok d s (-1) 1 (proj1 D) (proj1 S)) as [A B]; try sm; [lra|]. rewrite <- B. apply B2R_Babs. }
  assert (HL : forall a b : f32, unit32 a -> unit32 b -> rnd32 (fval a * fval b) <= fval (@hard_light_func f32 (F32 o) a b)).
  { intros a b A B. rewrite (proj2 (hard_light_val a b A B)). unfold hard_light_r. pose proof (proj2 A) as RA. pose proof (proj2 B) as RB. destruct (Rle_dec (fval a) (1 / 2)).
    - apply rnd32_le. assert (0 <= fval a * fval b) by (apply Rmult_le_pos; lra). lra.
    - apply Rle_trans with (fval b); [|apply upper_ge; try apply rnd32_id; lra].
      rewrite <- (rnd32_id b) at 2. apply rnd32_le. rewrite <- (Rmult_1_l (fval b)) at 2. apply Rmult_le_compat_r; lra. }
  assert (BM : forall (n : mode f32) (a b : color f32), bounded n = true -> wide32 (@blend_function f32 (F32 o) n a b i s d)) by (intros n a b Bn; apply unit_wide, bounded_maps32; assumption).
  cbn [mode_order_32 In] in I.
  repeat (destruct I as [I|I]; [injection I as <- <-|]); try destruct I;
    try (split; [apply BM; reflexivity|split; [apply BM; reflexivity|]]); cbn [blend_function].
  - unfold darken_func. cbn [fmin F32]. rewrite MN. apply Rmin_glb; apply MU.
  - apply MU.
  - unfold lighten_func. cbn [fmax F32]. rewrite MX. apply Rle_trans with (2 := Rmax_l _ _). apply MU.
  - unfold darken_func. cbn [fmin F32]. rewrite MN. apply Rmin_l.
  - unfold darken_func, lighten_func. cbn [fmin fmax F32]. rewrite MN, MX. apply Rle_trans with (1 := Rmin_l _ _). apply Rmax_l.
  - unfold lighten_func. cbn [fmax F32]. rewrite MX. apply Rmax_l.
  - unfold subtract_func. cbn [fsub F32]. destruct (Bminus_ok s d (-1) 1 (proj1 S) (proj1 D)) as [A B]; try sm; [lra|].
    pose proof (rnd32_bounds (fval s - fval d) (-1) 1 ltac:(sm) ltac:(sm) ltac:(lra)) as K. cbn in K.
    split; [split; [exact A|lra]|]. split; [rewrite DF; apply unit_wide, abs_unit; assumption|]. rewrite B, DF, DV.
    replace (fval s - fval d) with (- (fval d - fval s)) by lra. unfold rnd32 at 1. rewrite round_NE_opp. change (- rnd32 (fval d - fval s) <= Rabs (rnd32 (fval d - fval s))).
    rewrite <- Rabs_Ropp. apply Rle_abs.
  - unfold pin_light_func. cbn [fle fmin fmax fmul fsub F32]. destruct (half32 o) as [[Fh _] Vh]. rewrite Bleb_fin by (try apply S; exact Fh). rewrite Vh.
    destruct (Rle_bool_spec (fval s) (1 / 2)) as [L|L].
    + destruct (fz_val o 2) as [F2 V2]; [sm|]. destruct (Bmult_ok (fz 2) s 0 1 F2 (proj1 S)) as [A B]; try sm; [rewrite V2; lra|].
      assert (E : fval (Bmult mode_NE (fz 2) s) = 2 * fval s).
      { rewrite B, V2, Rmult_comm. replace (IZR 2) with (bpow radix2 1) by (simpl; lra). rewrite rnd_scale by (lia || apply rnd32_id). simpl. lra. }
      rewrite (proj2 (fmin32_fin d _ (proj1 D) A)), E. apply Rmin_glb; lra.
    + destruct (excess s S L) as [U V]. rewrite (proj2 (fmax32_fin d _ (proj1 D) (proj1 U))). apply Rle_trans with (2 := Rmax_l _ _). lra.
  - unfold multiply_func. cbn [fmul F32]. rewrite (proj2 (mul_unit s d S D)). apply HL; assumption.
  - unfold multiply_func. cbn [fmul F32]. rewrite (proj2 (mul_unit s d S D)), Rmult_comm. apply HL; assumption.
  - rewrite DF, DV. unfold lighten_func. cbn [fmax F32]. rewrite MX.
    assert (K : forall x y, 0 <= x -> 0 <= y -> rnd32 x = x -> rnd32 (x - y) <= x) by (intros x y Hx Hy E; rewrite <- E at 2; apply rnd32_le; lra).
    unfold Rabs. destruct (Rcase_abs (rnd32 (fval d - fval s))).
    + replace (fval d - fval s) with (- (fval s - fval d)) by lra. unfold rnd32 at 1. rewrite round_NE_opp, Ropp_involutive. change (rnd32 (fval s - fval d) <= Rmax (fval s) (fval d)).
      apply Rle_trans with (2 := Rmax_l _ _). apply K; lra.
    + apply Rle_trans with (2 := Rmax_r _ _). apply K; lra.
Qed.
End F.
