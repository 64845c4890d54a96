(** * The preset gamma curves in exact arithmetic (C18 - C20) *)
From Coq Require Import ZArith QArith Qreals Reals Lra Lia List Bool.
From Verif Require Import Arith Outcome ColorModel GammaModel RArith Laws.
Import ListNotations.
Local Open Scope R_scope.

(** ** Powers *)
Lemma Rpow_c_pos x y : 0 < x -> y <> 2 -> y <> 3 -> Rpow_c x y = Rpower x y.
Proof.
  intros Hx H2 H3. unfold Rpow_c. destruct (Req_EM_T y 2); [contradiction|].
  destruct (Req_EM_T y 3); [contradiction|]. destruct (Rlt_dec 0 x); [reflexivity|contradiction].
Qed.
Lemma Rpow_c_zero y : y <> 0 -> Rpow_c 0 y = 0.
Proof.
  intros Hy. unfold Rpow_c. destruct (Req_EM_T y 2); [ring|]. destruct (Req_EM_T y 3); [ring|].
  destruct (Rlt_dec 0 0); [lra|]. destruct (Req_EM_T y 0); [contradiction|reflexivity].
Qed.
Definition gen (y : R) : Prop := 0 < y /\ y <> 2 /\ y <> 3.
Lemma Rpow_c_nonneg x y : gen y -> 0 <= x -> 0 <= Rpow_c x y.
Proof.
  intros [H0 [H2 H3]] [Hx|<-].
  - rewrite Rpow_c_pos by assumption. unfold Rpower. left. apply exp_pos.
  - rewrite Rpow_c_zero; lra.
Qed.
Lemma Rpow_c_gt0 x y : gen y -> 0 < x -> 0 < Rpow_c x y.
Proof. intros [H0 [H2 H3]] Hx. rewrite Rpow_c_pos by assumption. unfold Rpower. apply exp_pos. Qed.
Lemma Rpow_c_lt x x' y : gen y -> 0 <= x -> x < x' -> Rpow_c x y < Rpow_c x' y.
Proof.
  intros [H0 [H2 H3]] [Hx|<-] L.
  - rewrite !Rpow_c_pos by (assumption || lra). unfold Rpower. apply exp_increasing.
    apply Rmult_lt_compat_l; auto. apply ln_increasing; auto.
  - rewrite Rpow_c_zero by lra. apply Rpow_c_gt0; [repeat split; auto|lra].
Qed.
Lemma Rpow_c_le x x' y : gen y -> 0 <= x -> x <= x' -> Rpow_c x y <= Rpow_c x' y.
Proof. intros G P [L|E]; [left; apply Rpow_c_lt; auto|right; congruence]. Qed.
Lemma Rpow_c_one y : gen y -> Rpow_c 1 y = 1.
Proof. intros [H0 [H2 H3]]. rewrite Rpow_c_pos by (auto; lra). unfold Rpower. rewrite ln_1, Rmult_0_r. apply exp_0. Qed.
Lemma Rpow_c_cancel x a b : gen a -> gen b -> a * b = 1 -> 0 <= x -> Rpow_c (Rpow_c x a) b = x.
Proof.
  intros Ga Gb E [Hx|<-].
  - assert (P : 0 < Rpow_c x a) by (apply Rpow_c_gt0; auto).
    destruct Ga as [A0 [A2 A3]]. destruct Gb as [B0 [B2 B3]].
    rewrite (Rpow_c_pos (Rpow_c x a)) by assumption. rewrite Rpow_c_pos by assumption.
    rewrite Rpower_mult, E. apply Rpower_1. assumption.
  - destruct Ga as [A0 _]. destruct Gb as [B0 _]. rewrite !Rpow_c_zero; lra.
Qed.

(** comparing a rational power with a number by integer powers *)
Lemma Rpower_frac a (p q : nat) : 0 < a -> (q <> 0)%nat -> Rpower a (INR p / INR q) ^ q = a ^ p.
Proof.
  intros Ha Hq. assert (Q : INR q <> 0) by (apply not_0_INR; auto).
  rewrite <- Rpower_pow by (unfold Rpower; apply exp_pos). rewrite Rpower_mult.
  replace (INR p / INR q * INR q) with (INR p) by (field; auto). apply Rpower_pow; auto.
Qed.
Lemma Rpower_frac_lt a b (p q : nat) : 0 < a -> 0 < b -> (q <> 0)%nat -> a ^ p < b ^ q -> Rpower a (INR p / INR q) < b.
Proof.
  intros Ha Hb Hq L. destruct (Rlt_le_dec (Rpower a (INR p / INR q)) b) as [X|X]; auto.
  exfalso. pose proof (pow_incr b (Rpower a (INR p / INR q)) q ltac:(lra)) as X'. clear X; rename X' into X. rewrite Rpower_frac in X by auto. lra.
Qed.
Lemma Rpower_frac_gt a b (p q : nat) : 0 < a -> 0 < b -> (q <> 0)%nat -> b ^ q < a ^ p -> b < Rpower a (INR p / INR q).
Proof.
  intros Ha Hb Hq L. destruct (Rlt_le_dec b (Rpower a (INR p / INR q))) as [X|X]; auto.
  exfalso. assert (X0 : 0 < Rpower a (INR p / INR q)) by (unfold Rpower; apply exp_pos).
  pose proof (pow_incr (Rpower a (INR p / INR q)) b q ltac:(lra)) as X'. clear X; rename X' into X.
  rewrite Rpower_frac in X by auto. lra.
Qed.

Ltac q2r := unfold fz; cbn [lit fmul fdiv fsub fadd RArith]; unfold Q2R, inject_Z; cbn [Qnum Qden].

Lemma gen_lit y q : y = q -> 0 < q -> q <> 2 -> q <> 3 -> gen y.
Proof. intros ->. repeat split; auto. Qed.

(** ** Two-piece curves *)
Lemma apply_one (f : R -> R) b x : apply_parts (AF := RArith) [GammaPart (Some f) b] x = if Rle_dec x b then f x else x.
Proof. cbn. unfold Rleb. destruct (Rle_dec x b); reflexivity. Qed.
Lemma apply_two (f g : R -> R) b c x : b <= c -> apply_parts (AF := RArith) (sort_parts (AF := RArith) [GammaPart (Some f) b; GammaPart (Some g) c]) x =
  if Rle_dec x b then f x else if Rle_dec x c then g x else x.
Proof.
  intros L. cbn [sort_parts insert_part]. unfold part_lt. cbn [g_border flt RArith].
  replace (Rltb c b) with false by (symmetry; apply Rltb_false; exact L).
  cbn [apply_parts g_fun g_border fle RArith]. unfold Rleb. destruct (Rle_dec x b); auto. destruct (Rle_dec x c); auto.
Qed.

(** ** Pure power presets *)
Definition power_exponents : list Q := [(18 # 10); (22 # 10); (26 # 10); (28 # 10); (219921875 # 100000000)]%Q.
Lemma power_exp e : In e power_exponents -> gen (Q2R e) /\ gen (1 / Q2R e).
Proof.
  intros I. cbn in I. unfold gen.
  repeat match type of I with _ \/ _ => destruct I as [<-|I] end; try contradiction;
    unfold Q2R; cbn [Qnum Qden]; repeat split; try lra;
    intros H; apply (f_equal Rinv) in H; unfold Rdiv in H; rewrite Rmult_1_l in H; rewrite Rinv_inv in H; lra.
Qed.
Lemma power_gamma_val e x : x <= 1 -> gamma_correction (power_gamma e) x = Rpow_c x (1 / Q2R e) /\
   inverse_gamma_correction (power_gamma e) x = Rpow_c x (Q2R e).
Proof.
  intros L. unfold gamma_correction, inverse_gamma_correction, power_gamma, gamma_ctor, piece.
  cbn [sort_parts insert_part g_parts ig_parts]. rewrite !apply_one.
  assert (E : Q2R 1 = 1) by (unfold Q2R; simpl; lra). cbn [lit RArith]. rewrite E.
  destruct (Rle_dec x 1); [|contradiction]. unfold pow_inv, pow_of. rewrite fzR. auto.
Qed.
Lemma Q2R_inv_mul e : gen (Q2R e) -> 1 / Q2R e * Q2R e = 1.
Proof. intros [H _]. field. lra. Qed.

Lemma power_range y x : gen y -> 0 <= x <= 1 -> 0 <= Rpow_c x y <= 1.
Proof.
  intros G [L H]. split; [apply Rpow_c_nonneg; auto|]. rewrite <- (Rpow_c_one y G). apply Rpow_c_le; auto.
Qed.

Lemma power_preset_inverse e x : In e power_exponents -> 0 <= x <= 1 ->
  inverse_gamma_correction (power_gamma e) (gamma_correction (power_gamma e) x) = x /\
  gamma_correction (power_gamma e) (inverse_gamma_correction (power_gamma e) x) = x.
Proof.
  intros I X. destruct (power_exp e I) as [G1 G2]. pose proof (Q2R_inv_mul e G1) as M.
  destruct (power_gamma_val e x) as [E1 E2]; [lra|]. rewrite E1, E2.
  pose proof (power_range _ x G1 X). pose proof (power_range _ x G2 X).
  destruct (power_gamma_val e (Rpow_c x (1 / Q2R e))) as [_ E3]; [lra|]. rewrite E3.
  destruct (power_gamma_val e (Rpow_c x (Q2R e))) as [E4 _]; [lra|]. rewrite E4.
  split; apply Rpow_c_cancel; auto; lra.
Qed.

Lemma power_preset_monotone e x y : In e power_exponents -> 0 <= x -> x <= y -> y <= 1 ->
  0 <= gamma_correction (power_gamma e) x <= gamma_correction (power_gamma e) y /\ gamma_correction (power_gamma e) y <= 1 /\
  0 <= inverse_gamma_correction (power_gamma e) x <= inverse_gamma_correction (power_gamma e) y /\ inverse_gamma_correction (power_gamma e) y <= 1 /\
  gamma_correction (power_gamma e) 0 = 0 /\ gamma_correction (power_gamma e) 1 = 1 /\
  inverse_gamma_correction (power_gamma e) 0 = 0 /\ inverse_gamma_correction (power_gamma e) 1 = 1.
Proof.
  intros I X L Y. destruct (power_exp e I) as [G1 G2].
  destruct (power_gamma_val e x) as [-> ->]; [lra|]. destruct (power_gamma_val e y) as [-> ->]; [lra|].
  destruct (power_gamma_val e 0) as [-> ->]; [lra|]. destruct (power_gamma_val e 1) as [-> ->]; [lra|].
  pose proof (power_range _ x G1 ltac:(lra)). pose proof (power_range _ x G2 ltac:(lra)).
  pose proof (power_range _ y G1 ltac:(lra)). pose proof (power_range _ y G2 ltac:(lra)).
  pose proof (Rpow_c_le x y _ G1 X L). pose proof (Rpow_c_le x y _ G2 X L).
  rewrite !Rpow_c_one by assumption. rewrite !Rpow_c_zero by (destruct G1, G2; lra).
  intuition lra.
Qed.

(** ** sRGB *)
Definition srgb_fwd (x : R) : R := if Rle_dec x 0.0031308 then 12.92 * x else if Rle_dec x 1 then 1.055 * Rpow_c x (1 / 2.4) - 0.055 else x.
Definition srgb_inv (x : R) : R := if Rle_dec x 0.04045 then x / 12.92 else if Rle_dec x 1 then Rpow_c ((x + 0.055) / 1.055) 2.4 else x.

Ltac litR a b := replace a with b by (unfold Q2R; cbn [Qnum Qden]; lra).
Lemma srgb_val x : gamma_correction gamma_sRGB x = srgb_fwd x /\ inverse_gamma_correction gamma_sRGB x = srgb_inv x.
Proof.
  unfold gamma_correction, inverse_gamma_correction, gamma_sRGB, gamma_ctor, piece. cbn [g_parts ig_parts].
  rewrite !apply_two by (cbn [lit RArith]; unfold Q2R; cbn [Qnum Qden]; lra).
  unfold pow_inv, pow_of, srgb_fwd, srgb_inv. rewrite fzR. cbn [lit RArith fmul fsub fdiv fadd fpow].
  replace (Q2R (31308 # 10000000)) with 0.0031308 by (unfold Q2R; cbn [Qnum Qden]; lra).
  replace (Q2R 1) with 1 by (unfold Q2R; cbn [Qnum Qden]; lra).
  replace (Q2R (1292 # 100)) with 12.92 by (unfold Q2R; cbn [Qnum Qden]; lra).
  replace (Q2R (1055 # 1000)) with 1.055 by (unfold Q2R; cbn [Qnum Qden]; lra).
  replace (Q2R (55 # 1000)) with 0.055 by (unfold Q2R; cbn [Qnum Qden]; lra).
  replace (Q2R (24 # 10)) with 2.4 by (unfold Q2R; cbn [Qnum Qden]; lra).
  replace (Q2R (4045 # 100000)) with 0.04045 by (unfold Q2R; cbn [Qnum Qden]; lra).
  auto.
Qed.

Lemma gen24 : gen 2.4. Proof. repeat split; lra. Qed.
Lemma gen24i : gen (1 / 2.4). Proof. repeat split; lra. Qed.
Lemma e125 : 2.4 = INR 12 / INR 5. Proof. simpl. lra. Qed.

(** at the break point of the forward curve *)
Lemma srgb_break x : 0.0031309 <= x -> 0.09545 / 1.055 < Rpow_c x (1 / 2.4).
Proof.
  intros H.
  destruct (Rlt_le_dec (0.09545 / 1.055) (Rpow_c x (1 / 2.4))) as [L|L]; auto. exfalso.
  assert (X : x <= Rpow_c (0.09545 / 1.055) 2.4).
  { rewrite <- (Rpow_c_cancel x (1 / 2.4) 2.4 gen24i gen24) at 1; try lra.
    apply Rpow_c_le; [apply gen24|apply Rpow_c_nonneg; [apply gen24i|lra]|exact L]. }
  rewrite Rpow_c_pos in X by lra. 
  assert (Y : Rpower (0.09545 / 1.055) 2.4 < 0.0031309).
  { rewrite e125. apply Rpower_frac_lt; [lra|lra|discriminate|simpl; lra]. }
  lra.
Qed.
Lemma srgb_break_inv x : 0.04045 < x -> 0.0031308 < Rpow_c ((x + 0.055) / 1.055) 2.4.
Proof.
  intros H. apply Rlt_trans with (Rpow_c (0.09545 / 1.055) 2.4).
  - rewrite Rpow_c_pos by lra. rewrite e125. apply Rpower_frac_gt; [lra|lra|discriminate|simpl; lra].
  - apply Rpow_c_lt; [apply gen24|lra|lra].
Qed.

Lemma srgb_inverse x : 0 <= x <= 1 -> x <= 0.0031308 \/ 0.0031309 <= x ->
  inverse_gamma_correction gamma_sRGB (gamma_correction gamma_sRGB x) = x.
Proof.
  intros X C. destruct (srgb_val x) as [-> _]. destruct (srgb_val (srgb_fwd x)) as [_ ->].
  unfold srgb_fwd, srgb_inv. destruct (Rle_dec x 0.0031308) as [A|A].
  - destruct (Rle_dec (12.92 * x) 0.04045); lra.
  - destruct (Rle_dec x 1); [|lra].
    pose proof (srgb_break x ltac:(lra)) as B. pose proof (power_range _ x gen24i X) as P.
    set (p := Rpow_c x (1 / 2.4)) in *.
    destruct (Rle_dec (1.055 * p - 0.055) 0.04045); [lra|]. destruct (Rle_dec (1.055 * p - 0.055) 1); [|lra].
    replace ((1.055 * p - 0.055 + 0.055) / 1.055) with p by lra.
    apply Rpow_c_cancel; [apply gen24i|apply gen24|lra|lra].
Qed.
Lemma srgb_inverse' y : 0 <= y <= 1 -> y <= 0.0404499 \/ 0.04045 < y ->
  gamma_correction gamma_sRGB (inverse_gamma_correction gamma_sRGB y) = y.
Proof.
  intros X C. destruct (srgb_val y) as [_ ->]. destruct (srgb_val (srgb_inv y)) as [-> _].
  unfold srgb_fwd, srgb_inv. destruct (Rle_dec y 0.04045) as [A|A].
  - destruct (Rle_dec (y / 12.92) 0.0031308); [lra|]. exfalso. lra.
  - destruct (Rle_dec y 1); [|lra].
    pose proof (srgb_break_inv y ltac:(lra)) as B.
    assert (P : 0 <= Rpow_c ((y + 0.055) / 1.055) 2.4 <= 1) by (apply power_range; [apply gen24|lra]).
    set (p := Rpow_c ((y + 0.055) / 1.055) 2.4) in *.
    destruct (Rle_dec p 0.0031308); [lra|]. destruct (Rle_dec p 1); [|lra].
    unfold p. rewrite (Rpow_c_cancel _ 2.4 (1 / 2.4)); [lra|apply gen24|apply gen24i|lra|lra].
Qed.

(** ** UHDTV *)
Definition uh_fwd (x : R) : R := if Rle_dec x 0.081 then x / 4.5 else if Rle_dec x 1 then Rpow_c ((x + 0.099) / 1.099) (1 / 0.45) else x.
Definition uh_inv (x : R) : R := if Rle_dec x 0.018053968510807 then 4.5 * x else if Rle_dec x 1 then 1.099 * Rpow_c x 0.45 - 0.099 else x.
Lemma uh_val x : gamma_correction gammaUHDTV x = uh_fwd x /\ inverse_gamma_correction gammaUHDTV x = uh_inv x.
Proof.
  unfold gamma_correction, inverse_gamma_correction, gammaUHDTV, gamma_ctor, piece. cbn [g_parts ig_parts].
  rewrite !apply_two by (cbn [lit RArith]; unfold Q2R; cbn [Qnum Qden]; lra).
  unfold pow_inv, pow_of, uh_fwd, uh_inv. rewrite fzR. cbn [lit RArith fmul fsub fdiv fadd fpow].
  replace (Q2R (81 # 1000)) with 0.081 by (unfold Q2R; cbn [Qnum Qden]; lra).
  replace (Q2R 1) with 1 by (unfold Q2R; cbn [Qnum Qden]; lra).
  replace (Q2R (45 # 10)) with 4.5 by (unfold Q2R; cbn [Qnum Qden]; lra).
  replace (Q2R (1099 # 1000)) with 1.099 by (unfold Q2R; cbn [Qnum Qden]; lra).
  replace (Q2R (99 # 1000)) with 0.099 by (unfold Q2R; cbn [Qnum Qden]; lra).
  replace (Q2R (45 # 100)) with 0.45 by (unfold Q2R; cbn [Qnum Qden]; lra).
  replace (Q2R (18053968510807 # 1000000000000000)) with 0.018053968510807 by (unfold Q2R; cbn [Qnum Qden]; lra).
  auto.
Qed.
Lemma gen45 : gen 0.45. Proof. repeat split; lra. Qed.
Lemma gen45i : gen (1 / 0.45). Proof. repeat split; lra. Qed.
Lemma e209 : 1 / 0.45 = INR 20 / INR 9. Proof. simpl. lra. Qed.
Lemma e920 : 0.45 = INR 9 / INR 20. Proof. simpl. lra. Qed.

Lemma uh_break x : 0.0815 <= x -> 0.018053968510807 < Rpow_c ((x + 0.099) / 1.099) (1 / 0.45).
Proof.
  intros H. apply Rlt_le_trans with (Rpow_c (0.1805 / 1.099) (1 / 0.45)).
  - rewrite Rpow_c_pos by lra. rewrite e209. apply Rpower_frac_gt; [lra|lra|discriminate|simpl; lra].
  - apply Rpow_c_le; [apply gen45i|lra|lra].
Qed.
Lemma uh_break_inv y : 0.018053968510807 < y -> 0.18 / 1.099 < Rpow_c y 0.45.
Proof.
  intros H. apply Rlt_trans with (Rpow_c 0.018053968510807 0.45).
  - rewrite Rpow_c_pos by lra. rewrite e920. apply Rpower_frac_gt; [lra|lra|discriminate|simpl; lra].
  - apply Rpow_c_lt; [apply gen45|lra|lra].
Qed.
Lemma uh_inverse x : 0 <= x <= 1 -> x <= 0.081 \/ 0.0815 <= x ->
  inverse_gamma_correction gammaUHDTV (gamma_correction gammaUHDTV x) = x.
Proof.
  intros X C. destruct (uh_val x) as [-> _]. destruct (uh_val (uh_fwd x)) as [_ ->].
  unfold uh_fwd, uh_inv. destruct (Rle_dec x 0.081) as [A|A].
  - destruct (Rle_dec (x / 4.5) 0.018053968510807); lra.
  - destruct (Rle_dec x 1); [|lra].
    pose proof (uh_break x ltac:(lra)) as B.
    assert (P : 0 <= Rpow_c ((x + 0.099) / 1.099) (1 / 0.45) <= 1) by (apply power_range; [apply gen45i|lra]).
    set (p := Rpow_c ((x + 0.099) / 1.099) (1 / 0.45)) in *.
    destruct (Rle_dec p 0.018053968510807); [lra|]. destruct (Rle_dec p 1); [|lra].
    unfold p. rewrite (Rpow_c_cancel _ (1 / 0.45) 0.45); [lra|apply gen45i|apply gen45|lra|lra].
Qed.
Lemma uh_inverse' y : 0 <= y <= 1 -> y <= 0.018 \/ 0.018053968510807 < y ->
  gamma_correction gammaUHDTV (inverse_gamma_correction gammaUHDTV y) = y.
Proof.
  intros X C. destruct (uh_val y) as [_ ->]. destruct (uh_val (uh_inv y)) as [-> _].
  unfold uh_fwd, uh_inv. destruct (Rle_dec y 0.018053968510807) as [A|A].
  - destruct (Rle_dec (4.5 * y) 0.081); lra.
  - destruct (Rle_dec y 1); [|lra].
    pose proof (uh_break_inv y ltac:(lra)) as B. pose proof (power_range _ y gen45 X) as P.
    set (p := Rpow_c y 0.45) in *.
    destruct (Rle_dec (1.099 * p - 0.099) 0.081); [lra|]. destruct (Rle_dec (1.099 * p - 0.099) 1); [|lra].
    replace ((1.099 * p - 0.099 + 0.099) / 1.099) with p by lra. unfold p.
    apply Rpow_c_cancel; [apply gen45|apply gen45i|lra|lra].
Qed.

(** ** ROMM *)
Definition romm_fwd (x : R) : R := if Rle_dec x 0.001953 then 16 * x else if Rle_dec x 1 then Rpow_c x (1 / 1.8) else x.
Definition romm_inv (x : R) : R := if Rle_dec x 0.001953 then x / 16 else if Rle_dec x 1 then Rpow_c x 1.8 else x.
Lemma romm_val x : gamma_correction gammaRomm x = romm_fwd x /\ inverse_gamma_correction gammaRomm x = romm_inv x.
Proof.
  unfold gamma_correction, inverse_gamma_correction, gammaRomm, gamma_ctor, piece. cbn [g_parts ig_parts].
  rewrite !apply_two by (cbn [lit RArith]; unfold Q2R; cbn [Qnum Qden]; lra).
  unfold pow_inv, pow_of, romm_fwd, romm_inv. rewrite !fzR. cbn [lit RArith fmul fsub fdiv fadd fpow].
  replace (Q2R (1953 # 1000000)) with 0.001953 by (unfold Q2R; cbn [Qnum Qden]; lra).
  replace (Q2R 1) with 1 by (unfold Q2R; cbn [Qnum Qden]; lra).
  replace (Q2R (18 # 10)) with 1.8 by (unfold Q2R; cbn [Qnum Qden]; lra).
  auto.
Qed.
Lemma gen18 : gen 1.8. Proof. repeat split; lra. Qed.
Lemma gen18i : gen (1 / 1.8). Proof. repeat split; lra. Qed.
Lemma e95 : 1.8 = INR 9 / INR 5. Proof. simpl. lra. Qed.

(** the curves do not cancel anywhere between 0.001953/16 and 0.001953 *)
Lemma romm_fails x : 0.001953 / 16 < x <= 0.001953 ->
  inverse_gamma_correction gammaRomm (gamma_correction gammaRomm x) <> x.
Proof.
  intros X. destruct (romm_val x) as [-> _]. destruct (romm_val (romm_fwd x)) as [_ ->].
  unfold romm_fwd, romm_inv. destruct (Rle_dec x 0.001953); [|lra].
  destruct (Rle_dec (16 * x) 0.001953); [lra|]. destruct (Rle_dec (16 * x) 1); [|lra].
  rewrite Rpow_c_pos by lra. apply Rlt_not_eq. rewrite e95. apply Rpower_frac_lt; [lra|lra|discriminate|].
  assert (S2 : x ^ 2 < (1 / 512) ^ 2) by nra.
  assert (S : x ^ 4 < (1 / 512) ^ 4).
  { replace (x ^ 4) with (x ^ 2 * x ^ 2) by ring. assert (0 < x ^ 2) by nra. nra. }
  replace ((16 * x) ^ 9) with (x ^ 5 * (16 ^ 9 * x ^ 4)) by ring.
  assert (P5 : 0 < x ^ 5) by (apply pow_lt; lra).
  assert (16 ^ 9 * x ^ 4 < 1) by lra. nra.
Qed.
Lemma romm_inverse_ok x : 0 <= x <= 1 -> x <= 0.001953 / 16 \/ 0.001953 < x ->
  inverse_gamma_correction gammaRomm (gamma_correction gammaRomm x) = x.
Proof.
  intros X C. destruct (romm_val x) as [-> _]. destruct (romm_val (romm_fwd x)) as [_ ->].
  unfold romm_fwd, romm_inv. destruct (Rle_dec x 0.001953) as [A|A].
  - destruct (Rle_dec (16 * x) 0.001953); lra.
  - destruct (Rle_dec x 1); [|lra].
    assert (P : 0 <= Rpow_c x (1 / 1.8) <= 1) by (apply power_range; [apply gen18i|lra]).
    assert (B : x <= Rpow_c x (1 / 1.8)).
    { rewrite Rpow_c_pos by lra. rewrite <- (Rpower_1 x) at 1 by lra. unfold Rpower.
      destruct (Req_dec x 1) as [->|N]; [rewrite ln_1, !Rmult_0_r; lra|].
      left. apply exp_increasing. assert (ln x < 0) by (rewrite <- ln_1; apply ln_increasing; lra). nra. }
    destruct (Rle_dec (Rpow_c x (1 / 1.8)) 0.001953); [lra|]. destruct (Rle_dec (Rpow_c x (1 / 1.8)) 1); [|lra].
    apply Rpow_c_cancel; [apply gen18i|apply gen18|lra|lra].
Qed.

(** ** Monotonicity of the two-piece presets (C86) *)
Lemma two_piece_mono (f g : R -> R) b : 0 <= b <= 1 ->
  (forall x y, 0 <= x -> x <= y -> y <= b -> 0 <= f x <= f y) ->
  (forall x y, b <= x -> x <= y -> y <= 1 -> g x <= g y) -> f b <= g b -> g 1 <= 1 ->
  forall x y, 0 <= x -> x <= y -> y <= 1 ->
  0 <= (if Rle_dec x b then f x else if Rle_dec x 1 then g x else x) <=
       (if Rle_dec y b then f y else if Rle_dec y 1 then g y else y) /\
  (if Rle_dec y b then f y else if Rle_dec y 1 then g y else y) <= 1.
Proof.
  intros B Hf Hg J G1 x y X L Y.
  assert (F0 : 0 <= f b) by (apply (Hf b b); lra).
  pose proof (Hg b 1 ltac:(lra) ltac:(lra) ltac:(lra)).
  destruct (Rle_dec x b), (Rle_dec y b); try lra.
  - pose proof (Hf x y X L ltac:(lra)). pose proof (Hf y b ltac:(lra) ltac:(lra) ltac:(lra)). lra.
  - destruct (Rle_dec y 1); [|lra]. pose proof (Hf x b X ltac:(lra) ltac:(lra)).
    pose proof (Hg b y ltac:(lra) ltac:(lra) ltac:(lra)). pose proof (Hg y 1 ltac:(lra) ltac:(lra) ltac:(lra)). lra.
  - destruct (Rle_dec x 1); [|lra]. destruct (Rle_dec y 1); [|lra].
    pose proof (Hg b x ltac:(lra) ltac:(lra) ltac:(lra)).
    pose proof (Hg x y ltac:(lra) ltac:(lra) ltac:(lra)). pose proof (Hg y 1 ltac:(lra) ltac:(lra) ltac:(lra)). lra.
Qed.
Lemma srgb_inv_mono x y : 0 <= x -> x <= y -> y <= 1 ->
  0 <= inverse_gamma_correction gamma_sRGB x <= inverse_gamma_correction gamma_sRGB y /\
  inverse_gamma_correction gamma_sRGB y <= 1.
Proof.
  destruct (srgb_val x) as [_ ->]. destruct (srgb_val y) as [_ ->]. unfold srgb_inv.
  apply (two_piece_mono (fun x => x / 12.92) (fun x => Rpow_c ((x + 0.055) / 1.055) 2.4)).
  - lra.
  - intros; lra.
  - intros. apply Rpow_c_le; [apply gen24|lra|lra].
  - rewrite Rpow_c_pos by lra. rewrite e125. left. apply Rpower_frac_gt; [lra|lra|discriminate|simpl; lra].
  - replace ((1 + 0.055) / 1.055) with 1 by lra. rewrite Rpow_c_one; [lra|apply gen24].
Qed.
Lemma uh_inv_mono x y : 0 <= x -> x <= y -> y <= 1 ->
  0 <= inverse_gamma_correction gammaUHDTV x <= inverse_gamma_correction gammaUHDTV y /\
  inverse_gamma_correction gammaUHDTV y <= 1.
Proof.
  destruct (uh_val x) as [_ ->]. destruct (uh_val y) as [_ ->]. unfold uh_inv.
  apply (two_piece_mono (fun x => 4.5 * x) (fun x => 1.099 * Rpow_c x 0.45 - 0.099)).
  - lra.
  - intros; lra.
  - intros a b ? ? ?. pose proof (Rpow_c_le a b 0.45 gen45). lra.
  - assert ((4.5 * 0.018053968510807 + 0.099) / 1.099 < Rpow_c 0.018053968510807 0.45).
    { rewrite Rpow_c_pos by lra. rewrite e920. apply Rpower_frac_gt; [lra|lra|discriminate|simpl; lra]. }
    lra.
  - rewrite Rpow_c_one; [lra|apply gen45].
Qed.
Lemma romm_fwd_mono x y : 0 <= x -> x <= y -> y <= 1 ->
  0 <= gamma_correction gammaRomm x <= gamma_correction gammaRomm y /\ gamma_correction gammaRomm y <= 1.
Proof.
  destruct (romm_val x) as [-> _]. destruct (romm_val y) as [-> _]. unfold romm_fwd.
  apply (two_piece_mono (fun x => 16 * x) (fun x => Rpow_c x (1 / 1.8))).
  - lra.
  - intros; lra.
  - intros. apply Rpow_c_le; [apply gen18i|lra|lra].
  - rewrite Rpow_c_pos by lra. replace (1 / 1.8) with (INR 5 / INR 9) by (simpl; lra).
    left. apply Rpower_frac_gt; [lra|lra|discriminate|simpl; lra].
  - rewrite Rpow_c_one; [lra|apply gen18i].
Qed.
(** the three curves that are not monotone *)
Lemma srgb_fwd_drop : gamma_correction gamma_sRGB 0.00313080001 < gamma_correction gamma_sRGB 0.0031308.
Proof.
  destruct (srgb_val 0.00313080001) as [-> _]. destruct (srgb_val 0.0031308) as [-> _]. unfold srgb_fwd.
  destruct (Rle_dec 0.00313080001 0.0031308); [lra|]. destruct (Rle_dec 0.00313080001 1); [|lra].
  destruct (Rle_dec 0.0031308 0.0031308); [|lra].
  assert (Rpow_c 0.00313080001 (1 / 2.4) < (12.92 * 0.0031308 + 0.055) / 1.055).
  { rewrite Rpow_c_pos by lra. replace (1 / 2.4) with (INR 5 / INR 12) by (simpl; lra).
    apply Rpower_frac_lt; [lra|lra|discriminate|simpl; lra]. }
  lra.
Qed.
Lemma uh_fwd_drop : gamma_correction gammaUHDTV 0.08101 < gamma_correction gammaUHDTV 0.081.
Proof.
  destruct (uh_val 0.08101) as [-> _]. destruct (uh_val 0.081) as [-> _]. unfold uh_fwd.
  destruct (Rle_dec 0.08101 0.081); [lra|]. destruct (Rle_dec 0.08101 1); [|lra].
  destruct (Rle_dec 0.081 0.081); [|lra].
  rewrite Rpow_c_pos by lra. rewrite e209.
  apply Rpower_frac_lt; [lra|lra|discriminate|simpl; lra].
Qed.
Lemma romm_inv_drop : inverse_gamma_correction gammaRomm 0.002 < inverse_gamma_correction gammaRomm 0.001953.
Proof.
  destruct (romm_val 0.002) as [_ ->]. destruct (romm_val 0.001953) as [_ ->]. unfold romm_inv.
  destruct (Rle_dec 0.002 0.001953); [lra|]. destruct (Rle_dec 0.002 1); [|lra].
  destruct (Rle_dec 0.001953 0.001953); [|lra].
  rewrite Rpow_c_pos by lra. rewrite e95.
  apply Rpower_frac_lt; [lra|lra|discriminate|simpl; lra].
Qed.
