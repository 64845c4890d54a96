(** * Blending translucent 8-bit colours in binary32: the error of one channel (C164, C165) *)
From Coq Require Import ZArith QArith Reals Lra Lia List Bool.
From Flocq Require Import Core IEEE754.BinarySingleNaN.
From Verif Require Import Arith Outcome ColorModel GammaModel MatrixModel SpaceModel Heap Converter Calculation Blend F32 F32Facts RArith
  Spec Spec32 Laws NormalForms Alpha8 Core_Proofs Core2_Proofs Core3_Proofs Core4_Proofs Hue32 Spec_Matrix Spec_Conv Spec_Calc Spec_Blend Spec_Round
  Conv_Proofs Conv2_Proofs Run_Proofs Round_Proofs Round2_Proofs Error_Proofs Error2_Proofs Error4_Proofs Error5_Proofs Error7_Proofs Spec_Error
  Linear2_Proofs Curve_Proofs Blend_Proofs Blend2_Proofs Spec_Byte Byte_Proofs.
Import ListNotations.
Local Open Scope R_scope.
Local Notation fin x := (is_finite x = true).

Lemma frac_byte n : is_byte n -> 0 <= IZR n / 255 <= 1.
Proof. intros [A B]. apply IZR_le in A, B. lra. Qed.
Lemma frac_pos n : is_byte n -> IZR n / 255 = 0 \/ / 255 <= IZR n / 255.
Proof.
  intros [A B]. destruct (Z.eq_dec n 0) as [->|N]; [left; lra|right]. assert (1 <= n)%Z by lia. apply (IZR_le 1) in H. lra.
Qed.
Lemma byte_255 n : is_byte n -> is_byte (255 - n).
Proof. unfold is_byte. lia. Qed.
Lemma frac_compl n : 1 - IZR n / 255 = IZR (255 - n) / 255.
Proof. rewrite minus_IZR. field. Qed.

(** ** Relative errors of products of fractions *)
Definition away (v : R) : Prop := v = 0 \/ / 16581375 <= v.
Lemma away_nonneg v : away v -> 0 <= v.
Proof. unfold away. lra. Qed.
Lemma away_1 n : is_byte n -> away (IZR n / 255).
Proof. intros H. destruct (frac_pos n H); [left|right]; lra. Qed.
Lemma away_mul a b : (a = 0 \/ / 255 <= a) -> (b = 0 \/ / 255 <= b) -> a * b = 0 \/ / 65025 <= a * b.
Proof.
  intros [->|A]; [left; ring|]. intros [->|B]; [left; ring|]. right. replace (/ 65025) with (/ 255 * / 255) by field. apply Rmult_le_compat; lra.
Qed.
Lemma away_mul3 w c : (w = 0 \/ / 65025 <= w) -> (c = 0 \/ / 255 <= c) -> away (w * c).
Proof.
  intros [->|A]; [left; ring|]. intros [->|B]; [left; ring|]. right. replace (/ 16581375) with (/ 65025 * / 255) by field. apply Rmult_le_compat; lra.
Qed.

Definition rel (x : f32) (v k : R) : Prop := fin x /\ Rabs (fval x - v) <= k * u * v.
Lemma rel_weaken x v k l : 0 <= v -> rel x v k -> k <= l -> rel x v l.
Proof. intros P [F E] L. split; [exact F|]. apply Rle_trans with (1 := E). apply Rmult_le_compat_r; [exact P|num]. Qed.
Lemma rel_range x v k : rel x v k -> v - k * u * v <= fval x <= v + k * u * v.
Proof. intros [_ E]. apply Rabs_le_inv in E. lra. Qed.
Lemma rnd_rel z v k : away v -> v <= 3 -> 0 <= k <= 1000 -> Rabs (z - v) <= k * u * v -> Rabs (rnd32 z - v) <= (k + 101 / 100) * u * v.
Proof.
  intros [->|A] B K E.
  - rewrite Rmult_0_r in E. apply Rabs_le_inv in E. assert (z = 0) as -> by lra. rewrite rnd32_0. replace (0 - 0) with 0 by ring. rewrite Rabs_R0. lra.
  - pose proof (rnd_err z) as R. assert (KU : 0 <= k * u * v <= 1000 * u * v).
    { split; [apply Rmult_le_pos; [|lra]|]; [num|]. apply Rmult_le_compat_r; [lra|num]. }
    apply Rabs_le_inv in E. set (w := k * u * v) in * . rewrite (Rabs_pos_eq z) in R by num. apply Rabs_le_inv in R.
    replace ((k + 101 / 100) * u * v) with (w + 101 / 100 * u * v) by (unfold w; ring). clearbody w. apply Rabs_le. num.
Qed.

Section V.
Variable o : oracle.
Local Notation "x +. y" := (@fadd f32 (F32 o) x y) (at level 50, left associativity).
Local Notation "x -. y" := (@fsub f32 (F32 o) x y) (at level 50, left associativity).
Local Notation "x *. y" := (@fmul f32 (F32 o) x y) (at level 40, left associativity).
Local Notation "x /. y" := (@fdiv f32 (F32 o) x y) (at level 40, left associativity).
Local Notation "$ n" := (fz (H := F32 o) n) (at level 2).
Local Notation c01 := (@c01 f32 (F32 o)).

Lemma rel_one : rel $1 1 0.
Proof. destruct (fz_val o 1) as [F V]; [sm|]. split; [exact F|]. rewrite V. replace (1 - 1) with 0 by ring. rewrite Rabs_R0. lra. Qed.
Lemma rel_zero k : rel $0 0 k.
Proof. destruct (fz_val o 0) as [F V]; [sm|]. split; [exact F|]. rewrite V. replace (0 - 0) with 0 by ring. rewrite Rabs_R0. lra. Qed.
Lemma rel_byte x n : is_byte n -> fin x -> fval x = q255 n -> rel x (IZR n / 255) (102 / 100).
Proof. intros H F E. split; [exact F|]. rewrite E. apply (q_rel n H). Qed.

Lemma rel_mul x y v w k l : rel x v k -> rel y w l -> 0 <= v <= 1 -> 0 <= w <= 1 -> away (v * w) -> 0 <= k <= 400 -> 0 <= l <= 400 ->
  rel (x *. y) (v * w) (k + l + 11 / 10).
Proof.
  intros Rx Ry Hv Hw A K L. pose proof (rel_range _ _ _ Rx) as Bx. pose proof (rel_range _ _ _ Ry) as By.
  destruct Rx as [Fx Ex]. destruct Ry as [Fy Ey].
  assert (P : 0 <= v * w <= 1) by (split; [apply Rmult_le_pos; lra|rewrite <- (Rmult_1_r 1); apply Rmult_le_compat; lra]).
  assert (D : Rabs (fval x * fval y - v * w) <= (k + l + 3 / 100) * u * (v * w)).
  { replace (fval x * fval y - v * w) with ((fval x - v) * w + v * (fval y - w) + (fval x - v) * (fval y - w)) by ring.
    eapply Rle_trans; [apply Rabs_triang|]. eapply Rle_trans; [apply Rplus_le_compat_r, Rabs_triang|]. rewrite !Rabs_mult, (Rabs_pos_eq w), (Rabs_pos_eq v) by lra.
    assert (D1 : Rabs (fval x - v) * w <= k * u * v * w) by (apply Rmult_le_compat_r; lra).
    assert (D2 : v * Rabs (fval y - w) <= v * (l * u * w)) by (apply Rmult_le_compat_l; lra).
    assert (D3 : Rabs (fval x - v) * Rabs (fval y - w) <= k * u * v * (l * u * w)) by (apply Rmult_le_compat; try apply Rabs_pos; assumption).
    assert (KL : k * l * u <= 3 / 100).
    { apply Rle_trans with (400 * 400 * u); [|num]. apply Rmult_le_compat_r; [num|]. apply Rmult_le_compat; lra. }
    assert (D4 : k * u * v * (l * u * w) <= 3 / 100 * (u * (v * w))).
    { replace (k * u * v * (l * u * w)) with (k * l * u * (u * (v * w))) by ring. apply Rmult_le_compat_r; [|exact KL]. apply Rmult_le_pos; [num|lra]. }
    replace ((k + l + 3 / 100) * u * (v * w)) with (k * u * v * w + v * (l * u * w) + 3 / 100 * (u * (v * w))) by ring. lra. }
  assert (Hk : (k + l + 3 / 100) * u * (v * w) <= 1).
  { apply Rle_trans with (1000 * u * 1); [|num]. apply Rmult_le_compat; try lra; [apply Rmult_le_pos; [lra|num]|]. apply Rmult_le_compat_r; [num|lra]. }
  destruct (Bmult_ok x y (-2) 2 Fx Fy) as [Fm Vm]; try sm; [apply Rabs_le_inv in D; lra|].
  split; [exact Fm|]. change (x *. y) with (Bmult mode_NE x y). rewrite Vm.
  pose proof (rnd_rel _ (v * w) (k + l + 3 / 100) A ltac:(lra) ltac:(lra) D) as R. apply Rle_trans with (1 := R).
  apply Rmult_le_compat_r; [lra|]. apply Rmult_le_compat_r; [num|lra].
Qed.

Lemma rel_add x y v w k : rel x v k -> rel y w k -> 0 <= v -> 0 <= w -> away (v + w) -> v + w <= 2 -> 0 <= k <= 900 -> rel (x +. y) (v + w) (k + 102 / 100).
Proof.
  intros Rx Ry Hv Hw A B K. destruct Rx as [Fx Ex]. destruct Ry as [Fy Ey].
  assert (D : Rabs (fval x + fval y - (v + w)) <= k * u * (v + w)).
  { replace (fval x + fval y - (v + w)) with ((fval x - v) + (fval y - w)) by ring. eapply Rle_trans; [apply Rabs_triang|]. lra. }
  assert (Hk : k * u * (v + w) <= 1).
  { apply Rle_trans with (1000 * u * 2); [|num]. apply Rmult_le_compat; try lra; [apply Rmult_le_pos; [lra|num]|]. apply Rmult_le_compat_r; [num|lra]. }
  destruct (Bplus_ok x y (-4) 4 Fx Fy) as [Fm Vm]; try sm; [apply Rabs_le_inv in D; lra|].
  split; [exact Fm|]. change (x +. y) with (Bplus mode_NE x y). rewrite Vm.
  pose proof (rnd_rel _ (v + w) k A ltac:(lra) ltac:(lra) D) as R. apply Rle_trans with (1 := R).
  apply Rmult_le_compat_r; [lra|]. apply Rmult_le_compat_r; [num|lra].
Qed.

(** One minus a fraction. *)
Lemma rel_compl x n : is_byte n -> fin x -> fval x = q255 n -> rel ($1 -. x) (IZR (255 - n) / 255) 262.
Proof.
  intros H F E. destruct (fz_val o 1) as [F1 V1]; [sm|]. pose proof (q255_near n H) as [N U].
  destruct (Bminus_ok $1 x 0 1 F1 F) as [Fm Vm]; try sm; [rewrite V1, E; lra|].
  split; [exact Fm|]. change ($1 -. x) with (Bminus mode_NE $1 x). rewrite Vm, V1, E.
  assert (D : Rabs (1 - q255 n - IZR (255 - n) / 255) <= 2605 / 10 * u * (IZR (255 - n) / 255)).
  { rewrite <- frac_compl. destruct (Z.eq_dec n 255) as [->|NE].
    - rewrite (q_255 o). replace (1 - 1 - (1 - 255 / 255)) with 0 by field. rewrite Rabs_R0. lra.
    - assert (L : (n <= 254)%Z) by (destruct H; lia). apply IZR_le in L. pose proof (q_rel n H) as Q. pose proof (frac_byte n H) as B.
      apply Rabs_le_inv in Q. assert (K : u * (IZR n / 255) <= u * (254 / 255)) by (apply Rmult_le_compat_l; [num|lra]). set (f := IZR n / 255) in * .
      assert (f <= 254 / 255) by (unfold f; lra). clearbody f. apply Rabs_le. num. }
  pose proof (rnd_rel _ (IZR (255 - n) / 255) (2605 / 10) (away_1 _ (byte_255 n H)) ltac:(pose proof (frac_byte _ (byte_255 n H)); lra) ltac:(lra) D) as R.
  apply Rle_trans with (1 := R). apply Rmult_le_compat_r; [apply (frac_byte _ (byte_255 n H))|num].
Qed.

(** ** The weights *)
Section W.
Variables (us ud ub : bool) (i j : Z) (x y : f32).
Hypothesis (Hi : is_byte i) (Hj : is_byte j) (Fx : fin x) (Fy : fin y) (Ex : fval x = q255 i) (Ey : fval y = q255 j).
Local Notation a := (IZR i / 255).
Local Notation b := (IZR j / 255).
Definition w_s : R := a * (IZR (255 - j) / 255).
Definition w_d : R := b * (IZR (255 - i) / 255).
Definition w_b : R := a * b.

Lemma w_sum : w_s + w_d + w_b <= 1.
Proof. pose proof (frac_byte i Hi). pose proof (frac_byte j Hj). unfold w_s, w_d, w_b. rewrite <- !frac_compl. set (p := a) in * . set (q := b) in * . clearbody p q.
  assert (0 <= (1 - p) * (1 - q)) by (apply Rmult_le_pos; lra). lra. Qed.
Lemma frac2 m n : is_byte m -> is_byte n -> IZR m / 255 * (IZR n / 255) = 0 \/ / 65025 <= IZR m / 255 * (IZR n / 255).
Proof. intros Hm Hn. apply away_mul; apply frac_pos; assumption. Qed.
Lemma ws_step : w_s = 0 \/ / 65025 <= w_s.
Proof. apply frac2; [exact Hi|apply byte_255, Hj]. Qed.
Lemma wd_step : w_d = 0 \/ / 65025 <= w_d.
Proof. apply frac2; [exact Hj|apply byte_255, Hi]. Qed.
Lemma wb_step : w_b = 0 \/ / 65025 <= w_b.
Proof. apply frac2; [exact Hi|exact Hj]. Qed.
Lemma step_away w : w = 0 \/ / 65025 <= w -> away w.
Proof. unfold away. lra. Qed.
Lemma rel_ws : rel (x *. ($1 -. y)) w_s (2644 / 10).
Proof.
  pose proof (rel_mul _ _ _ _ _ _ (rel_byte x i Hi Fx Ex) (rel_compl y j Hj Fy Ey) (frac_byte i Hi) (frac_byte _ (byte_255 j Hj)) (step_away _ ws_step) ltac:(lra) ltac:(lra)) as R.
  eapply rel_weaken; [|exact R|lra]. pose proof ws_step. unfold w_s in * . lra.
Qed.
Lemma rel_wd : rel (y *. ($1 -. x)) w_d (2644 / 10).
Proof.
  pose proof (rel_mul _ _ _ _ _ _ (rel_byte y j Hj Fy Ey) (rel_compl x i Hi Fx Ex) (frac_byte j Hj) (frac_byte _ (byte_255 i Hi)) (step_away _ wd_step) ltac:(lra) ltac:(lra)) as R.
  eapply rel_weaken; [|exact R|lra]. pose proof wd_step. unfold w_d in * . lra.
Qed.
Lemma rel_wb : rel (x *. y) w_b (32 / 10).
Proof.
  pose proof (rel_mul _ _ _ _ _ _ (rel_byte x i Hi Fx Ex) (rel_byte y j Hj Fy Ey) (frac_byte i Hi) (frac_byte j Hj) (step_away _ wb_step) ltac:(lra) ltac:(lra)) as R.
  eapply rel_weaken; [|exact R|lra]. pose proof wb_step. unfold w_b in * . lra.
Qed.

(** ** Coverage *)
Definition on (f : bool) (w : R) : R := if f then w else 0.
Lemma coverage_w : coverage us ud ub a b = on us w_s + on ud w_d + on ub w_b.
Proof. unfold coverage, on, w_s, w_d, w_b. rewrite !frac_compl. reflexivity. Qed.
Lemma mixture_w s d t : mixture us ud ub a b s d t = on us w_s * s + on ud w_d * d + on ub w_b * t.
Proof. unfold mixture, on, w_s, w_d, w_b. rewrite !frac_compl. reflexivity. Qed.
Lemma on_step f w : (w = 0 \/ / 65025 <= w) -> on f w = 0 \/ / 65025 <= on f w.
Proof. destruct f; cbn [on]; auto. Qed.
Lemma on_le f w : 0 <= w -> 0 <= on f w <= w.
Proof. destruct f; cbn [on]; lra. Qed.
Lemma step_nonneg w : (w = 0 \/ / 65025 <= w) -> 0 <= w.
Proof. lra. Qed.

Lemma term (f : bool) (w : f32) W k (v : f32) V : rel w W k -> (W = 0 \/ / 65025 <= W) -> W <= 1 -> 0 <= k <= 300 ->
  rel v V (102 / 100) -> (V = 0 \/ / 255 <= V) -> V <= 1 -> rel (w *. (if f then v else $0)) (on f W * V) (k + 22 / 10).
Proof.
  intros Rw SW BW K Rv SV BV. destruct f; cbn [on].
  - eapply rel_weaken; [|apply (rel_mul w v W V k (102 / 100)); auto; try lra; apply away_mul3; auto|lra]. apply Rmult_le_pos; lra.
  - replace (0 * V) with (W * 0) by ring. eapply rel_weaken; [|apply (rel_mul w $0 W 0 k 0); auto; try lra; [apply rel_zero|left; ring]|lra]. rewrite Rmult_0_r. lra.
Qed.
Lemma away_add p q : away p -> away q -> away (p + q).
Proof. unfold away. lra. Qed.
Lemma weights : 0 <= w_s /\ 0 <= w_d /\ 0 <= w_b /\ w_s <= 1 /\ w_d <= 1 /\ w_b <= 1.
Proof. pose proof (step_nonneg _ ws_step). pose proof (step_nonneg _ wd_step). pose proof (step_nonneg _ wb_step). pose proof w_sum. lra. Qed.
Lemma cover_step : coverage us ud ub a b = 0 \/ / 65025 <= coverage us ud ub a b.
Proof. rewrite coverage_w. pose proof (on_step us _ ws_step). pose proof (on_step ud _ wd_step). pose proof (on_step ub _ wb_step). lra. Qed.
Lemma cover_le : coverage us ud ub a b <= 1.
Proof. rewrite coverage_w. pose proof w_sum. destruct weights as [A [B [C _]]]. pose proof (on_le us _ A). pose proof (on_le ud _ B). pose proof (on_le ub _ C). lra. Qed.

Lemma two_terms (sx dx : f32) S D : rel sx S (102 / 100) -> (S = 0 \/ / 255 <= S) -> S <= 1 -> rel dx D (102 / 100) -> (D = 0 \/ / 255 <= D) -> D <= 1 ->
  rel (x *. ($1 -. y) *. (if us then sx else $0) +. y *. ($1 -. x) *. (if ud then dx else $0)) (on us w_s * S + on ud w_d * D) 268.
Proof.
  intros RS SS BS RD SD BD. destruct weights as [A [B [C [A1 [B1 C1]]]]].
  pose proof (term us _ _ _ sx S rel_ws ws_step A1 ltac:(lra) RS SS BS) as R1. pose proof (term ud _ _ _ dx D rel_wd wd_step B1 ltac:(lra) RD SD BD) as R2.
  pose proof (away_mul3 _ _ (on_step us _ ws_step) SS) as W1. pose proof (away_mul3 _ _ (on_step ud _ wd_step) SD) as W2.
  pose proof (on_le us _ A). pose proof (on_le ud _ B). pose proof w_sum.
  assert (on us w_s * S <= w_s) by (apply Rle_trans with (w_s * 1); [apply Rmult_le_compat; lra|lra]).
  assert (on ud w_d * D <= w_d) by (apply Rle_trans with (w_d * 1); [apply Rmult_le_compat; lra|lra]).
  pose proof (away_nonneg _ W1). pose proof (away_nonneg _ W2).
  eapply rel_weaken; [|apply (rel_add _ _ _ _ _ R1 R2); auto; try lra; apply away_add; auto|lra]. lra.
Qed.
Lemma rel_alpha : rel (@blend_alpha f32 (F32 o) us ud ub x y) (coverage us ud ub a b) 270.
Proof.
  rewrite coverage_w. unfold blend_alpha, blend_sum. destruct weights as [A [B [C [A1 [B1 C1]]]]].
  pose proof (rel_weaken $1 1 0 (102 / 100) ltac:(lra) rel_one ltac:(lra)) as R1.
  pose proof (two_terms $1 $1 1 1 R1 ltac:(lra) ltac:(lra) R1 ltac:(lra) ltac:(lra)) as R2.
  pose proof (term ub _ _ _ $1 1 rel_wb wb_step C1 ltac:(lra) R1 ltac:(lra) ltac:(lra)) as R3.
  rewrite !Rmult_1_r in * . pose proof (on_le us _ A). pose proof (on_le ud _ B). pose proof (on_le ub _ C). pose proof w_sum.
  assert (R3' : rel (x *. y *. (if ub then $1 else $0)) (on ub w_b) 268) by (eapply rel_weaken; [|exact R3|]; lra).
  eapply rel_weaken; [|apply (rel_add _ _ _ _ _ R2 R3')|]; try lra.
  pose proof (step_away _ (on_step us _ ws_step)). pose proof (step_away _ (on_step ud _ wd_step)). pose proof (step_away _ (on_step ub _ wb_step)).
  apply away_add; [apply away_add|]; assumption.
Qed.

(** ** The blended term and the sum *)
Section T.
Variables (f : f32) (t et : R).
Hypothesis (Nf : near f t et) (He : 0 <= et <= 1402 * u) (Ht : -1 <= t <= 255) (Off : ub = false -> fval f = 0).
Lemma third : fin (x *. y *. f) /\ Rabs (fval (x *. y *. f) - on ub w_b * t) <= on ub w_b * (1001 / 1000 * et + 44 / 10 * u * Rabs t + u / 100).
Proof.
  destruct Nf as [Ff Ef]. destruct weights as [_ [_ [C [_ [_ C1]]]]]. pose proof rel_wb as [Fw Ew]. pose proof (rel_range _ _ _ rel_wb) as Bw.
  set (w := x *. y) in * . clearbody w.
  assert (Z0 : fval w * fval f = 0 -> on ub w_b = 0 -> fin (w *. f) /\ Rabs (fval (w *. f) - on ub w_b * t) <= on ub w_b * (1001 / 1000 * et + 44 / 10 * u * Rabs t + u / 100)).
  { intros P O. destruct (Bmult_ok w f 0 0 Fw Ff) as [Fm Vm]; try sm; [lra|]. split; [exact Fm|].
    change (w *. f) with (Bmult mode_NE w f). rewrite Vm, P, rnd32_0, O, !Rmult_0_l. replace (0 - 0) with 0 by ring. rewrite Rabs_R0. lra. }
  destruct (Bool.bool_dec ub true) as [U|U].
  2: { apply Bool.not_true_is_false in U. apply Z0; [rewrite (Off U); ring|rewrite U; reflexivity]. }
  destruct wb_step as [W0|W1].
  { apply Z0; [|rewrite U; exact W0]. rewrite W0 in Ew. rewrite Rmult_0_r in Ew. apply Rabs_le_inv in Ew. replace (fval w) with 0 by lra. ring. }
  clear Z0 Off. rewrite U. cbn [on]. set (W := w_b) in * . clearbody W.
  assert (At : Rabs t <= 255) by (apply Rabs_le; lra). pose proof (Rabs_pos t) as Pt.
  assert (D : Rabs (fval w * fval f - W * t) <= W * (1 + 32 / 10 * u) * et + 32 / 10 * u * W * Rabs t).
  { replace (fval w * fval f - W * t) with (fval w * (fval f - t) + (fval w - W) * t) by ring. eapply Rle_trans; [apply Rabs_triang|]. rewrite !Rabs_mult.
    apply Rplus_le_compat; [|apply Rmult_le_compat_r; assumption]. apply Rmult_le_compat; try apply Rabs_pos; [|exact Ef]. rewrite Rabs_pos_eq by num. lra. }
  set (z := fval w * fval f) in * . 
  assert (WT : 0 <= W * Rabs t) by (apply Rmult_le_pos; lra). assert (WE : 0 <= W * et) by (apply Rmult_le_pos; lra).
  assert (WE1 : W * et <= et) by (rewrite <- (Rmult_1_l et) at 2; apply Rmult_le_compat_r; lra).
  assert (WT1 : W * Rabs t <= 255) by (rewrite <- (Rmult_1_l 255); apply Rmult_le_compat; lra).
  assert (Bz : Rabs z <= W * Rabs t + (W * (1 + 32 / 10 * u) * et + 32 / 10 * u * W * Rabs t)).
  { replace z with ((z - W * t) + W * t) by ring. eapply Rle_trans; [apply Rabs_triang|]. rewrite (Rabs_mult W), (Rabs_pos_eq W) by lra. lra. }
  pose proof (rnd_err z) as RE.
  destruct (Bmult_ok w f (-300) 300 Fw Ff) as [Fm Vm]; try sm.
  { change (fval w * fval f) with z. clearbody z. assert (Rabs z <= 300) by num. apply Rabs_le_inv in H. lra. }
  split; [exact Fm|]. change (w *. f) with (Bmult mode_NE w f). rewrite Vm. change (fval w * fval f) with z. clearbody z.
  replace (rnd32 z - W * t) with ((rnd32 z - z) + (z - W * t)) by ring. eapply Rle_trans; [apply Rabs_triang|].
  replace (W * (1001 / 1000 * et + 44 / 10 * u * Rabs t + u / 100)) with (1001 / 1000 * (W * et) + 44 / 10 * u * (W * Rabs t) + u / 100 * W) by (unfold Rdiv; ring).
  replace (W * (1 + 32 / 10 * u) * et + 32 / 10 * u * W * Rabs t) with ((1 + 32 / 10 * u) * (W * et) + 32 / 10 * u * (W * Rabs t)) in * by ring.
  set (P := W * et) in * . set (Q := W * Rabs t) in * . clearbody P Q. num.
Qed.

Variables (s d : Z) (sx dx : f32).
Hypothesis (Hs : is_byte s) (Hd : is_byte d) (Fs : fin sx) (Fd : fin dx) (Es : fval sx = q255 s) (Ed : fval dx = q255 d).
Local Notation S := (IZR s / 255).
Local Notation D := (IZR d / 255).
Local Notation cov := (coverage us ud ub a b).
Local Notation mix := (mixture us ud ub a b S D t).
Lemma sum_err : fin (@blend_sum f32 (F32 o) us ud x y sx dx f) /\
  Rabs (fval (@blend_sum f32 (F32 o) us ud x y sx dx f) - mix) <= (275 * u + 1002 / 1000 * et) * cov + 6 * u * Rmax 0 mix.
Proof.
  unfold blend_sum.
  pose proof (two_terms sx dx S D (rel_byte sx s Hs Fs Es) (frac_pos s Hs) (proj2 (frac_byte s Hs)) (rel_byte dx d Hd Fd Ed) (frac_pos d Hd) (proj2 (frac_byte d Hd))) as R2.
  destruct third as [F3 E3]. destruct R2 as [F2 E2]. rewrite mixture_w. pose proof cover_step as CS. pose proof cover_le as CL. rewrite coverage_w in * .
  destruct weights as [A [B [C [A1 [B1 C1]]]]]. pose proof (on_le us _ A) as OA. pose proof (on_le ud _ B) as OB. pose proof (on_le ub _ C) as OC.
  pose proof (frac_byte s Hs) as BS. pose proof (frac_byte d Hd) as BD.
  set (p := on us w_s) in * . set (q := on ud w_d) in * . set (r := on ub w_b) in * .
  set (X := x *. ($1 -. y) *. (if us then sx else $0) +. y *. ($1 -. x) *. (if ud then dx else $0)) in * . set (Y := x *. y *. f) in * .
  assert (MS : 0 <= p * S <= p) by (split; [apply Rmult_le_pos; lra|rewrite <- (Rmult_1_r p) at 2; apply Rmult_le_compat_l; lra]).
  assert (MD : 0 <= q * D <= q) by (split; [apply Rmult_le_pos; lra|rewrite <- (Rmult_1_r q) at 2; apply Rmult_le_compat_l; lra]).
  set (m := p * S + q * D) in * . assert (Bm : 0 <= m <= p + q) by (unfold m; lra).
  set (N := m + r * t) in * . set (Np := Rmax 0 N).
  assert (HN : 0 <= Np /\ N <= Np) by (unfold Np; split; [apply Rmax_l|apply Rmax_r]).
  assert (RT : r * Rabs t <= (p + q + r) + Np /\ Rabs N <= (p + q + r) + Np).
  { destruct (Rle_dec 0 t) as [P|P].
    - assert (0 <= r * t) by (apply Rmult_le_pos; lra). rewrite (Rabs_pos_eq t) by lra. rewrite (Rabs_pos_eq N) by (unfold N; lra). unfold N in *; lra.
    - assert (K : - r <= r * t <= 0). { split; [replace (- r) with (r * -1) by ring|rewrite <- (Rmult_0_r r)]; apply Rmult_le_compat_l; lra. }
      rewrite (Rabs_left1 t) by lra. split; [lra|]. apply Rabs_le. unfold N in * . lra. }
  assert (Np1 : Np <= 256).
  { assert (r * t <= r * 255) by (apply Rmult_le_compat_l; lra). unfold Np. apply Rmax_lub; [lra|]. unfold N. lra. }
  assert (NpN : N = 0 -> Np = 0) by (intros E0; unfold Np; rewrite E0; apply Rmax_left; lra).
  destruct RT as [RT AN]. clearbody Np. assert (EN : N = m + r * t) by reflexivity. clearbody N. clearbody m. clearbody p q r X Y.
  assert (RE : 0 <= r * et <= (p + q + r) * et) by (split; [apply Rmult_le_pos; lra|apply Rmult_le_compat_r; lra]).
  assert (RT0 : 0 <= r * Rabs t) by (apply Rmult_le_pos; [lra|apply Rabs_pos]).
  assert (Hmul : r * (1001 / 1000 * et + 44 / 10 * u * Rabs t + u / 100) = 1001 / 1000 * (r * et) + 44 / 10 * u * (r * Rabs t) + u / 100 * r) by (unfold Rdiv; ring).
  rewrite Hmul in E3. clear Hmul.
  assert (CE : (p + q + r) * et <= et) by (rewrite <- (Rmult_1_l et) at 2; apply Rmult_le_compat_r; lra).
  set (c := p + q + r) in * .
  assert (DX : Rabs (fval X + fval Y - N) <= (2725 / 10 * u + 1001 / 1000 * et) * c + 44 / 10 * u * Np).
  { rewrite EN. replace (fval X + fval Y - (m + r * t)) with ((fval X - m) + (fval Y - r * t)) by ring. eapply Rle_trans; [apply Rabs_triang|]. 
    assert (r <= c) by (unfold c; lra). assert (m <= c) by (unfold c; lra). set (ret := r * et) in * . set (rat := r * Rabs t) in * . set (ce := c * et) in * .
    replace ((2725 / 10 * u + 1001 / 1000 * et) * c) with (2725 / 10 * u * c + 1001 / 1000 * ce) by (unfold ce; ring). clearbody ret rat ce c. num. }
  clear E2 E3 RE RT RT0. set (z := fval X + fval Y) in * .
  replace ((2725 / 10 * u + 1001 / 1000 * et) * c) with (2725 / 10 * u * c + 1001 / 1000 * (c * et)) in DX by ring.
  replace ((275 * u + 1002 / 1000 * et) * c) with (275 * u * c + 1002 / 1000 * (c * et)) by ring.
  assert (CE0 : 0 <= c * et) by (apply Rmult_le_pos; [unfold c|]; lra). set (ce := c * et) in * .
  assert (Bz : Rabs z <= Rabs N + Rabs (z - N)). { replace z with (N + (z - N)) at 1 by ring. apply Rabs_triang. }
  assert (C0 : 0 <= c) by (unfold c; lra).
  destruct (Bplus_ok X Y (-600) 600 F2 F3) as [Fm Vm]; try sm.
  { change (fval X + fval Y) with z. clearbody z ce c. assert (Rabs z <= 600) by num. apply Rabs_le_inv in H. lra. }
  split; [exact Fm|]. change (X +. Y) with (Bplus mode_NE X Y). rewrite Vm. change (fval X + fval Y) with z.
  destruct CS as [C00|CS].
  - assert (ce = 0) as -> by (unfold ce; rewrite C00; ring). rewrite C00 in * . assert (N = 0).
    { assert (r = 0) by (unfold c in * ; lra). assert (m = 0) by (unfold c in * ; lra). rewrite EN, H, H0. ring. }
    assert (Np = 0) by auto. clearbody z. rewrite H, H0 in * . assert (Rabs (z - 0) <= 0) by lra. assert (z = 0) by (apply Rabs_le_inv in H1; lra). rewrite H2, rnd32_0.
    replace (0 - 0) with 0 by ring. rewrite Rabs_R0. lra.
  - pose proof (rnd_err z) as RE. replace (rnd32 z - N) with ((rnd32 z - z) + (z - N)) by ring. eapply Rle_trans; [apply Rabs_triang|]. clearbody z ce c. num.
Qed.
End T.
End W.
End V.
