(** * Rounding errors of the conversions from HSV, HSL and HCY to RGB *)
From Coq Require Import ZArith QArith Reals Lra Lia List Bool.
From Flocq Require Import Core IEEE754.BinarySingleNaN.
From Verif Require Import Arith Outcome ColorModel GammaModel MatrixModel SpaceModel Heap Converter F32 F32Facts RArith
  Spec Spec32 Laws NormalForms Alpha8 Core_Proofs Core2_Proofs Core3_Proofs Core4_Proofs Hue32 Spec_Matrix Spec_Conv Spec_Round
  Conv_Proofs Conv2_Proofs Run_Proofs HueR_Proofs Round_Proofs Error_Proofs Error2_Proofs.
Import ListNotations.
Local Open Scope R_scope.
Local Notation fin x := (is_finite x = true).

(** The periodic functions of the hue do not jump. *)
Lemma min_lip a b c d e : Rabs (a - b) <= e -> Rabs (c - d) <= e -> Rabs (Rmin a c - Rmin b d) <= e.
Proof. intros H1 H2. apply Rabs_le_inv in H1, H2. apply Rabs_le. unfold Rmin. destruct (Rle_dec a c), (Rle_dec b d); lra. Qed.
Lemma max_lip a b c d e : Rabs (a - b) <= e -> Rabs (c - d) <= e -> Rabs (Rmax a c - Rmax b d) <= e.
Proof. intros H1 H2. apply Rabs_le_inv in H1, H2. apply Rabs_le. unfold Rmax. destruct (Rle_dec a c), (Rle_dec b d); lra. Qed.
Ltac lip := repeat (apply min_lip || apply max_lip); apply Rabs_le; lra.
Lemma phi_lip a b e : Rabs (a - b) <= e -> Rabs (phi a - phi b) <= e.
Proof. intros H. apply Rabs_le_inv in H. unfold phi. lip. Qed.
Lemma phi_mod t T e : 0 <= t < 12 -> 0 <= T < 12 -> Rabs (t - T) <= e -> e <= 1 -> Rabs (phi (Rfmod t 6) - phi (Rfmod T 6)) <= e.
Proof.
  intros Ht HT H He.
  assert (Z : forall a b, 5 <= a < 6 -> 6 <= b < 7 -> b - a <= e -> Rabs (phi a - phi (b - 6)) <= e).
  { intros a b Ha Hb Hab. unfold phi. rewrite (Rmin_right a) by (apply Rle_trans with (4 - a); [apply Rmin_l|lra]).
    rewrite (Rmin_left (4 - a)) by lra. rewrite (Rmax_right (4 - a)) by lra. rewrite (Rmin_right (4 - (b - 6)) 1) by lra. rewrite (Rmin_left (b - 6)) by lra.
    rewrite (Rmax_left (b - 6)) by lra. apply Rabs_le. lra. }
  pose proof (Rabs_le_inv _ _ H) as I.
  destruct (Rlt_le_dec t 6), (Rlt_le_dec T 6).
  - rewrite !Rfmod_0 by lra. apply phi_lip, H.
  - rewrite Rfmod_0, Rfmod_1 by lra. apply Z; lra.
  - rewrite Rfmod_1, Rfmod_0 by lra. rewrite Rabs_minus_sym. apply Z; lra.
  - rewrite !Rfmod_1 by lra. apply phi_lip. replace (t - 6 - (T - 6)) with (t - T) by ring. exact H.
Qed.
Lemma psi_lip a b e : Rabs (a - b) <= e -> Rabs (psi a - psi b) <= e.
Proof. intros H. apply Rabs_le_inv in H. unfold psi. lip. Qed.
Lemma psi_mod t T e : 0 <= t < 24 -> 0 <= T < 24 -> Rabs (t - T) <= e -> e <= 1 -> Rabs (psi (Rfmod t 12) - psi (Rfmod T 12)) <= e.
Proof.
  intros Ht HT H He. assert (P : 0 <= e) by (pose proof (Rabs_pos (t - T)); lra).
  assert (Z : forall a b, 11 <= a < 12 -> 12 <= b < 13 -> b - a <= e -> Rabs (psi a - psi (b - 12)) <= e).
  { intros a b Ha Hb Hab. unfold psi.
    rewrite (Rmin_left (9 - a)), (Rmin_right (a - 3)), (Rmax_right (9 - a)) by lra.
    rewrite (Rmin_left (b - 12 - 3)) by (apply Rmin_glb; lra). rewrite Rmax_right by lra. apply Rabs_le. lra. }
  pose proof (Rabs_le_inv _ _ H) as I.
  destruct (Rlt_le_dec t 12), (Rlt_le_dec T 12).
  - rewrite !Rfmod_0 by lra. apply psi_lip, H.
  - rewrite Rfmod_0, Rfmod_1 by lra. apply Z; lra.
  - rewrite Rfmod_1, Rfmod_0 by lra. rewrite Rabs_minus_sym. apply Z; lra.
  - rewrite !Rfmod_1 by lra. apply psi_lip. replace (t - 12 - (T - 12)) with (t - T) by ring. exact H.
Qed.
Lemma phi_unit k : 0 <= phi k <= 1.
Proof. unfold phi. split; [apply Rmax_r|]. apply Rmax_lub; [|lra]. apply Rle_trans with (1 := Rmin_r _ _), Rmin_r. Qed.
Lemma psi_unit k : -1 <= psi k <= 1.
Proof. unfold psi. split; [apply Rmax_r|]. apply Rmax_lub; [|lra]. apply Rle_trans with (1 := Rmin_r _ _), Rmin_r. Qed.

Section E.
Context (o : oracle).
Local Notation "x +. y" := (@fadd f32 (F32 o) x y) (at level 50, left associativity).
Local Notation "x -. y" := (@fsub f32 (F32 o) x y) (at level 50, left associativity).
Local Notation "x *. y" := (@fmul f32 (F32 o) x y) (at level 40, left associativity).
Local Notation "x /. y" := (@fdiv f32 (F32 o) x y) (at level 40, left associativity).
Local Notation "$ n" := (fz (H := F32 o) n) (at level 2).

Lemma near_move x a b e d : near x a e -> Rabs (a - b) <= d -> near x b (e + d).
Proof. intros [F E] D. split; [exact F|]. replace (fval x - b) with ((fval x - a) + (a - b)) by ring. apply Rle_trans with (1 := Rabs_triang _ _). lra. Qed.

(** A sum of a small integer and a scaled hue, modulo the period. *)
Lemma angle (h : f32) H e n d : near h H e -> 0 <= fval h <= 359 -> 0 <= H <= 359 -> 0 <= e <= 1 -> (0 <= n <= 8)%Z -> (d = 30 \/ d = 60)%Z ->
  let t := $n +. (h /. $d) in
  near t (IZR n + H / IZR d) (e / IZR d + 34 * u) /\ 0 <= fval t.
Proof.
  intros N Bf BH He Hn Hd t.
  assert (Dv : 1 <= IZR d <= 1000 /\ 0 <= H / IZR d <= 12).
  { destruct Hd; subst d; lra. }
  assert (Nn : 0 <= IZR n <= 8) by (split; apply IZR_le; lia).
  assert (Q : near (h /. $d) (H / IZR d) (e / IZR d + 121 / 10 * u)).
  { eapply near_weaken; [apply (near_quot o h H e d 12 N)|]; [destruct Hd; lia|apply Rabs_le; lra|destruct Hd; subst d; lra|destruct Hd; subst d; num]. }
  assert (S : near t (IZR n + H / IZR d) (e / IZR d + 34 * u)).
  { eapply near_weaken; [apply (near_add o $n _ (IZR n) (H / IZR d) 0 (e / IZR d + 121 / 10 * u) 20)|]; [apply near_fz; sm|exact Q|apply Rabs_le; lra|destruct Hd; subst d; num|destruct Hd; subst d; num]. }
  split; [exact S|].
  assert (P : 0 <= fval (h /. $d)).
  { destruct (fz_val o d) as [Fd Vd]; [destruct Hd; subst d; sm|].
    destruct (Bdiv_ok h $d (-1000) 1000 (proj1 N) Fd) as [_ V]; try sm; [rewrite Vd; lra|rewrite Vd; destruct Hd; subst d; lra|].
    change (fval (h /. $d)) with (fval (Bdiv mode_NE h $d)). rewrite V. apply rnd_pos0. rewrite Vd. apply Rmult_le_pos; [lra|]. left. apply Rinv_0_lt_compat. lra. }
  destruct (fz_val o n) as [Fn Vn]; [sm|]. pose proof (near_range _ _ _ Q) as RQ.
  destruct (Bplus_ok $n (h /. $d) (-1000) 1000 Fn (proj1 Q)) as [_ V]; try sm; [rewrite Vn; destruct Hd; subst d; num|].
  change (fval t) with (fval (Bplus mode_NE $n (h /. $d))). rewrite V. apply rnd_pos0. rewrite Vn. lra.
Qed.

Lemma hsv_helper_close (h s v : f32) H S V e n : near h H (900 * u) -> 0 <= fval h <= 359 -> 0 <= H <= 359 ->
  near s S e -> 0 <= e <= 4 * u -> fin v -> V = fval v -> 0 <= S <= 1 -> 0 <= V <= 1 -> (n = 1 \/ n = 3 \/ n = 5)%Z ->
  near (@hsv_to_rgb_helper f32 (F32 o) h s v $n) (hsv_to_rgb_helper (AF := RArith) H S V (IZR n)) (64 * u).
Proof.
  intros Nh Bh BH Ns He Fv EV BS BV Hn. rewrite hsv_helper. unfold hsv_to_rgb_helper.
  destruct (angle h H (900 * u) n 60 Nh Bh BH ltac:(num) ltac:(lia) ltac:(lia)) as [T P].
  set (t := $n +. (h /. $60)) in * . set (T0 := IZR n + H / 60) in * .
  pose proof (near_range _ _ _ T) as RT. assert (BT : 0 <= T0 <= 11) by (unfold T0; destruct Hn as [->|[->| ->]]; lra).
  destruct (fmod_once o t 6 (proj1 T) ltac:(lia)) as [Fk Vk]; [num|].
  set (k := @ffmod f32 (F32 o) t $6) in * .
  assert (Bk : 0 <= fval k <= 6).
  { rewrite Vk. destruct (Rlt_le_dec (fval t) 6); [rewrite Rfmod_0 by lra|rewrite Rfmod_1 by num]; num. }
  assert (S4 : near ($4 -. k) (4 - fval k) (41 / 10 * u)).
  { eapply near_weaken; [apply (near_sub o $4 k 4 (fval k) 0 0 4)|]; [apply near_fz; sm|apply near_self, Fk|apply Rabs_le; lra|lra|num]. }
  assert (P1 : near (@fmax f32 (F32 o) (@fmin f32 (F32 o) k (@fmin f32 (F32 o) ($4 -. k) $1)) $0) (phi (fval k)) (41 / 10 * u)).
  { unfold phi. apply near_max; [apply near_min; [eapply near_weaken; [apply near_self, Fk|num]|apply near_min; [exact S4|]]|];
      eapply near_weaken; try (apply near_fz; sm); num. }
  assert (P2 : near (@fmax f32 (F32 o) (@fmin f32 (F32 o) k (@fmin f32 (F32 o) ($4 -. k) $1)) $0) (phi (Rfmod T0 6)) (54 * u)).
  { eapply near_weaken; [eapply near_move; [exact P1|]|].
    - rewrite Vk. apply (phi_mod (fval t) T0 (900 * u / 60 + 34 * u)); [num|lra|exact (proj2 T)|num].
    - num. }
  set (f := @fmax f32 (F32 o) _ _) in * . pose proof (phi_unit (Rfmod T0 6)) as BF. set (ph := phi (Rfmod T0 6)) in * .
  assert (VS : 0 <= V * S <= 1) by (apply mul01; lra).
  assert (M1 : near (v *. s) (V * S) (51 / 10 * u)).
  { eapply near_weaken; [apply (near_mul o v s V S 0 e 1 1 1)|]; [rewrite EV; apply near_self, Fv|exact Ns|apply Rabs_le; lra|apply Rabs_le; lra|apply Rabs_le; lra|num|num]. }
  assert (VSP : 0 <= V * S * ph <= 1) by (apply mul01; lra).
  assert (M2 : near (v *. s *. f) (V * S * ph) (61 * u)).
  { eapply near_weaken; [apply (near_mul o _ f (V * S) ph (51 / 10 * u) (54 * u) 1 1 1)|]; [exact M1|exact P2|apply Rabs_le; lra|apply Rabs_le; lra|apply Rabs_le; lra|num|num]. }
  assert (L : V * S * ph <= V). { rewrite <- (Rmult_1_r V) at 2. rewrite Rmult_assoc. apply Rmult_le_compat_l; [lra|]. destruct (mul01 S ph); lra. }
  cbv zeta. fold k. fold f.
  eapply near_weaken; [apply (near_sub o v _ V (V * S * ph) 0 (61 * u) 1)|]; [rewrite EV; apply near_self, Fv|exact M2|apply Rabs_le; lra|num|num].
Qed.
End E.
