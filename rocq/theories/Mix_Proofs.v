(** * Sums, mixtures and differences in binary32 (C178, C179) *)
From Coq Require Import ZArith QArith Reals Lra Lia List Bool.
From Flocq Require Import Core IEEE754.BinarySingleNaN.
From Verif Require Import Arith Outcome ColorModel GammaModel MatrixModel SpaceModel Heap Converter Calculation F32 F32Facts RArith
  Spec Spec32 Laws NormalForms Alpha8 Core_Proofs Core2_Proofs Core3_Proofs Core4_Proofs Hue32 Spec_Matrix Spec_Conv Spec_Calc Spec_Round
  Conv_Proofs Conv2_Proofs Conv3_Proofs Run_Proofs Round_Proofs Round2_Proofs Error_Proofs Error2_Proofs Error4_Proofs Error5_Proofs Error7_Proofs Error8_Proofs Spec_Error
  Calc_Proofs Calc2_Proofs Calc3_Proofs Spec_Formula Spec_Sum Spec_Rank Spec_Mix Byte3_Proofs Rank_Proofs Tame_Proofs.
Import ListNotations.
Local Open Scope R_scope.

Local Notation fin x := (is_finite x = true).
Local Notation fval := (@B2R 24 128).

Lemma sqrt_close S N k d : 0 <= S -> 0 <= N -> 0 <= d -> 0 <= k <= 40 -> Rabs (S - N) <= k * u * N + d * d -> Rabs (sqrt S - sqrt N) <= (k / 2 + / 10) * u * sqrt N + d.
Proof.
  intros PS PN Pd K E. apply Rabs_le_inv in E. pose proof (sqrt_pos N) as QN. pose proof (sqrt_pos S) as QS.
  assert (A : sqrt S * sqrt S = S) by (apply sqrt_sqrt; exact PS). assert (B : sqrt N * sqrt N = N) by (apply sqrt_sqrt; exact PN).
  set (a := sqrt S) in * . set (b := sqrt N) in * . clearbody a b. subst S N.
  assert (KU : 0 <= k * u <= 40 * u) by (split; [apply Rmult_le_pos; num|apply Rmult_le_compat_r; num]).
  assert (Ub : 0 <= u * b) by (apply Rmult_le_pos; [num|lra]).
  set (t := (k / 2 + / 10) * u). assert (T : 2 * t = k * u + u / 5) by (unfold t; field). assert (T0 : 0 <= t <= 21 * u) by num. clearbody t.
  assert (BB : 0 <= b * b) by (apply Rle_0_sqr). assert (TB : 0 <= t * b) by (apply Rmult_le_pos; lra).
  assert (TT : 0 <= t * t <= u / 5).
  { split; [apply Rle_0_sqr|]. apply Rle_trans with (21 * u * (21 * u)); [apply Rmult_le_compat; lra|num]. }
  apply Rabs_le. split.
  - apply Rnot_lt_le. intros C. assert (L : a + d < b * (1 - t)) by lra.
    assert (Q : (a + d) * (a + d) < b * (1 - t) * (b * (1 - t))) by (apply Rmult_le_0_lt_compat; lra).
    assert (AD : 0 <= a * d) by (apply Rmult_le_pos; lra).
    replace (b * (1 - t) * (b * (1 - t))) with (b * b - 2 * t * (b * b) + t * t * (b * b)) in Q by ring. rewrite T in Q.
    assert (t * t * (b * b) <= u / 5 * (b * b)) by (apply Rmult_le_compat_r; lra). lra.
  - apply Rnot_lt_le. intros C. assert (L : b * (1 + t) + d < a) by lra.
    assert (Z1 : 0 <= b * (1 + t)) by (apply Rmult_le_pos; lra).
    assert (Q : (b * (1 + t) + d) * (b * (1 + t) + d) < a * a) by (apply Rmult_le_0_lt_compat; lra).
    assert (AD : 0 <= b * (1 + t) * d) by (apply Rmult_le_pos; lra).
    replace ((b * (1 + t) + d) * (b * (1 + t) + d)) with (b * b + 2 * t * (b * b) + t * t * (b * b) + 2 * (b * (1 + t) * d) + d * d) in Q by ring. rewrite T in Q.
    assert (0 <= t * t * (b * b)) by (apply Rmult_le_pos; lra). assert (0 <= u / 5 * (b * b)) by (apply Rmult_le_pos; [num|lra]). lra.
Qed.

Section X.
Variable o : oracle.
Hypothesis AS : accurate_square o.
Hypothesis PO : positive_square o.
Local Notation "$ n" := (@fz f32 (F32 o) n) (at level 0, n at level 0, format "$ n").
Local Notation "x +. y" := (@fadd f32 (F32 o) x y) (at level 50, left associativity).
Local Notation "x -. y" := (@fsub f32 (F32 o) x y) (at level 50, left associativity).
Local Notation "x *. y" := (@fmul f32 (F32 o) x y) (at level 40, left associativity).
Local Notation "x /. y" := (@fdiv f32 (F32 o) x y) (at level 40, left associativity).
Local Notation sq x := (@fpow f32 (F32 o) x (@fz f32 (F32 o) 2)).

(** [w] stands for the weight [v]: itself, or the rounded [1 - v]. *)
Definition weight (w : f32) (v : R) : Prop := fin w /\ 0 <= fval w <= 1 /\ 0 <= v <= 1 /\ Rabs (fval w - v) <= u * v.
Lemma weight_self w : in_interval 0 1 w -> weight w (fval w).
Proof.
  intros [F B]. change (@B2R 24 128) with fval in B. split; [exact F|]. split; [exact B|]. split; [exact B|]. replace (fval w - fval w) with 0 by ring. rewrite Rabs_R0.
  apply Rmult_le_pos; [num|lra].
Qed.
Lemma weight_rest w : in_interval 0 1 w -> weight ($1 -. w) (1 - fval w).
Proof.
  intros [F B]. change (@B2R 24 128) with fval in B. destruct (fz_val o 1) as [F1 V1]; [sm|].
  destruct (Bminus_ok $1 w 0 1 F1 F) as [Fd Vd]; try sm; [rewrite V1; lra|]. rewrite V1 in Vd. change ($1 -. w) with (Bminus mode_NE $1 w). split; [exact Fd|]. rewrite Vd.
  split; [apply (rnd32_bounds _ 0 1); try sm; lra|]. split; [lra|]. destruct (rnd_minus $1 w) as [e [He E]]. rewrite V1 in E. rewrite E.
  replace ((1 - fval w) * (1 + e) - (1 - fval w)) with (e * (1 - fval w)) by ring. rewrite Rabs_mult, (Rabs_pos_eq (1 - fval w)) by lra. apply Rmult_le_compat_r; lra.
Qed.

Lemma times w v a T : weight w v -> fin a -> Rabs (fval a) <= T -> 1 <= T <= 255 -> near (w *. a) (v * fval a) (21 / 10 * u * T).
Proof.
  intros [Fw [Bw [Bv Ew]]] Fa Ba HT. assert (M : Rabs (v * fval a) <= T).
  { rewrite Rabs_mult, (Rabs_pos_eq v) by lra. rewrite <- (Rmult_1_l T). apply Rmult_le_compat; try lra. apply Rabs_pos. }
  assert (UV : u * v <= u * 1) by (apply Rmult_le_compat_l; [num|lra]).
  assert (N : near w v (101 / 100 * u)) by (split; [exact Fw|]; apply Rle_trans with (1 := Ew); num).
  assert (TU : tiny <= u / 100 * T) by num.
  eapply near_weaken; [apply (near_mul o w a v (fval a) _ 0 1 T T N (near_self _ Fa)); [rewrite Rabs_pos_eq; lra|exact Ba|exact M|]|]; num.
Qed.
Lemma lin_near w1 w2 v1 v2 a b T : weight w1 v1 -> weight w2 v2 -> fin a -> fin b -> Rabs (fval a) <= T -> Rabs (fval b) <= T -> 1 <= T <= 255 ->
  near (@add_lin f32 (F32 o) w1 w2 a b) (v1 * fval a + v2 * fval b) (7 * u * T).
Proof.
  intros W1 W2 Fa Fb Ba Bb HT. pose proof (times _ _ _ _ W1 Fa Ba HT) as N1. pose proof (times _ _ _ _ W2 Fb Bb HT) as N2.
  assert (M : Rabs (v1 * fval a + v2 * fval b) <= 2 * T).
  { destruct W1 as [_ [_ [B1 _]]]. destruct W2 as [_ [_ [B2 _]]]. eapply Rle_trans; [apply Rabs_triang|]. rewrite !Rabs_mult, (Rabs_pos_eq v1), (Rabs_pos_eq v2) by lra.
    assert (v1 * Rabs (fval a) <= 1 * T) by (apply Rmult_le_compat; try lra; apply Rabs_pos). assert (v2 * Rabs (fval b) <= 1 * T) by (apply Rmult_le_compat; try lra; apply Rabs_pos). lra. }
  unfold add_lin. eapply near_weaken; [apply (near_add o _ _ _ _ _ _ (2 * T) N1 N2 M)|]; num.
Qed.
Lemma sub_near w v a b T : weight w v -> fin a -> fin b -> Rabs (fval a) <= T -> Rabs (fval b) <= T -> 1 <= T <= 255 ->
  near (@sub_lin f32 (F32 o) w a b) (fval a - v * fval b) (5 * u * T).
Proof.
  intros W Fa Fb Ba Bb HT. pose proof (times _ _ _ _ W Fb Bb HT) as N.
  assert (M : Rabs (fval a - v * fval b) <= 2 * T).
  { destruct W as [_ [_ [B _]]]. assert (v * Rabs (fval b) <= 1 * T) by (apply Rmult_le_compat; try lra; apply Rabs_pos).
    unfold Rminus. eapply Rle_trans; [apply Rabs_triang|]. rewrite Rabs_Ropp, Rabs_mult, (Rabs_pos_eq v) by lra. lra. }
  unfold sub_lin. eapply near_weaken; [apply (near_sub o _ _ _ _ _ _ (2 * T) (near_self _ Fa) N M)|]; num.
Qed.

(** One weighted square. *)
Lemma part w v a T : weight w v -> fin a -> 0 <= fval a <= T -> 1 <= T <= 255 ->
  fin (w *. sq a) /\ 0 <= fval (w *. sq a) <= 2 * (T * T) /\ Rabs (fval (w *. sq a) - v * (fval a * fval a)) <= 1811 / 100 * u * (v * (fval a * fval a)) + / 2 ^ 58.
Proof.
  intros [Fw [Bw [Bv Ew]]] Fa Ba HT. assert (L : Rabs (fval a) <= 1024) by (rewrite Rabs_pos_eq; lra).
  destruct (AS a Fa L) as [Fs [_ Es]]. pose proof (PO a Fa L) as Ps. change (o_pow o a $2) with (sq a) in * . change (@B2R 24 128) with fval in * .
  set (s := sq a) in * . clearbody s. assert (Q : 0 <= fval a * fval a) by apply Rle_0_sqr.
  assert (QT : fval a * fval a <= T * T) by (apply Rmult_le_compat; lra). assert (TT : 1 <= T * T <= 65025) by (split; [rewrite <- (Rmult_1_l 1) at 1|apply Rle_trans with (255 * 255); [|lra]]; apply Rmult_le_compat; lra).
  set (q := fval a * fval a) in * . clearbody q.
  replace (/ 2 ^ 60) with (/ 1152921504606846976) in Es by (f_equal; simpl; ring). replace (/ 2 ^ 58) with (/ 288230376151711744) by (f_equal; simpl; ring).
  apply Rabs_le_inv in Es. assert (Us : fval s <= q + 16 * u * q + / 1152921504606846976) by num.
  assert (W0 : 0 <= fval w * fval s) by (apply Rmult_le_pos; lra).
  assert (W1 : fval w * fval s <= 1 * fval s) by (apply Rmult_le_compat_r; lra).
  destruct (Bmult_ok w s 0 100000 Fw Fs) as [Fm Vm]; try sm; [num|]. change (w *. s) with (Bmult mode_NE w s). split; [exact Fm|]. rewrite Vm.
  pose proof (rnd_err (fval w * fval s)) as R. rewrite (Rabs_pos_eq (fval w * fval s)) in R by exact W0. apply Rabs_le_inv in R.
  split; [split; [apply rnd_nonneg, W0|num]|].
  assert (VQ : 0 <= v * q <= q) by (split; [apply Rmult_le_pos; lra|rewrite <- (Rmult_1_l q) at 2; apply Rmult_le_compat_r; lra]).
  assert (D1 : Rabs (fval w - v) * fval s <= u * v * (q + 16 * u * q + / 1152921504606846976)) by (apply Rmult_le_compat; try lra; apply Rabs_pos).
  assert (D2 : v * Rabs (fval s - q) <= v * (16 * u * q + / 1152921504606846976)) by (apply Rmult_le_compat_l; [lra|apply Rabs_le; num]).
  assert (D3 : v * / 1152921504606846976 <= / 1152921504606846976) by lra.
  assert (D : Rabs (fval w * fval s - v * q) <= 17001 / 1000 * u * (v * q) + 19 / 10 * / 1152921504606846976).
  { replace (fval w * fval s - v * q) with ((fval w - v) * fval s + v * (fval s - q)) by ring.
    eapply Rle_trans; [apply Rabs_triang|]. rewrite !Rabs_mult, (Rabs_pos_eq v), (Rabs_pos_eq (fval s)) by lra.
    replace (u * v * (q + 16 * u * q + / 1152921504606846976)) with (u * (v * q) + 16 * u * u * (v * q) + u * (v * / 1152921504606846976)) in D1 by ring.
    replace (v * (16 * u * q + / 1152921504606846976)) with (16 * u * (v * q) + v * / 1152921504606846976) in D2 by ring.
    set (vq := v * q) in * . clearbody vq. set (vd := v * / 1152921504606846976) in * . clearbody vd. num. }
  apply Rabs_le_inv in D. set (ws := fval w * fval s) in * . clearbody ws. set (vq := v * q) in * . clearbody vq. apply Rabs_le. num.
Qed.
Lemma root_near w1 w2 v1 v2 a b T : weight w1 v1 -> weight w2 v2 -> fin a -> fin b -> 0 <= fval a <= T -> 0 <= fval b <= T -> 1 <= T <= 255 ->
  near (@add_root f32 (F32 o) w1 w2 a b) (sqrt (v1 * (fval a * fval a) + v2 * (fval b * fval b))) (16 * u * T).
Proof.
  intros W1 W2 Fa Fb Ba Bb HT. destruct (part _ _ _ _ W1 Fa Ba HT) as [F1 [B1 E1]]. destruct (part _ _ _ _ W2 Fb Bb HT) as [F2 [B2 E2]].
  destruct W1 as [_ [_ [V1 _]]]. destruct W2 as [_ [_ [V2 _]]]. unfold add_root.
  assert (TT : 1 <= T * T <= 65025) by (split; [rewrite <- (Rmult_1_l 1) at 1|apply Rle_trans with (255 * 255); [|lra]]; apply Rmult_le_compat; lra).
  assert (SA : 0 <= fval a * fval a <= T * T) by (split; [apply Rle_0_sqr|apply Rmult_le_compat; lra]). assert (SB : 0 <= fval b * fval b <= T * T) by (split; [apply Rle_0_sqr|apply Rmult_le_compat; lra]).
  assert (N1 : 0 <= v1 * (fval a * fval a) <= T * T) by (split; [apply Rmult_le_pos; lra|rewrite <- (Rmult_1_l (T * T)); apply Rmult_le_compat; lra]).
  assert (N2 : 0 <= v2 * (fval b * fval b) <= T * T) by (split; [apply Rmult_le_pos; lra|rewrite <- (Rmult_1_l (T * T)); apply Rmult_le_compat; lra]).
  set (n1 := v1 * (fval a * fval a)) in * . set (n2 := v2 * (fval b * fval b)) in * . set (s1 := w1 *. sq a) in * . set (s2 := w2 *. sq b) in * . clearbody n1 n2 s1 s2.
  replace (/ 2 ^ 58) with (/ 288230376151711744) in E1, E2 by (f_equal; simpl; ring). apply Rabs_le_inv in E1. apply Rabs_le_inv in E2.
  destruct (Bplus_ok s1 s2 0 300000 F1 F2) as [Fs Vs]; try sm; [lra|]. change (s1 +. s2) with (Bplus mode_NE s1 s2) in * . set (S := Bplus mode_NE s1 s2) in * . clearbody S.
  pose proof (rnd_err (fval s1 + fval s2)) as R. rewrite <- Vs in R. rewrite (Rabs_pos_eq (fval s1 + fval s2)) in R by lra. apply Rabs_le_inv in R.
  assert (PS : 0 <= fval S) by (rewrite Vs; apply rnd_nonneg; lra).
  assert (E : Rabs (fval S - (n1 + n2)) <= 1912 / 100 * u * (n1 + n2) + / 268435456 * / 268435456) by (apply Rabs_le; num).
  pose proof (sqrt_close (fval S) (n1 + n2) (1912 / 100) (/ 268435456) PS ltac:(lra) ltac:(lra) ltac:(lra) E) as Q.
  destruct (Bsqrt_ok S Fs PS) as [Fq Vq]. split; [exact Fq|]. change (@fsqrt f32 (F32 o) S) with (Bsqrt mode_NE S). rewrite Vq.
  pose proof (rnd_err (sqrt (fval S))) as R2. rewrite (Rabs_pos_eq (sqrt (fval S))) in R2 by apply sqrt_pos.
  assert (UN : 0 <= sqrt (n1 + n2) <= 14143 / 10000 * T).
  { split; [apply sqrt_pos|]. rewrite <- (sqrt_square (14143 / 10000 * T)) by lra. apply sqrt_le_1_alt. replace (14143 / 10000 * T * (14143 / 10000 * T)) with (14143 / 10000 * (14143 / 10000) * (T * T)) by ring. lra. }
  apply Rabs_le_inv in Q. apply Rabs_le_inv in R2. set (r := sqrt (n1 + n2)) in * . clearbody r. set (t := sqrt (fval S)) in * . clearbody t. apply Rabs_le. num.
Qed.

Lemma cut_near x v e lo hi : small lo -> small hi -> 0 <= e -> near x v e -> near (@clamp f32 (F32 o) x $hi $lo) (cut (IZR lo) (IZR hi) v) e.
Proof.
  intros L H P N. unfold cut. rewrite (Rmin_comm (IZR hi)), (Rmax_comm (IZR lo)). apply near_max; [apply near_min; [exact N|]|]; eapply near_weaken; try (apply near_fz; assumption); exact P.
Qed.
(** The components that are cut twice. *)
Lemma cut2_near x v e lo hi : small lo -> small hi -> IZR lo <= IZR hi -> 0 <= e -> near x v e ->
  near (@clamp f32 (F32 o) (@fmin f32 (F32 o) (@fmax f32 (F32 o) x $lo) $hi) $hi $lo) (cut (IZR lo) (IZR hi) v) e.
Proof.
  intros L H LH P N. replace (cut (IZR lo) (IZR hi) v) with (cut (IZR lo) (IZR hi) (Rmin (Rmax v (IZR lo)) (IZR hi))).
  - apply cut_near; try assumption. apply near_min; [apply near_max; [exact N|]|]; eapply near_weaken; try (apply near_fz; assumption); exact P.
  - unfold cut, Rmax, Rmin. repeat destruct (Rle_dec _ _); lra.
Qed.

Lemma comp_in X (c : color f32) i x : @wf_color f32 (F32 o) X c -> nth_error (comps c) i = Some x -> In X plain_types -> fin x /\ IZR (fst (comp_range X i)) <= fval x <= IZR (snd (comp_range X i)).
Proof.
  intros W E P. pose proof (wf_range _ _ W i x E) as H. apply within_in_interval in H; [exact H| |];
    simpl in P; destruct P as [<-|[<-|[<-|[<-|[<-|[<-|[<-|[<-|[]]]]]]]]]; destruct i; cbn [comp_range fst snd]; sm.
Qed.

Section Pair.
Variables (h : heap f32) (p1 p2 : nat) (c1 c2 : color f32) (X : ctype).
Hypotheses (H1 : at_addr h p1 c1) (H2 : at_addr h p2 c2) (W1 : @wf_color f32 (F32 o) X c1) (W2 : @wf_color f32 (F32 o) X c2).

Lemma new_near f g e r : f c1 c2 = Ok r -> combined_near X g e c1 c2 r -> returns (@new2 f32 X f (Some p1) (Some p2)) h (combined_near X g e c1 c2).
Proof.
  intros E C. exists (length (colors h)), r, (Heap (colors h ++ [r]) (spaces h)). split; [|split; [apply at_new|exact C]].
  unfold new2, bind. rewrite (load_as_ok h p1 c1 X H1 W1), (load_as_ok h p2 c2 X H2 W2). unfold lift. rewrite E. reflexivity.
Qed.
End Pair.

Lemma root_comp w1 w2 v1 v2 x y T X i : weight w1 v1 -> weight w2 v2 -> (X = RGB_TRUE \/ X = RGB_DEEP) -> 1 <= T <= 255 -> T = reach X -> comp_range X i = (0, snd (limits X))%Z ->
  fin x /\ IZR (fst (comp_range X i)) <= fval x <= IZR (snd (comp_range X i)) -> fin y /\ IZR (fst (comp_range X i)) <= fval y <= IZR (snd (comp_range X i)) ->
  near (@add_root f32 (F32 o) w1 w2 x y) (weighted_sum X v1 v2 (fval x) (fval y)) (reach X / 1048576).
Proof.
  intros Ww1 Ww2 HX HT E R [Fx Bx] [Fy By]. rewrite R in Bx, By. cbn [fst snd] in Bx, By. change (IZR (snd (limits X))) with (reach X) in Bx, By. rewrite <- E in * .
  eapply near_weaken; [destruct HX as [-> | ->]; apply (root_near w1 w2 v1 v2 x y T); assumption|]. num.
Qed.
Lemma range_abs X i (x : f32) : In X plain_types -> IZR (fst (comp_range X i)) <= fval x <= IZR (snd (comp_range X i)) -> Rabs (fval x) <= reach X.
Proof.
  intros P B. apply Rabs_le. simpl in P. unfold reach. destruct P as [<-|[<-|[<-|[<-|[<-|[<-|[<-|[<-|[]]]]]]]]]; destruct i; cbn [comp_range limits fst snd] in * ; lra.
Qed.
Lemma reach_range X : In X plain_types -> 1 <= reach X <= 255.
Proof. intros P. unfold reach. simpl in P. destruct P as [<-|[<-|[<-|[<-|[<-|[<-|[<-|[<-|[]]]]]]]]]; cbn [limits snd]; lra. Qed.
Lemma lin_comp w1 w2 v1 v2 x y X i : In X plain_types -> weight w1 v1 -> weight w2 v2 ->
  fin x /\ IZR (fst (comp_range X i)) <= fval x <= IZR (snd (comp_range X i)) -> fin y /\ IZR (fst (comp_range X i)) <= fval y <= IZR (snd (comp_range X i)) ->
  near (@add_lin f32 (F32 o) w1 w2 x y) (v1 * fval x + v2 * fval y) (reach X / 1048576).
Proof.
  intros P Ww1 Ww2 [Fx Bx] [Fy By]. pose proof (reach_range X P) as HT.
  eapply near_weaken; [apply (lin_near w1 w2 v1 v2 x y (reach X)); try assumption; apply (range_abs X i); assumption|]. num.
Qed.
Lemma sub_comp w v x y X i : In X plain_types -> weight w v ->
  fin x /\ IZR (fst (comp_range X i)) <= fval x <= IZR (snd (comp_range X i)) -> fin y /\ IZR (fst (comp_range X i)) <= fval y <= IZR (snd (comp_range X i)) ->
  near (@sub_lin f32 (F32 o) w x y) (fval x - v * fval y) (reach X / 1048576).
Proof.
  intros P Ww [Fx Bx] [Fy By]. pose proof (reach_range X P) as HT.
  eapply near_weaken; [apply (sub_near w v x y (reach X)); try assumption; apply (range_abs X i); assumption|]. num.
Qed.
Lemma tolerance X : In X plain_types -> 0 <= reach X / 1048576.
Proof. intros P. pose proof (reach_range X P). lra. Qed.
Lemma weight_good w v : weight w v -> @bad_weight f32 (F32 o) w = false.
Proof. intros [F [B _]]. apply weight_ok. split; assumption. Qed.

Ltac each W1 W2 P C1 C2 tac :=
  split; [reflexivity|]; split; [reflexivity|]; split; [reflexivity|];
  let i := fresh "i" in let x := fresh "x" in let y := fresh "y" in let E1 := fresh "E" in let E2 := fresh "E" in let I1 := fresh "I" in let I2 := fresh "I" in
  intros i x y E1 E2; change (@B2R 24 128) with fval; pose proof (comp_in _ _ i x W1 E1 P) as I1; pose proof (comp_in _ _ i y W2 E2 P) as I2; rewrite C1 in E1; rewrite C2 in E2; rewrite ?C1, ?C2;
  repeat (destruct i as [|i]; cbn [nth_error] in E1, E2; [injection E1 as <-; injection E2 as <-; eexists; split; [reflexivity|]; tac I1 I2|]);
  destruct i; discriminate E1.

Ltac get3 W1 W2 := destruct (Conv_Proofs.comps3 (AF := F32 o) _ _ W1 eq_refl) as [?x1 [?y1 [?z1 C1]]]; destruct (Conv_Proofs.comps3 (AF := F32 o) _ _ W2 eq_refl) as [?x2 [?y2 [?z2 C2]]].
Ltac get1 W1 W2 := destruct (Conv_Proofs.comps1 (AF := F32 o) _ _ W1 eq_refl) as [?x1 C1]; destruct (Conv_Proofs.comps1 (AF := F32 o) _ _ W2 eq_refl) as [?x2 C2].
Ltac get4 W1 W2 := destruct (Conv_Proofs.comps4 (AF := F32 o) _ _ W1 eq_refl) as [?x1 [?y1 [?z1 [?k1 C1]]]]; destruct (Conv_Proofs.comps4 (AF := F32 o) _ _ W2 eq_refl) as [?x2 [?y2 [?z2 [?k2 C2]]]].

Lemma add_near X w1 w2 v1 v2 ia (h : heap f32) p1 p2 c1 c2 : In X plain_types -> weight w1 v1 -> weight w2 v2 ->
  at_addr h p1 c1 -> at_addr h p2 c2 -> @wf_color f32 (F32 o) X c1 -> @wf_color f32 (F32 o) X c2 ->
  returns (@typed_add f32 (F32 o) X (Some p1) (Some p2) w1 w2 ia) h (combined_near X (weighted_sum X v1 v2) (reach X / 1048576) c1 c2).
Proof.
  intros P Ww1 Ww2 H1 H2 W1 W2. pose proof (weight_good _ _ Ww1) as G1. pose proof (weight_good _ _ Ww2) as G2. pose proof (tolerance X P) as TP. pose proof P as P'.
  simpl in P. destruct P as [<-|[<-|[<-|[<-|[<-|[<-|[<-|[<-|[]]]]]]]]]; cbn [typed_add];
    unfold add_rgb_true, add_rgb_deep, add_grey_true, add_grey_deep, add_cmyk, add_xyz, add_xyy, add_cieluv, check2; rewrite G1, G2.
  - get3 W1 W2. eapply new_near; try eassumption; [unfold add_rgb_true_f, with3; rewrite C1, C2; cbv zeta; rewrite rgb_truecolor_nf; reflexivity|].
    each W1 W2 P' C1 C2 ltac:(fun I1 I2 => apply (cut2_near _ _ _ 0 255); [sm|sm|lra|exact TP|eapply (root_comp w1 w2 v1 v2 _ _ 255 RGB_TRUE 0); try eassumption; auto; lra]).
  - get3 W1 W2. eapply new_near; try eassumption; [unfold add_rgb_deep_f, with3; rewrite C1, C2; cbv zeta; rewrite rgb_deepcolor_nf; reflexivity|].
    each W1 W2 P' C1 C2 ltac:(fun I1 I2 => apply (cut_near _ _ _ 0 1); [sm|sm|exact TP|eapply (root_comp w1 w2 v1 v2 _ _ 1 RGB_DEEP 0); try eassumption; auto; lra]).
  - get1 W1 W2. eapply new_near; try eassumption; [unfold add_grey_true_f, with1; rewrite C1, C2; cbv zeta; rewrite grey_truecolor_nf; reflexivity|].
    each W1 W2 P' C1 C2 ltac:(fun I1 I2 => apply (cut2_near _ _ _ 0 255); [sm|sm|lra|exact TP|exact (lin_comp w1 w2 v1 v2 _ _ _ _ P' Ww1 Ww2 I1 I2)]).
  - get1 W1 W2. eapply new_near; try eassumption; [unfold add_grey_deep_f, with1; rewrite C1, C2; cbv zeta; rewrite grey_deepcolor_nf; reflexivity|].
    each W1 W2 P' C1 C2 ltac:(fun I1 I2 => apply (cut_near _ _ _ 0 1); [sm|sm|exact TP|exact (lin_comp w1 w2 v1 v2 _ _ _ _ P' Ww1 Ww2 I1 I2)]).
  - get4 W1 W2. eapply new_near; try eassumption; [unfold add_cmyk_f, with4; rewrite C1, C2; cbv zeta; rewrite cmyk_nf; reflexivity|].
    each W1 W2 P' C1 C2 ltac:(fun I1 I2 => apply (cut_near _ _ _ 0 1); [sm|sm|exact TP|exact (lin_comp w1 w2 v1 v2 _ _ _ _ P' Ww1 Ww2 I1 I2)]).
  - get3 W1 W2. eapply new_near; try eassumption; [unfold add3_f, with3; rewrite C1, C2; cbv zeta; rewrite xyz_nf; reflexivity|].
    each W1 W2 P' C1 C2 ltac:(fun I1 I2 => apply (cut_near _ _ _ 0 100); [sm|sm|exact TP|exact (lin_comp w1 w2 v1 v2 _ _ _ _ P' Ww1 Ww2 I1 I2)]).
  - get3 W1 W2. eapply new_near; try eassumption; [unfold add3_f, with3; rewrite C1, C2; cbv zeta; rewrite xyy_nf; reflexivity|].
    each W1 W2 P' C1 C2 ltac:(fun I1 I2 => apply (cut_near _ _ _ 0 100); [sm|sm|exact TP|exact (lin_comp w1 w2 v1 v2 _ _ _ _ P' Ww1 Ww2 I1 I2)]).
  - get3 W1 W2. eapply new_near; try eassumption; [unfold add3_f, with3; rewrite C1, C2; cbv zeta; rewrite cieluv_nf; reflexivity|].
    each W1 W2 P' C1 C2 ltac:(fun I1 I2 => first [apply (cut_near _ _ _ 0 100); [sm|sm|exact TP|exact (lin_comp w1 w2 v1 v2 _ _ _ 0%nat P' Ww1 Ww2 I1 I2)]|
      apply (cut_near _ _ _ (-100) 100); [sm|sm|exact TP|exact (lin_comp w1 w2 v1 v2 _ _ _ 1%nat P' Ww1 Ww2 I1 I2)]]).
Qed.

Lemma subtract_near X w v ia (h : heap f32) p1 p2 c1 c2 : In X plain_types -> weight w v ->
  at_addr h p1 c1 -> at_addr h p2 c2 -> @wf_color f32 (F32 o) X c1 -> @wf_color f32 (F32 o) X c2 ->
  returns (@typed_subtract f32 (F32 o) X (Some p1) (Some p2) w ia) h (combined_near X (fun a b => a - v * b) (reach X / 1048576) c1 c2).
Proof.
  intros P Ww H1 H2 W1 W2. pose proof (weight_good _ _ Ww) as G. pose proof (tolerance X P) as TP. pose proof P as P'.
  simpl in P. destruct P as [<-|[<-|[<-|[<-|[<-|[<-|[<-|[<-|[]]]]]]]]]; cbn [typed_subtract];
    unfold subtract_rgb_true, subtract_rgb_deep, subtract_grey_true, subtract_grey_deep, subtract_cmyk, subtract_xyz, subtract_xyy, subtract_cieluv, check1; rewrite G.
  - get3 W1 W2. eapply new_near; try eassumption; [unfold sub3_f, with3; rewrite C1, C2; cbv zeta; rewrite rgb_truecolor_nf; reflexivity|].
    each W1 W2 P' C1 C2 ltac:(fun I1 I2 => apply (cut_near _ _ _ 0 255); [sm|sm|exact TP|exact (sub_comp w v _ _ _ _ P' Ww I1 I2)]).
  - get3 W1 W2. eapply new_near; try eassumption; [unfold sub3_f, with3; rewrite C1, C2; cbv zeta; rewrite rgb_deepcolor_nf; reflexivity|].
    each W1 W2 P' C1 C2 ltac:(fun I1 I2 => apply (cut_near _ _ _ 0 1); [sm|sm|exact TP|exact (sub_comp w v _ _ _ _ P' Ww I1 I2)]).
  - get1 W1 W2. eapply new_near; try eassumption; [unfold sub1_f, with1; rewrite C1, C2; cbv zeta; rewrite grey_truecolor_nf; reflexivity|].
    each W1 W2 P' C1 C2 ltac:(fun I1 I2 => apply (cut_near _ _ _ 0 255); [sm|sm|exact TP|exact (sub_comp w v _ _ _ _ P' Ww I1 I2)]).
  - get1 W1 W2. eapply new_near; try eassumption; [unfold sub1_f, with1; rewrite C1, C2; cbv zeta; rewrite grey_deepcolor_nf; reflexivity|].
    each W1 W2 P' C1 C2 ltac:(fun I1 I2 => apply (cut_near _ _ _ 0 1); [sm|sm|exact TP|exact (sub_comp w v _ _ _ _ P' Ww I1 I2)]).
  - get4 W1 W2. eapply new_near; try eassumption; [unfold sub_cmyk_f, with4; rewrite C1, C2; cbv zeta; rewrite cmyk_nf; reflexivity|].
    each W1 W2 P' C1 C2 ltac:(fun I1 I2 => apply (cut_near _ _ _ 0 1); [sm|sm|exact TP|exact (sub_comp w v _ _ _ _ P' Ww I1 I2)]).
  - get3 W1 W2. eapply new_near; try eassumption; [unfold sub3_f, with3; rewrite C1, C2; cbv zeta; rewrite xyz_nf; reflexivity|].
    each W1 W2 P' C1 C2 ltac:(fun I1 I2 => apply (cut_near _ _ _ 0 100); [sm|sm|exact TP|exact (sub_comp w v _ _ _ _ P' Ww I1 I2)]).
  - get3 W1 W2. eapply new_near; try eassumption; [unfold sub3_f, with3; rewrite C1, C2; cbv zeta; rewrite xyy_nf; reflexivity|].
    each W1 W2 P' C1 C2 ltac:(fun I1 I2 => apply (cut_near _ _ _ 0 100); [sm|sm|exact TP|exact (sub_comp w v _ _ _ _ P' Ww I1 I2)]).
  - get3 W1 W2. eapply new_near; try eassumption; [unfold sub3_f, with3; rewrite C1, C2; cbv zeta; rewrite cieluv_nf; reflexivity|].
    each W1 W2 P' C1 C2 ltac:(fun I1 I2 => first [apply (cut_near _ _ _ 0 100); [sm|sm|exact TP|exact (sub_comp w v _ _ _ 0%nat P' Ww I1 I2)]|
      apply (cut_near _ _ _ (-100) 100); [sm|sm|exact TP|exact (sub_comp w v _ _ _ 1%nat P' Ww I1 I2)]]).
Qed.
End X.

Lemma add_accurate : forall o, accurate_square o -> positive_square o -> forall X w1 w2 ia (h : heap f32) p1 p2 c1 c2, In X plain_types -> in_interval 0 1 w1 -> in_interval 0 1 w2 ->
  at_addr h p1 c1 -> at_addr h p2 c2 -> @wf_color f32 (F32 o) X c1 -> @wf_color f32 (F32 o) X c2 ->
  returns (@typed_add f32 (F32 o) X (Some p1) (Some p2) w1 w2 ia) h (combined_near X (weighted_sum X (B2R w1) (B2R w2)) (reach X / 1048576) c1 c2).
Proof. intros o AS PO X w1 w2 ia h p1 p2 c1 c2 P I1 I2 H1 H2 W1 W2. apply (add_near o AS PO); try assumption; apply weight_self; assumption. Qed.
Lemma mix_accurate : forall o, accurate_square o -> positive_square o -> forall X w ia (h : heap f32) p1 p2 c1 c2, In X plain_types -> in_interval 0 1 w ->
  at_addr h p1 c1 -> at_addr h p2 c2 -> @wf_color f32 (F32 o) X c1 -> @wf_color f32 (F32 o) X c2 ->
  returns (@typed_mix f32 (F32 o) X (Some p1) (Some p2) w ia) h (combined_near X (weighted_sum X (B2R w) (1 - B2R w)) (reach X / 1048576) c1 c2).
Proof.
  intros o AS PO X w ia h p1 p2 c1 c2 P I H1 H2 W1 W2. rewrite (typed_mix_eq (AF := F32 o)) by (apply weight_ok; exact I).
  apply (add_near o AS PO); try assumption; [apply weight_self|apply weight_rest]; exact I.
Qed.
Lemma subtract_accurate : forall o X w ia (h : heap f32) p1 p2 c1 c2, In X plain_types -> in_interval 0 1 w ->
  at_addr h p1 c1 -> at_addr h p2 c2 -> @wf_color f32 (F32 o) X c1 -> @wf_color f32 (F32 o) X c2 ->
  returns (@typed_subtract f32 (F32 o) X (Some p1) (Some p2) w ia) h (combined_near X (fun a b => a - B2R w * b) (reach X / 1048576) c1 c2).
Proof. intros o X w ia h p1 p2 c1 c2 P I H1 H2 W1 W2. apply (subtract_near o); try assumption. apply weight_self; assumption. Qed.

(** ** Whole bytes with weight 1 *)
Section Whole.
Variable o : oracle.
Local Notation "x *. y" := (@fmul f32 (F32 o) x y) (at level 40, left associativity).
Lemma whole_one (w a : f32) n : is_value w 1 -> is_byte n -> is_value a (IZR n) -> is_value (w *. a) (IZR n).
Proof.
  intros [Fw Vw] Hn [Fa Va]. change (@B2R 24 128) with fval in * . pose proof (byte_bounds n Hn) as B.
  destruct (Bmult_ok w a 0 255 Fw Fa) as [Fm Vm]; try sm; [rewrite Vw, Va; lra|]. split; [exact Fm|]. change (fval (Bmult mode_NE w a) = IZR n).
  rewrite Vm, Vw, Va, Rmult_1_l. apply rnd32_int. destruct Hn. sm.
Qed.
Lemma whole_sum (v w a b : f32) m n : is_value v 1 -> is_value w 1 -> is_byte m -> is_byte n -> is_value a (IZR m) -> is_value b (IZR n) ->
  near (@add_lin f32 (F32 o) v w a b) (IZR (m + n)) 0.
Proof.
  intros V W Hm Hn Va Vb. destruct (whole_one v a m V Hm Va) as [F1 V1]. destruct (whole_one w b n W Hn Vb) as [F2 V2]. change (@B2R 24 128) with fval in * .
  pose proof (byte_bounds m Hm) as Bm. pose proof (byte_bounds n Hn) as Bn. unfold add_lin.
  destruct (Bplus_ok (v *. a) (w *. b) 0 510 F1 F2) as [Fs Vs]; try sm; [rewrite V1, V2; lra|]. split; [exact Fs|].
  change (@fadd f32 (F32 o) ?x ?y) with (Bplus mode_NE x y). rewrite Vs, V1, V2, <- plus_IZR, rnd32_int; [|destruct Hm, Hn; sm]. replace (IZR (m + n) - IZR (m + n)) with 0 by ring. rewrite Rabs_R0. lra.
Qed.
Lemma whole_diff (w a b : f32) m n : is_value w 1 -> is_byte m -> is_byte n -> is_value a (IZR m) -> is_value b (IZR n) ->
  near (@sub_lin f32 (F32 o) w a b) (IZR (m - n)) 0.
Proof.
  intros W Hm Hn [Fa Va] Vb. destruct (whole_one w b n W Hn Vb) as [F2 V2]. change (@B2R 24 128) with fval in * .
  pose proof (byte_bounds m Hm) as Bm. pose proof (byte_bounds n Hn) as Bn. unfold sub_lin.
  destruct (Bminus_ok a (w *. b) (-255) 255 Fa F2) as [Fs Vs]; try sm; [rewrite Va, V2; lra|]. split; [exact Fs|].
  change (@fsub f32 (F32 o) ?x ?y) with (Bminus mode_NE x y). rewrite Vs, Va, V2, <- minus_IZR, rnd32_int; [|destruct Hm, Hn; sm]. replace (IZR (m - n) - IZR (m - n)) with 0 by ring. rewrite Rabs_R0. lra.
Qed.
Lemma near_0 x v : near x v 0 -> is_value x v.
Proof. intros [F E]. split; [exact F|]. apply Rabs_le_inv in E. change (fval x = v). lra. Qed.
Lemma cut_int n : cut 0 255 (IZR n) = IZR (Z.max 0 (Z.min 255 n)).
Proof.
  unfold cut, Rmax, Rmin. destruct (Rle_dec 255 (IZR n)) as [A|A].
  - apply le_IZR in A. destruct (Rle_dec 0 255); [|lra]. f_equal. lia.
  - apply Rnot_le_lt, lt_IZR in A. destruct (Rle_dec 0 (IZR n)) as [B|B]; [apply le_IZR in B|apply Rnot_le_lt, lt_IZR in B]; f_equal; lia.
Qed.

(** The bytes of [r] are [f m n] cut to bytes for the bytes [m] and [n] of [c1] and [c2]. *)
Lemma whole_add : forall w1 w2 ia (h : heap f32) p1 p2 c1 c2 m n, is_value w1 1 -> is_value w2 1 -> at_addr h p1 c1 -> at_addr h p2 c2 ->
  @wf_color f32 (F32 o) GREY_TRUE c1 -> @wf_color f32 (F32 o) GREY_TRUE c2 -> is_byte m -> is_byte n ->
  comp_sat c1 0 (fun x => is_value x (IZR m)) -> comp_sat c2 0 (fun x => is_value x (IZR n)) ->
  returns (@typed_add f32 (F32 o) GREY_TRUE (Some p1) (Some p2) w1 w2 ia) h (fun r => ty r = GREY_TRUE /\ comp_sat r 0 (fun x => is_value x (IZR (Z.min 255 (m + n))))).
Proof.
  intros w1 w2 ia h p1 p2 c1 c2 m n V1 V2 H1 H2 W1 W2 Hm Hn [x [Ex Vx]] [y [Ey Vy]].
  assert (G : forall w, is_value w 1 -> @bad_weight f32 (F32 o) w = false) by (intros w [F V]; apply weight_ok; split; [exact F|rewrite V; lra]).
  cbn [typed_add]. unfold add_grey_true, check2. rewrite (G _ V1), (G _ V2).
  destruct (Conv_Proofs.comps1 (AF := F32 o) _ _ W1 eq_refl) as [x1 C1]. destruct (Conv_Proofs.comps1 (AF := F32 o) _ _ W2 eq_refl) as [x2 C2].
  rewrite C1 in Ex. rewrite C2 in Ey. injection Ex as ->. injection Ey as ->.
  eexists _, _, _. split; [|split; [apply at_new|]].
  - unfold new2, bind. rewrite (load_as_ok h p1 c1 _ H1 W1), (load_as_ok h p2 c2 _ H2 W2). unfold lift, add_grey_true_f, with1. rewrite C1, C2. cbv zeta. rewrite grey_truecolor_nf. reflexivity.
  - split; [reflexivity|]. eexists. split; [reflexivity|]. apply near_0.
    replace (IZR (Z.min 255 (m + n))) with (cut 0 255 (IZR (m + n))) by (rewrite cut_int; f_equal; destruct Hm, Hn; lia).
    apply (cut2_near o _ _ 0 0 255); [sm|sm|lra|lra|]. apply whole_sum; assumption.
Qed.
Lemma whole_subtract : forall X w ia (h : heap f32) p1 p2 c1 c2, In X [RGB_TRUE; GREY_TRUE] -> is_value w 1 -> at_addr h p1 c1 -> at_addr h p2 c2 ->
  @wf_color f32 (F32 o) X c1 -> @wf_color f32 (F32 o) X c2 ->
  returns (@typed_subtract f32 (F32 o) X (Some p1) (Some p2) w ia) h (fun r => ty r = X /\ forall i m n, is_byte m -> is_byte n ->
    comp_sat c1 i (fun x => is_value x (IZR m)) -> comp_sat c2 i (fun x => is_value x (IZR n)) -> comp_sat r i (fun x => is_value x (IZR (Z.max 0 (m - n))))).
Proof.
  intros X w ia h p1 p2 c1 c2 HX V H1 H2 W1 W2.
  assert (G : @bad_weight f32 (F32 o) w = false) by (destruct V as [F V]; apply weight_ok; split; [exact F|rewrite V; lra]).
  assert (K : forall x y m n, is_byte m -> is_byte n -> is_value x (IZR m) -> is_value y (IZR n) -> is_value (@clamp f32 (F32 o) (@sub_lin f32 (F32 o) w x y) (@fz f32 (F32 o) 255) (@fz f32 (F32 o) 0)) (IZR (Z.max 0 (m - n)))).
  { intros x y m n Hm Hn Vx Vy. apply near_0. replace (IZR (Z.max 0 (m - n))) with (cut 0 255 (IZR (m - n))) by (rewrite cut_int; f_equal; destruct Hm, Hn; lia).
    apply (cut_near o _ _ 0 0 255); [sm|sm|lra|]. apply whole_diff; assumption. }
  destruct HX as [<-|[<-|[]]]; cbn [typed_subtract]; unfold subtract_rgb_true, subtract_grey_true, check1; rewrite G; clear G.
  - destruct (Conv_Proofs.comps3 (AF := F32 o) _ _ W1 eq_refl) as [x1 [y1 [z1 C1]]]. destruct (Conv_Proofs.comps3 (AF := F32 o) _ _ W2 eq_refl) as [x2 [y2 [z2 C2]]].
    eexists _, _, _. split; [|split; [apply at_new|]].
    + unfold new2, bind. rewrite (load_as_ok h p1 c1 _ H1 W1), (load_as_ok h p2 c2 _ H2 W2). unfold lift, sub3_f, with3. rewrite C1, C2. cbv zeta. rewrite rgb_truecolor_nf. reflexivity.
    + split; [reflexivity|]. intros i m n Hm Hn [x [Ex Vx]] [y [Ey Vy]]. rewrite C1 in Ex. rewrite C2 in Ey. unfold comp_sat. cbn [comps].
      destruct i as [|[|[|i]]]; cbn [nth_error] in Ex, Ey |- * ; try (injection Ex as <-; injection Ey as <-; eexists; split; [reflexivity|]; apply K; assumption). destruct i; discriminate Ex.
  - destruct (Conv_Proofs.comps1 (AF := F32 o) _ _ W1 eq_refl) as [x1 C1]. destruct (Conv_Proofs.comps1 (AF := F32 o) _ _ W2 eq_refl) as [x2 C2].
    eexists _, _, _. split; [|split; [apply at_new|]].
    + unfold new2, bind. rewrite (load_as_ok h p1 c1 _ H1 W1), (load_as_ok h p2 c2 _ H2 W2). unfold lift, sub1_f, with1. rewrite C1, C2. cbv zeta. rewrite grey_truecolor_nf. reflexivity.
    + split; [reflexivity|]. intros i m n Hm Hn [x [Ex Vx]] [y [Ey Vy]]. rewrite C1 in Ex. rewrite C2 in Ey. unfold comp_sat. cbn [comps].
      destruct i as [|i]; cbn [nth_error] in Ex, Ey |- * ; [injection Ex as <-; injection Ey as <-; eexists; split; [reflexivity|]; apply K; assumption|]. destruct i; discriminate Ex.
Qed.
End Whole.

Lemma mix_oracle : exists o, accurate_square o /\ positive_square o.
Proof.
  exists (Oracle (fun x _ => Bmult mode_NE x x) (fun x => x) (fun x => x) (fun x _ => x) (fun x => x) (fun x => x)).
  assert (K : forall x : f32, fin x -> Rabs (fval x) <= 1024 -> fin (Bmult mode_NE x x) /\ fval (Bmult mode_NE x x) = rnd32 (fval x * fval x)).
  { intros x Fx B. apply (Bmult_ok x x (- 2 ^ 20) (2 ^ 20) Fx Fx); try sm.
    apply Rabs_le_inv in B. pose proof (Rle_0_sqr (fval x)) as Q. unfold Rsqr in Q. change (IZR (- 2 ^ 20)) with (-1048576). change (IZR (2 ^ 20)) with 1048576. split; [lra|].
    rewrite <- (Rabs_pos_eq (fval x * fval x)) by exact Q. rewrite Rabs_mult. apply Rle_trans with (1024 * 1024); [|lra]. apply Rmult_le_compat; try apply Rabs_pos; apply Rabs_le; exact B. }
  split; intros x Fx B; cbn [o_pow]; change (@B2R 24 128) with fval in * ; destruct (K x Fx B) as [Fm Vm].
  - split; [exact Fm|]. rewrite Vm. split; [intros ->; rewrite Rmult_0_l; apply rnd32_0|]. eapply Rle_trans; [apply rnd_err|].
    rewrite (Rabs_pos_eq (fval x * fval x)) by apply Rle_0_sqr. pose proof (Rle_0_sqr (fval x)) as Q. unfold Rsqr in Q.
    assert (u * (fval x * fval x) <= / 1048576 * (fval x * fval x)) by (apply Rmult_le_compat_r; [exact Q|num]). unfold tiny. lra.
  - rewrite Vm. apply rnd_nonneg. apply Rle_0_sqr.
Qed.
