(** * Rounding errors of the hue and of the conversions between RGB and HSV *)
From Coq Require Import ZArith QArith Reals Lra Lia List Bool.
From Flocq Require Import Core IEEE754.BinarySingleNaN.
From Verif Require Import Arith Outcome ColorModel GammaModel MatrixModel SpaceModel Heap Converter F32 F32Facts RArith
  Spec Spec32 Laws NormalForms Alpha8 Core_Proofs Core2_Proofs Core3_Proofs Core4_Proofs Hue32 Spec_Matrix Spec_Conv Spec_Round
  Conv_Proofs Conv2_Proofs Run_Proofs HueR_Proofs Round_Proofs Error_Proofs.
Import ListNotations.
Local Open Scope R_scope.
Local Notation fin x := (is_finite x = true).

Ltac num := unfold u, tiny in *; lra.
Ltac absle := apply Rabs_le; lra.

Section E.
Context (o : oracle).
Local Notation "x +. y" := (@fadd f32 (F32 o) x y) (at level 50, left associativity).
Local Notation "x -. y" := (@fsub f32 (F32 o) x y) (at level 50, left associativity).
Local Notation "x *. y" := (@fmul f32 (F32 o) x y) (at level 40, left associativity).
Local Notation "x /. y" := (@fdiv f32 (F32 o) x y) (at level 40, left associativity).
Local Notation "$ n" := (fz (H := F32 o) n) (at level 2).

Lemma near_range x r e : near x r e -> r - e <= fval x <= r + e.
Proof. intros [_ H]. apply Rabs_le_inv in H. lra. Qed.
Lemma near_of x r e : fin x -> r - e <= fval x <= r + e -> near x r e.
Proof. intros F H. split; [exact F|apply Rabs_le; lra]. Qed.

(** Remainders are exact. *)
Lemma fmod_inside x n a e : near x a e -> (1 <= n <= 1000)%Z -> - IZR n < fval x < IZR n -> near (@ffmod f32 (F32 o) x $n) a e /\ fval (@ffmod f32 (F32 o) x $n) = fval x.
Proof.
  intros [Fx Ex] Hn B. destruct (fz_val o n) as [Fn Vn]; [sm|]. assert (P : 1 <= IZR n) by (apply IZR_le; lia).
  destruct (fmod32_exact x ($n) Fx Fn ltac:(rewrite Vn; lra)) as [F [[q Eq] [Hp Hm]]]. rewrite Vn in * . cbn [ffmod F32].
  assert (q = 0)%Z.
  { assert (-1 < q < 1)%Z; [|lia]. destruct (Rle_dec 0 (fval x)) as [C|C].
    - specialize (Hp C). split; apply lt_IZR; apply (Rmult_lt_reg_r (IZR n)); lra.
    - specialize (Hm ltac:(lra)). split; apply lt_IZR; apply (Rmult_lt_reg_r (IZR n)); lra. }
  subst q. assert (V : fval (fmod32 x $n) = fval x) by (rewrite Eq; ring). split; [|exact V]. split; [exact F|]. rewrite V. exact Ex.
Qed.
Lemma fmod_once x n : fin x -> (1 <= n <= 1000)%Z -> 0 <= fval x < 2 * IZR n ->
  fin (@ffmod f32 (F32 o) x $n) /\ fval (@ffmod f32 (F32 o) x $n) = Rfmod (fval x) (IZR n).
Proof.
  intros Fx Hn B. destruct (fz_val o n) as [Fn Vn]; [sm|]. assert (P : 1 <= IZR n) by (apply IZR_le; lia).
  destruct (fmod32_exact x ($n) Fx Fn ltac:(rewrite Vn; lra)) as [F [[q Eq] [Hp _]]]. rewrite Vn in * . cbn [ffmod F32].
  specialize (Hp ltac:(lra)). split; [exact F|]. rewrite Eq in * . destruct (Rlt_le_dec (fval x) (IZR n)) as [L|L].
  - rewrite Rfmod_0 by lra. assert (q = 0)%Z; [|subst q; ring].
    assert (-1 < q < 1)%Z; [|lia]. split; apply lt_IZR; apply (Rmult_lt_reg_r (IZR n)); lra.
  - rewrite Rfmod_1 by lra. assert (q = 1)%Z; [|subst q; ring].
    assert (0 < q < 2)%Z; [|lia]. split; apply lt_IZR; apply (Rmult_lt_reg_r (IZR n)); lra.
Qed.

(** The stored hue. *)
Lemma hue_norm_up v a e : near v a e -> 0 <= fval v -> 0 <= a <= 300 -> e <= 1 / 2 -> near (@hue_norm f32 (F32 o) v) a e /\ fval (@hue_norm f32 (F32 o) v) = fval v.
Proof.
  intros N P B He. pose proof (near_range _ _ _ N) as Rg. destruct N as [Fv Ev].
  destruct (hue_norm32_id o v) as [F V]; [split; [exact Fv|simpl; lra]|]. split; [|exact V]. split; [exact F|]. change (Rabs (fval (@hue_norm f32 (F32 o) v) - a) <= e). change (fval (@hue_norm f32 (F32 o) v) = fval v) in V. rewrite V. exact Ev.
Qed.
Lemma hue_norm_down v a e : near v a e -> fval v < 0 -> -100 <= a <= 0 -> e <= 1 / 2 ->
  near (@hue_norm f32 (F32 o) v) (Rmin (a + 360) 359) (e + 362 * u).
Proof.
  intros N P B He. pose proof (near_range _ _ _ N) as Rg. destruct N as [Fv Ev].
  destruct (hue_norm32 o v Fv) as [k [m [E [Bm [[F V] _]]]]].
  assert (K : (k = -1)%Z). { assert (-2 < k < 0)%Z; [|lia]. split; apply lt_IZR; lra. }
  subst k. split; [exact F|]. change (fval (@hue_norm f32 (F32 o) v) = Rmin (rnd32 m) 359) in V. rewrite V.
  assert (D : Rabs (rnd32 m - (a + 360)) <= e + u * (360 + e) + tiny).
  { apply rnd_near; [|apply Rabs_le; lra]. replace (m - (a + 360)) with (fval v - a) by lra. exact Ev. }
  apply Rabs_le_inv in D. apply Rabs_le. assert (u * (360 + e) + tiny <= 362 * u) by num.
  unfold Rmin. destruct (Rle_dec (rnd32 m) 359), (Rle_dec (a + 360) 359); lra.
Qed.

(** Signs survive rounding, and so do differences. *)
Lemma rnd_neg x : x <= - bpow radix2 (-149) -> rnd32 x < 0.
Proof.
  intros H. apply Rle_lt_trans with (- bpow radix2 (-149)); [|pose proof (bpow_gt_0 radix2 (-149)); lra].
  unfold rnd32. apply round_le_generic; [apply fexp_correct; reflexivity|apply valid_rnd_N| |exact H].
  apply generic_format_opp. apply generic_format_bpow. unfold SpecFloat.fexp, SpecFloat.emin. lia.
Qed.
Lemma rnd_pos0 x : 0 <= x -> 0 <= rnd32 x.
Proof. intros H. rewrite <- rnd32_0. apply rnd32_le, H. Qed.
Lemma float_min (x : f32) : fval x < 0 -> fval x <= - bpow radix2 (-149).
Proof.
  intros H. assert (A : bpow radix2 (-149) <= Rabs (fval x)).
  { apply (abs_B2R_ge_emin 24 128). destruct x; simpl in *; try lra; try reflexivity. }
  rewrite Rabs_left in A by exact H. lra.
Qed.

(** The quotient of two differences of components. *)
Lemma quot_near x y m n : fin x -> fin y -> fin m -> fin n -> 0 <= fval x <= 1 -> 0 <= fval y <= 1 -> 0 <= fval m <= 1 -> 0 <= fval n <= 1 ->
  0 < fval m - fval n -> Rabs (fval x - fval y) <= fval m - fval n ->
  let q := (x -. y) /. (m -. n) in
  near q ((fval x - fval y) / (fval m - fval n)) (4 * u) /\ (fval y <= fval x -> 0 <= fval q) /\ (fval x < fval y -> fval q < 0).
Proof.
  intros Fx Fy Fm Fn Bx By Bm Bn D A q.
  assert (Rx : rel (x -. y) (fval x - fval y) u) by (apply rel_sub; auto; apply Rabs_le; lra).
  assert (Rm : rel (m -. n) (fval m - fval n) u) by (apply rel_sub; auto; apply Rabs_le; lra).
  assert (Q1 : Rabs ((fval x - fval y) / (fval m - fval n)) <= 1).
  { unfold Rdiv. rewrite Rabs_mult, (Rabs_pos_eq (/ _)) by (left; apply Rinv_0_lt_compat, D).
    apply (Rmult_le_reg_r (fval m - fval n)); [exact D|]. rewrite Rmult_assoc, Rinv_l by lra. lra. }
  destruct (near_div o (x -. y) (m -. n) (fval x - fval y) (fval m - fval n) u u Rx Rm) as [N [V NZ]]; try num; auto.
  split; [exact N|]. fold q in V. rewrite V.
  destruct Rx as [_ [e1 [H1 V1]]]. destruct Rm as [_ [e2 [H2 V2]]]. apply Rabs_le_inv in H1. apply Rabs_le_inv in H2.
  assert (P1 : 0 < 1 + e1) by num. assert (P2 : 0 < fval (m -. n)) by (rewrite V2; apply Rmult_lt_0_compat; [lra|num]).
  split; intros C.
  - apply rnd_pos0. apply Rmult_le_pos; [rewrite V1; apply Rmult_le_pos; lra|left; apply Rinv_0_lt_compat, P2].
  - apply rnd_neg. assert (NX : fval (x -. y) < 0). { rewrite V1. assert (0 < (fval y - fval x) * (1 + e1)) by (apply Rmult_lt_0_compat; lra). lra. }
    apply float_min in NX. assert (L : fval (m -. n) <= 1).
    { destruct (Bminus_ok m n 0 1 Fm Fn) as [_ W]; try sm; [lra|]. change (fval (m -. n)) with (fval (Bminus mode_NE m n)). rewrite W.
      apply (rnd32_bounds (fval m - fval n) 0 1); try sm. lra. }
    set (t := bpow radix2 (-149)) in * . assert (T : 0 < t) by apply bpow_gt_0.
    apply (Rmult_le_reg_r (fval (m -. n))); [exact P2|]. unfold Rdiv. rewrite Rmult_assoc, Rinv_l, Rmult_1_r by lra.
    apply Rle_trans with (1 := NX). rewrite Ropp_mult_distr_l_reverse. apply Ropp_le_contravar. rewrite <- (Rmult_1_r t) at 2. apply Rmult_le_compat_l; lra.
Qed.

Lemma max_val x y : fin x -> fin y -> fin (@fmax f32 (F32 o) x y) /\ fval (@fmax f32 (F32 o) x y) = Rmax (fval x) (fval y).
Proof. apply fmax32_fin. Qed.
Lemma min_val x y : fin x -> fin y -> fin (@fmin f32 (F32 o) x y) /\ fval (@fmin f32 (F32 o) x y) = Rmin (fval x) (fval y).
Proof. apply fmin32_fin. Qed.

Lemma mul_sign x y : fin x -> fin y -> 0 <= fval x -> Rabs (fval x * fval y) <= 100000 ->
  (0 <= fval y -> 0 <= fval (x *. y)) /\ (1 <= fval x -> fval y < 0 -> fval (x *. y) < 0).
Proof.
  intros Fx Fy Px B. apply Rabs_le_inv in B. destruct (Bmult_ok x y (-100000) 100000 Fx Fy) as [F V]; try sm; [lra|].
  change (fval (x *. y)) with (fval (Bmult mode_NE x y)). rewrite V. split; [intros; apply rnd_pos0, Rmult_le_pos; assumption|].
  intros H1 Ny. apply rnd_neg. apply float_min in Ny. pose proof (bpow_gt_0 radix2 (-149)) as T.
  set (t := bpow radix2 (-149)) in * . assert (0 <= (fval x - 1) * (- fval y)) by (apply Rmult_le_pos; lra). lra.
Qed.

Section Hue.
Variables r g b : f32.
Hypothesis (Fr : fin r) (Fg : fin g) (Fb : fin b).
Hypothesis (Br : 0 <= fval r <= 1) (Bg : 0 <= fval g <= 1) (Bb : 0 <= fval b <= 1).
Let R := fval r. Let G := fval g. Let B := fval b.
Let mx := @fmax f32 (F32 o) (@fmax f32 (F32 o) r g) b.
Let mn := @fmin f32 (F32 o) (@fmin f32 (F32 o) r g) b.

Lemma mx_val : fin mx /\ fval mx = mx3 R G B.
Proof. unfold mx. destruct (max_val r g Fr Fg) as [F V]. destruct (max_val _ b F Fb) as [F' V']. split; [exact F'|]. rewrite V', V. reflexivity. Qed.
Lemma mn_val : fin mn /\ fval mn = mn3 R G B.
Proof. unfold mn. destruct (min_val r g Fr Fg) as [F V]. destruct (min_val _ b F Fb) as [F' V']. split; [exact F'|]. rewrite V', V. reflexivity. Qed.
Lemma mxmn_range : 0 <= mn3 R G B /\ mx3 R G B <= 1 /\ mn3 R G B <= mx3 R G B.
Proof. pose proof (mx3_in R G B). pose proof (mn3_in R G B). pose proof (mx3_ge R G B). pose proof (mn3_le R G B). fold R in Br. fold G in Bg. fold B in Bb. lra. Qed.

(** The hue in floats is close to the exact one. *)
Lemma hue_close : mx3 R G B <> mn3 R G B ->
  near (@hue_norm f32 (F32 o) (@hue_from_rgb_helper f32 (F32 o) r g b mx mn (mx -. mn)))
    (@hue_norm _ RArith (hue_from_rgb_helper (AF := RArith) R G B (mx3 R G B) (mn3 R G B) (mx3 R G B - mn3 R G B))) (900 * u) /\
  0 <= @hue_norm _ RArith (hue_from_rgb_helper (AF := RArith) R G B (mx3 R G B) (mn3 R G B) (mx3 R G B - mn3 R G B)) <= 359.
Proof.
  intros ND. destruct mx_val as [Fx Vx]. destruct mn_val as [Fn Vn]. pose proof mxmn_range as [B0 [B1 B2]].
  pose proof (mx3_ge R G B) as [X1 [X2 X3]]. pose proof (mn3_le R G B) as [N1 [N2 N3]]. pose proof (mx3_in R G B) as XI.
  set (X := mx3 R G B) in * . set (N := mn3 R G B) in * .
  assert (D : 0 < X - N) by lra.
  assert (QB : forall p q : f32, fin p -> fin q -> 0 <= fval p <= 1 -> 0 <= fval q <= 1 -> N <= fval p <= X -> N <= fval q <= X ->
    let f := (p -. q) /. (mx -. mn) in let e := (fval p - fval q) / (X - N) in
    near f e (4 * u) /\ (fval q <= fval p -> 0 <= fval f) /\ (fval p < fval q -> fval f < 0) /\ -1 <= e <= 1 /\ (fval q <= fval p -> 0 <= e) /\ (fval p < fval q -> e < 0)).
  { intros p q Fp Fq Bp Bq Rp Rq f e.
    destruct (quot_near p q mx mn Fp Fq Fx Fn) as [H1 [H2 H3]]; rewrite ?Vx, ?Vn; fold X N; auto; try lra; [apply Rabs_le; lra|].
    rewrite Vx, Vn in H1. split; [exact H1|]. split; [exact H2|]. split; [exact H3|]. split; [apply div_bounds; lra|].
    assert (I : 0 < / (X - N)) by (apply Rinv_0_lt_compat, D). split; intros C; unfold e, Rdiv.
    - apply Rmult_le_pos; lra.
    - assert (0 < (fval q - fval p) * / (X - N)) by (apply Rmult_lt_0_compat; lra). lra. }
  unfold hue_from_rgb_helper. cbn [feq F32]. rewrite !Beqb_fin by assumption. rewrite Vx. fold R G.
  cbn [feq fmul ffmod fsub fdiv fadd RArith]. rewrite !fzR.
  destruct (Req_EM_T X R) as [E|E]; [rewrite Reqb_eq by exact E; rewrite Req_bool_true by exact E|rewrite Reqb_ne by exact E; rewrite Req_bool_false by exact E].
  - destruct (QB g b Fg Fb Bg Bb ltac:(fold G; lra) ltac:(fold B; lra)) as [Q [Qp [Qn [Qb [Ep En]]]]].
    cbv zeta in Q, Qp, Qn, Qb, Ep, En. set (f := (g -. b) /. (mx -. mn)) in * . fold G B in Q, Qp, Qn, Qb, Ep, En. set (e := (G - B) / (X - N)) in * .
    pose proof (near_range _ _ _ Q) as Rf.
    destruct (fmod_inside f 6 e (4 * u) Q ltac:(lia) ltac:(num)) as [M VM].
    set (m := @ffmod f32 (F32 o) f $6) in * . rewrite Rfmod_0 by lra.
    assert (H60 : near ($60 *. m) (60 * e) (310 * u)).
    { eapply near_weaken; [apply (near_mul o $60 m 60 e 0 (4 * u) 60 1 60)|]; try num; [apply near_fz; sm|exact M|apply Rabs_le; lra|apply Rabs_le; lra|apply Rabs_le; lra]. }
    destruct (fz_val o 60) as [F6 V6]; [sm|].
    destruct (mul_sign $60 m F6 (proj1 M)) as [S1 S2]; [lra|rewrite V6, VM; apply Rabs_le; num|]. rewrite VM in S1, S2.
    destruct (Rle_dec B G) as [C|C].
    + specialize (Qp C). specialize (Ep C). specialize (S1 Qp).
      destruct (hue_norm_up ($60 *. m) (60 * e) (310 * u) H60 S1 ltac:(lra) ltac:(num)) as [K _].
      rewrite hue_norm_id by lra. split; [eapply near_weaken; [exact K|num]|lra].
    + specialize (Qn ltac:(lra)). specialize (En ltac:(lra)). specialize (S2 ltac:(lra) Qn).
      rewrite hue_norm_neg by lra. split.
      * eapply near_weaken; [apply (hue_norm_down ($60 *. m) (60 * e) (310 * u) H60 S2); num|num].
      * unfold Rmin. destruct (Rle_dec (60 * e + 360) 359); lra.
  - destruct (Req_EM_T X G) as [E2|E2]; [rewrite Reqb_eq by exact E2; rewrite Req_bool_true by exact E2|rewrite Reqb_ne by exact E2; rewrite Req_bool_false by exact E2].
    + destruct (QB b r Fb Fr Bb Br ltac:(fold B; lra) ltac:(fold R; lra)) as [Q [_ [_ [Qb _]]]].
      cbv zeta in Q, Qb. set (f := (b -. r) /. (mx -. mn)) in * . fold R B in Q, Qb. set (e := (B - R) / (X - N)) in * .
      assert (A : near (f +. $2) (e + 2) (8 * u)).
      { eapply near_weaken; [apply (near_add o f $2 e 2 (4 * u) 0 3)|]; try num; [exact Q|apply near_fz; sm|apply Rabs_le; lra]. }
      assert (H60 : near ($60 *. (f +. $2)) (60 * (e + 2)) (670 * u)).
      { eapply near_weaken; [apply (near_mul o $60 _ 60 (e + 2) 0 (8 * u) 60 3 180)|]; try num; [apply near_fz; sm|exact A|apply Rabs_le; lra|apply Rabs_le; lra|apply Rabs_le; lra]. }
      pose proof (near_range _ _ _ H60) as Rh. rewrite hue_norm_id by lra. split; [|lra].
      destruct (hue_norm_up _ _ _ H60) as [K _]; try num. eapply near_weaken; [exact K|num].
    + assert (E3 : X = B) by lra.
      destruct (QB r g Fr Fg Br Bg ltac:(fold R; lra) ltac:(fold G; lra)) as [Q [_ [_ [Qb _]]]].
      cbv zeta in Q, Qb. set (f := (r -. g) /. (mx -. mn)) in * . fold R G in Q, Qb. set (e := (R - G) / (X - N)) in * .
      assert (A : near (f +. $4) (e + 4) (92 / 10 * u)).
      { eapply near_weaken; [apply (near_add o f $4 e 4 (4 * u) 0 5)|]; try num; [exact Q|apply near_fz; sm|apply Rabs_le; lra]. }
      assert (H60 : near ($60 *. (f +. $4)) (60 * (e + 4)) (870 * u)).
      { eapply near_weaken; [apply (near_mul o $60 _ 60 (e + 4) 0 (92 / 10 * u) 60 5 300)|]; try num; [apply near_fz; sm|exact A|apply Rabs_le; lra|apply Rabs_le; lra|apply Rabs_le; lra]. }
      pose proof (near_range _ _ _ H60) as Rh. rewrite hue_norm_id by lra. split; [|lra].
      destruct (hue_norm_up _ _ _ H60) as [K _]; try num. eapply near_weaken; [exact K|num].
Qed.
End Hue.
End E.
