(** * The weighted distance of 8-bit colours in binary32 (C177) *)
From Coq Require Import ZArith QArith Reals Lra Lia List Bool.
From Flocq Require Import Core IEEE754.BinarySingleNaN.
From Verif Require Import Arith Outcome ColorModel GammaModel MatrixModel SpaceModel Heap Converter Calculation Distance F32 F32Facts RArith
  Spec Spec32 Laws NormalForms Alpha8 Core_Proofs Core2_Proofs Core3_Proofs Core4_Proofs Hue32 Spec_Matrix Spec_Conv Spec_Calc Spec_Round
  Conv_Proofs Conv2_Proofs Conv3_Proofs Run_Proofs Round_Proofs Round2_Proofs Error_Proofs Error2_Proofs Error4_Proofs Error5_Proofs Error7_Proofs Error8_Proofs Spec_Error
  Calc_Proofs Calc3_Proofs Spec_Distance Distance_Proofs Distance2_Proofs Spec_Rank Veil_Proofs Byte3_Proofs Rank_Proofs.
Import ListNotations.
Local Open Scope R_scope.

Local Notation fin x := (is_finite x = true).
Local Notation fval := (@B2R 24 128).
Local Notation rel := Veil_Proofs.rel.

(** ** Relative errors of numbers that are 0 or at least 1/1000 *)
Definition apart (v : R) : Prop := v = 0 \/ / 1000 <= v.
Lemma apart_pos v : apart v -> 0 <= v.
Proof. intros [->|A]; lra. Qed.
Lemma apart_add v w : apart v -> apart w -> apart (v + w).
Proof. intros [->|A] [->|B]; [left; ring|right; lra|right; lra|right; lra]. Qed.
Lemma apart_scale k v : 1 <= k -> apart v -> apart (k * v).
Proof. intros K [->|A]; [left; ring|right]. apply Rle_trans with (1 * v); [lra|]. apply Rmult_le_compat_r; lra. Qed.

Lemma grnd z v k : apart v -> 0 <= k <= 1000 -> Rabs (z - v) <= k * u * v -> Rabs (rnd32 z - v) <= (k + 101 / 100) * u * v.
Proof.
  intros [->|A] K E.
  - rewrite Rmult_0_r in E. apply Rabs_le_inv in E. assert (z = 0) as -> by lra. rewrite rnd32_0. replace (0 - 0) with 0 by ring. rewrite Rabs_R0. lra.
  - pose proof (rnd_err z) as R. assert (KU : 0 <= k * u * v <= 1000 * u * v).
    { split; [apply Rmult_le_pos; [|lra]|]; [num|]. apply Rmult_le_compat_r; [lra|num]. }
    apply Rabs_le_inv in E. set (w := k * u * v) in * . rewrite (Rabs_pos_eq z) in R by num. apply Rabs_le_inv in R.
    replace ((k + 101 / 100) * u * v) with (w + 101 / 100 * u * v) by (unfold w; ring). clearbody w. apply Rabs_le. num.
Qed.

Section W.
Variable o : oracle.
Hypothesis AS : accurate_square o.
Local Notation "$ n" := (@fz f32 (F32 o) n) (at level 0, n at level 0, format "$ n").
Local Notation "x +. y" := (@fadd f32 (F32 o) x y) (at level 50, left associativity).
Local Notation "x -. y" := (@fsub f32 (F32 o) x y) (at level 50, left associativity).
Local Notation "x *. y" := (@fmul f32 (F32 o) x y) (at level 40, left associativity).
Local Notation "x /. y" := (@fdiv f32 (F32 o) x y) (at level 40, left associativity).
Local Notation sq x := (@fpow f32 (F32 o) x (@fz f32 (F32 o) 2)).

Lemma grel_mul x y v w k l : rel x v k -> rel y w l -> 0 <= v -> 0 <= w -> apart (v * w) -> v * w <= 1000000 -> 0 <= k <= 400 -> 0 <= l <= 400 ->
  rel (x *. y) (v * w) (k + l + 11 / 10).
Proof.
  intros Rx Ry Hv Hw A U K L. destruct Rx as [Fx Ex]. destruct Ry as [Fy Ey].
  assert (P : 0 <= v * w) by (apply Rmult_le_pos; lra).
  assert (D : Rabs (fval x * fval y - v * w) <= (k + l + 3 / 100) * u * (v * w)).
  { replace (fval x * fval y - v * w) with ((fval x - v) * w + v * (fval y - w) + (fval x - v) * (fval y - w)) by ring.
    eapply Rle_trans; [apply Rabs_triang|]. eapply Rle_trans; [apply Rplus_le_compat_r, Rabs_triang|]. rewrite !Rabs_mult, (Rabs_pos_eq w), (Rabs_pos_eq v) by lra.
    assert (D1 : Rabs (fval x - v) * w <= k * u * v * w) by (apply Rmult_le_compat_r; lra).
    assert (D2 : v * Rabs (fval y - w) <= v * (l * u * w)) by (apply Rmult_le_compat_l; lra).
    assert (D3 : Rabs (fval x - v) * Rabs (fval y - w) <= k * u * v * (l * u * w)) by (apply Rmult_le_compat; try apply Rabs_pos; assumption).
    assert (KL : k * l * u <= 3 / 100).
    { apply Rle_trans with (400 * 400 * u); [|num]. apply Rmult_le_compat_r; [num|]. apply Rmult_le_compat; lra. }
    assert (D4 : k * u * v * (l * u * w) <= 3 / 100 * (u * (v * w))).
    { replace (k * u * v * (l * u * w)) with (k * l * u * (u * (v * w))) by ring. apply Rmult_le_compat_r; [|exact KL]. apply Rmult_le_pos; [num|lra]. }
    replace ((k + l + 3 / 100) * u * (v * w)) with (k * u * v * w + v * (l * u * w) + 3 / 100 * (u * (v * w))) by ring. lra. }
  assert (Hk : (k + l + 3 / 100) * u * (v * w) <= 1000).
  { apply Rle_trans with (1000 * u * 1000000); [|num]. apply Rmult_le_compat; try lra; [apply Rmult_le_pos; [lra|num]|]. apply Rmult_le_compat_r; [num|lra]. }
  destruct (Bmult_ok x y (-2000000) 2000000 Fx Fy) as [Fm Vm]; try sm; [apply Rabs_le_inv in D; lra|].
  split; [exact Fm|]. change (x *. y) with (Bmult mode_NE x y). rewrite Vm.
  pose proof (grnd _ (v * w) (k + l + 3 / 100) A ltac:(lra) D) as R. apply Rle_trans with (1 := R).
  apply Rmult_le_compat_r; [lra|]. apply Rmult_le_compat_r; [num|lra].
Qed.
Lemma grel_add x y v w k : rel x v k -> rel y w k -> apart v -> apart w -> v + w <= 1000000 -> 0 <= k <= 900 -> rel (x +. y) (v + w) (k + 102 / 100).
Proof.
  intros Rx Ry Av Aw B K. pose proof (apart_pos _ Av) as Hv. pose proof (apart_pos _ Aw) as Hw. destruct Rx as [Fx Ex]. destruct Ry as [Fy Ey].
  assert (D : Rabs (fval x + fval y - (v + w)) <= k * u * (v + w)).
  { replace (fval x + fval y - (v + w)) with ((fval x - v) + (fval y - w)) by ring. eapply Rle_trans; [apply Rabs_triang|]. lra. }
  assert (Hk : k * u * (v + w) <= 1000).
  { apply Rle_trans with (1000 * u * 1000000); [|num]. apply Rmult_le_compat; try lra; [apply Rmult_le_pos; [lra|num]|]. apply Rmult_le_compat_r; [num|lra]. }
  destruct (Bplus_ok x y (-2000000) 2000000 Fx Fy) as [Fm Vm]; try sm; [apply Rabs_le_inv in D; lra|].
  split; [exact Fm|]. change (x +. y) with (Bplus mode_NE x y). rewrite Vm.
  pose proof (grnd _ (v + w) k (apart_add _ _ Av Aw) ltac:(lra) D) as R. apply Rle_trans with (1 := R).
  apply Rmult_le_compat_r; [lra|]. apply Rmult_le_compat_r; [num|lra].
Qed.

(** A difference in steps of 1/255. *)
Lemma scaled x y m n : is_byte m -> is_byte n -> fin x -> fin y -> fval x = q255 m -> fval y = q255 n ->
  let d := (x -. y) *. $255 in
  fin d /\ Rabs (fval d - (IZR m - IZR n)) <= 1122 * u /\ (m = n -> fval d = 0) /\ (m <> n -> 9 / 10 <= Rabs (fval d)) /\ Rabs (fval d) <= 255.
Proof.
  intros Hm Hn Fx Fy Vx Vy. cbv zeta. destruct (diff o x y m n Hm Hn Fx Fy Vx Vy) as [Fd [Ed [Zd [Ad Bd]]]].
  set (e := x -. y) in * . clearbody e. destruct (fz_val o 255) as [F2 V2]; [sm|]. apply Rabs_le_inv in Bd.
  destruct (Bmult_ok e $255 (-255) 255 Fd F2) as [Fm Vm]; try sm; [rewrite V2; lra|]. rewrite V2 in Vm.
  change (e *. $255) with (Bmult mode_NE e $255). split; [exact Fm|]. rewrite Vm.
  assert (B : -255 <= rnd32 (fval e * 255) <= 255) by (apply (rnd32_bounds _ (-255) 255); try sm; lra).
  assert (E : Rabs (rnd32 (fval e * 255) - fval e * 255) <= u * 255 + tiny).
  { eapply Rle_trans; [apply rnd_err|]. assert (Rabs (fval e * 255) <= 255) by (apply Rabs_le; lra). assert (u * Rabs (fval e * 255) <= u * 255) by (apply Rmult_le_compat_l; [num|assumption]). lra. }
  assert (T : Rabs (rnd32 (fval e * 255) - (IZR m - IZR n)) <= 1122 * u).
  { apply Rabs_le_inv in E. apply Rabs_le_inv in Ed. apply Rabs_le. num. }
  split; [exact T|]. split; [|split].
  - intros Q. rewrite (Zd Q), Rmult_0_l. apply rnd32_0.
  - intros D. apply Rabs_le_inv in T. destruct (Z_lt_le_dec m n) as [L|L].
    + assert (IZR m + 1 <= IZR n) by (rewrite <- plus_IZR; apply IZR_le; lia). rewrite Rabs_left1; num.
    + assert (IZR n + 1 <= IZR m) by (rewrite <- plus_IZR; apply IZR_le; lia). rewrite Rabs_pos_eq; num.
  - apply Rabs_le. exact B.
Qed.

Lemma sq_scaled (d : f32) : fin d -> (fval d = 0 \/ 9 / 10 <= Rabs (fval d)) -> Rabs (fval d) <= 255 ->
  rel (sq d) (fval d * fval d) 17 /\ apart (fval d * fval d) /\ fval d * fval d <= 65025.
Proof.
  intros Fd Z B. destruct (AS d Fd) as [Fs [S0 Es]]; [change (B2R d) with (fval d); lra|].
  change (o_pow o d $2) with (sq d) in * . change (@B2R 24 128) with fval in * .
  assert (P : fval d * fval d = 0 \/ 81 / 100 <= fval d * fval d).
  { destruct Z as [Z|Z]; [left; rewrite Z; ring|right]. rewrite <- (Rabs_pos_eq (fval d * fval d)) by (apply Rle_0_sqr). rewrite Rabs_mult.
    apply Rle_trans with (9 / 10 * (9 / 10)); [lra|]. apply Rmult_le_compat; lra. }
  split; [split; [exact Fs|]|split].
  - destruct P as [P|P].
    + rewrite S0, P; [rewrite Rminus_0_r, Rabs_R0; lra|]. apply Rmult_integral in P. tauto.
    + eapply Rle_trans; [exact Es|]. replace (2 ^ 60) with 1152921504606846976 by (simpl; ring). num.
  - destruct P as [P|P]; [left|right]; lra.
  - rewrite <- (Rabs_pos_eq (fval d * fval d)) by (apply Rle_0_sqr). rewrite Rabs_mult. apply Rle_trans with (255 * 255); [|lra]. apply Rmult_le_compat; try apply Rabs_pos; assumption.
Qed.

(** The two weights that depend on the mean red. *)
Lemma weights x y m n : is_byte m -> is_byte n -> fin x -> fin y -> fval x = q255 m -> fval y = q255 n ->
  let a := (x +. y) /. $2 *. $255 in let M := (IZR m + IZR n) / 2 in
  rel ($2 +. a /. $256) (2 + M / 256) 5 /\ rel ($2 +. ($255 -. a) /. $256) (2 + (255 - M) / 256) 5 /\ 0 <= M <= 255.
Proof.
  intros Hm Hn Fx Fy Vx Vy. cbv zeta. destruct (q255_near m Hm) as [Em Bm]. destruct (q255_near n Hn) as [En Bn].
  pose proof (byte_bounds m Hm) as Rm. pose proof (byte_bounds n Hn) as Rn.
  assert (Nx : near x (IZR m / 255) (11 / 10 * u)). { split; [exact Fx|]. rewrite Vx. apply Rabs_le_inv in Em. apply Rabs_le. num. }
  assert (Ny : near y (IZR n / 255) (11 / 10 * u)). { split; [exact Fy|]. rewrite Vy. apply Rabs_le_inv in En. apply Rabs_le. num. }
  set (a := (x +. y) /. $2 *. $255). set (M := (IZR m + IZR n) / 2).
  assert (HM : 0 <= M <= 255) by (unfold M; lra).
  assert (Na : near a M (1072 * u)).
  { unfold a. replace M with ((IZR m / 255 + IZR n / 255) / 2 * 255) by (unfold M; field).
    assert (N1 : near (x +. y) (IZR m / 255 + IZR n / 255) (43 / 10 * u)).
    { eapply near_weaken; [apply (near_add o x y _ _ _ _ 2 Nx Ny)|]; [apply Rabs_le; lra|num|num]. }
    assert (N2 : near ((x +. y) /. $2) ((IZR m / 255 + IZR n / 255) / 2) (32 / 10 * u)).
    { eapply near_weaken; [apply (near_quot o _ _ _ 2 1 N1)|]; [lia|apply Rabs_le; lra|num|num]. }
    eapply near_weaken; [apply (near_mul o _ _ _ _ _ _ 1 255 255 N2 (near_fz o 255 ltac:(sm)))|]; [apply Rabs_le; lra|apply Rabs_le; lra|apply Rabs_le; lra|num|num]. }
  clearbody a.
  assert (N3 : near (a /. $256) (M / 256) (52 / 10 * u)) by (eapply near_weaken; [apply (near_quot o _ _ _ 256 1 Na)|]; [lia|apply Rabs_le; lra|num|num]).
  assert (N4 : near ($255 -. a) (255 - M) (1330 * u)) by (eapply near_weaken; [apply (near_sub o _ _ _ _ _ _ 255 (near_fz o 255 ltac:(sm)) Na)|]; [apply Rabs_le; lra|num|num]).
  assert (N5 : near (($255 -. a) /. $256) ((255 - M) / 256) (63 / 10 * u)) by (eapply near_weaken; [apply (near_quot o _ _ _ 256 1 N4)|]; [lia|apply Rabs_le; lra|num|num]).
  assert (N6 : near ($2 +. a /. $256) (2 + M / 256) (10 * u)) by (eapply near_weaken; [apply (near_add o _ _ _ _ _ _ 3 (near_fz o 2 ltac:(sm)) N3)|]; [apply Rabs_le; lra|num|num]).
  assert (N7 : near ($2 +. ($255 -. a) /. $256) (2 + (255 - M) / 256) (10 * u)) by (eapply near_weaken; [apply (near_add o _ _ _ _ _ _ 3 (near_fz o 2 ltac:(sm)) N5)|]; [apply Rabs_le; lra|num|num]).
  split; [|split; [|exact HM]].
  - destruct N6 as [F E]. split; [exact F|]. apply Rle_trans with (1 := E). num.
  - destruct N7 as [F E]. split; [exact F|]. apply Rle_trans with (1 := E). num.
Qed.

Lemma sqrt_rel2 v n : 0 <= n -> Rabs (v - n) <= 27 * u * n -> Rabs (sqrt v - sqrt n) <= 136 / 10 * u * sqrt n.
Proof.
  intros N E. apply Rabs_le_inv in E. assert (V : 0 <= v) by num. pose proof (sqrt_pos n) as P. pose proof (sqrt_pos v) as Q.
  set (a := sqrt v) in * . set (b := sqrt n) in * . assert (A : a * a = v) by (apply sqrt_sqrt; exact V). assert (B : b * b = n) by (apply sqrt_sqrt; exact N).
  destruct (Rle_lt_or_eq_dec 0 b P) as [Pb|Pb].
  - assert (La : 999 / 1000 * b <= a). { apply Rsqr_incr_0; try lra. unfold Rsqr. rewrite A. replace (999 / 1000 * b * (999 / 1000 * b)) with (998001 / 1000000 * (b * b)) by field. rewrite B. num. }
    assert (NP : 0 < n) by (rewrite <- B; apply Rmult_lt_0_compat; lra). assert (X : 136 / 10 * u * b * (1999 / 1000 * b) = 271864 / 10000 * u * n) by (rewrite <- B; field).
    apply Rabs_le. split; apply Rnot_lt_le; intros C.
    + assert (G : (b - a) * (b + a) = n - v) by (rewrite <- A, <- B; ring).
      assert (136 / 10 * u * b * (1999 / 1000 * b) <= (b - a) * (b + a)). { apply Rmult_le_compat; [|lra|lra|lra]. apply Rmult_le_pos; [num|lra]. } num.
    + assert (G : (a - b) * (b + a) = v - n) by (rewrite <- A, <- B; ring).
      assert (136 / 10 * u * b * (1999 / 1000 * b) <= (a - b) * (b + a)). { apply Rmult_le_compat; [|lra|lra|lra]. apply Rmult_le_pos; [num|lra]. } num.
  - rewrite <- Pb in * . assert (H : a = 0). { assert (H : a * a = 0) by (rewrite A; num). apply Rmult_integral in H. tauto. } rewrite H. replace (0 - 0) with 0 by ring. rewrite Rabs_R0. lra.
Qed.

(** The weighted norm. *)
Definition wnorm (p q d e f : R) : R := sqrt (p * (d * d) + 4 * (e * e) + q * (f * f)).
Lemma wnorm_euclid p q d e f : 0 <= p -> 0 <= q -> wnorm p q d e f = euclid [sqrt p * d; 2 * e; sqrt q * f] [0; 0; 0].
Proof.
  intros P Q. rewrite euclid3. unfold wnorm. f_equal.
  replace ((sqrt p * d - 0) * (sqrt p * d - 0)) with (sqrt p * sqrt p * (d * d)) by ring. replace ((sqrt q * f - 0) * (sqrt q * f - 0)) with (sqrt q * sqrt q * (f * f)) by ring.
  rewrite !sqrt_sqrt by assumption. ring.
Qed.
Lemma wnorm_close p q d e f a b c k : 0 <= p -> 0 <= q -> p + q <= 5 -> Rabs (d - a) <= k -> Rabs (e - b) <= k -> Rabs (f - c) <= k ->
  Rabs (wnorm p q d e f - wnorm p q a b c) <= 3 * k.
Proof.
  intros P Q PQ H1 H2 H3. assert (K0 : 0 <= k) by (pose proof (Rabs_pos (d - a)); lra). rewrite !wnorm_euclid by assumption.
  set (v := [sqrt p * d; 2 * e; sqrt q * f]). set (w := [sqrt p * a; 2 * b; sqrt q * c]).
  assert (D : euclid v w <= 3 * k).
  { unfold v, w. rewrite euclid3. replace (3 * k) with (sqrt (3 * k * (3 * k))) by (apply sqrt_square; lra). apply sqrt_le_1_alt.
    assert (SS : forall x, Rabs x <= k -> x * x <= k * k) by (intros x Hx; rewrite <- (Rabs_pos_eq (x * x)) by apply Rle_0_sqr; rewrite Rabs_mult; apply Rmult_le_compat; try apply Rabs_pos; exact Hx).
    pose proof (SS _ H1) as S1. pose proof (SS _ H2) as S2. pose proof (SS _ H3) as S3.
    replace ((sqrt p * d - sqrt p * a) * (sqrt p * d - sqrt p * a)) with (sqrt p * sqrt p * ((d - a) * (d - a))) by ring.
    replace ((sqrt q * f - sqrt q * c) * (sqrt q * f - sqrt q * c)) with (sqrt q * sqrt q * ((f - c) * (f - c))) by ring. rewrite !sqrt_sqrt by assumption.
    assert (T1 : p * ((d - a) * (d - a)) <= p * (k * k)) by (apply Rmult_le_compat_l; assumption). assert (T2 : q * ((f - c) * (f - c)) <= q * (k * k)) by (apply Rmult_le_compat_l; assumption).
    assert (T3 : (p + q) * (k * k) <= 5 * (k * k)) by (apply Rmult_le_compat_r; [apply Rle_0_sqr|exact PQ]). lra. }
  pose proof (euclid_triangle v w [0; 0; 0] eq_refl eq_refl eq_refl) as T1. pose proof (euclid_triangle w v [0; 0; 0] eq_refl eq_refl eq_refl) as T2. rewrite (euclid_sym w v) in T2.
  apply Rabs_le. lra.
Qed.

Lemma weighted_close t1 t2 s1 s2 : is_bytes t1 -> is_bytes t2 -> deep_of t1 s1 -> deep_of t2 s2 -> exists x r, @weighted_f f32 (F32 o) s1 s2 = Ok x /\
  fin x /\ Rabs (fval x - r) <= 158 / 10 * u * r /\ Rabs (r - redmean (fractions_of t1) (fractions_of t2)) <= 133 / 10 * u /\ 0 <= r <= 317 / 100 /\ (t1 = t2 -> r = 0).
Proof.
  destruct t1 as [[r1 g1] b1]. destruct t2 as [[r2 g2] b2]. intros [Hr1 [Hg1 Hb1]] [Hr2 [Hg2 Hb2]] [x1 [y1 [z1 [C1 [[Fx1 Vx1] [[Fy1 Vy1] [Fz1 Vz1]]]]]]] [x2 [y2 [z2 [C2 [[Fx2 Vx2] [[Fy2 Vy2] [Fz2 Vz2]]]]]]].
  destruct (scaled x1 x2 r1 r2 Hr1 Hr2 Fx1 Fx2 Vx1 Vx2) as [Fr [Er [Zr [Ar Br]]]]. destruct (scaled y1 y2 g1 g2 Hg1 Hg2 Fy1 Fy2 Vy1 Vy2) as [Fg [Eg [Zg [Ag Bg]]]]. destruct (scaled z1 z2 b1 b2 Hb1 Hb2 Fz1 Fz2 Vz1 Vz2) as [Fb [Eb [Zb [Ab Bb]]]].
  destruct (weights x1 x2 r1 r2 Hr1 Hr2 Fx1 Fx2 Vx1 Vx2) as [Wp [Wq HM]]. cbv zeta in * .
  assert (RM : redmean (fractions_of (r1, g1, b1)) (fractions_of (r2, g2, b2)) = wnorm (2 + (IZR r1 + IZR r2) / 2 / 256) (2 + (255 - (IZR r1 + IZR r2) / 2) / 256) (IZR r1 - IZR r2) (IZR g1 - IZR g2) (IZR b1 - IZR b2) / 255).
  { assert (Q : forall v, sqrt v / 255 = sqrt (v / (255 * 255))) by (intros v; rewrite sqrt_div_alt by lra; rewrite sqrt_square by lra; reflexivity).
    unfold redmean, fractions_of, wnorm. rewrite Q. f_equal. field. }
  rewrite RM. clear RM. set (M := (IZR r1 + IZR r2) / 2) in * . set (p := 2 + M / 256) in * . set (q := 2 + (255 - M) / 256) in * .
  assert (Hp : 2 <= p <= 3) by (unfold p; lra). assert (Hq : 2 <= q <= 3) by (unfold q; lra). assert (Hpq : p + q <= 5) by (unfold p, q; lra).
  eexists. exists (wnorm p q (fval ((x1 -. x2) *. $255)) (fval ((y1 -. y2) *. $255)) (fval ((z1 -. z2) *. $255)) / 255).
  split. { unfold weighted_f, with3. rewrite C1, C2. reflexivity. }
  assert (Zall : (r1, g1, b1) = (r2, g2, b2) -> fval ((x1 -. x2) *. $255) = 0 /\ fval ((y1 -. y2) *. $255) = 0 /\ fval ((z1 -. z2) *. $255) = 0) by (intros Q; injection Q as Qr Qg Qb; auto).
  assert (Kr : fval ((x1 -. x2) *. $255) = 0 \/ 9 / 10 <= Rabs (fval ((x1 -. x2) *. $255))) by (destruct (Z.eq_dec r1 r2); auto).
  assert (Kg : fval ((y1 -. y2) *. $255) = 0 \/ 9 / 10 <= Rabs (fval ((y1 -. y2) *. $255))) by (destruct (Z.eq_dec g1 g2); auto).
  assert (Kb : fval ((z1 -. z2) *. $255) = 0 \/ 9 / 10 <= Rabs (fval ((z1 -. z2) *. $255))) by (destruct (Z.eq_dec b1 b2); auto).
  set (wp := $2 +. (x1 +. x2) /. $2 *. $255 /. $256) in * . set (wq := $2 +. ($255 -. (x1 +. x2) /. $2 *. $255) /. $256) in * .
  set (dr := (x1 -. x2) *. $255) in * . set (dg := (y1 -. y2) *. $255) in * . set (db := (z1 -. z2) *. $255) in * . clearbody wp wq dr dg db. clear Zr Zg Zb Ar Ag Ab.
  destruct (sq_scaled dr Fr Kr Br) as [Sr [Pr Lr]]. destruct (sq_scaled dg Fg Kg Bg) as [Sg [Pg Lg]]. destruct (sq_scaled db Fb Kb Bb) as [Sb [Pb Lb]].
  pose proof (apart_pos _ Pr) as Nr. pose proof (apart_pos _ Pg) as Ng. pose proof (apart_pos _ Pb) as Nb.
  assert (Ur : p * (fval dr * fval dr) <= 3 * 65025) by (apply Rmult_le_compat; lra). assert (Ub : q * (fval db * fval db) <= 3 * 65025) by (apply Rmult_le_compat; lra).
  assert (Ir : 0 <= p * (fval dr * fval dr)) by (apply Rmult_le_pos; lra). assert (Ib : 0 <= q * (fval db * fval db)) by (apply Rmult_le_pos; lra).
  assert (R4 : rel $4 4 0). { destruct (fz_val o 4) as [F4 V4]; [sm|]. split; [exact F4|]. rewrite V4. replace (4 - 4) with 0 by ring. rewrite Rabs_R0. lra. }
  pose proof (apart_scale p _ ltac:(lra) Pr) as Apr. pose proof (apart_scale 4 _ ltac:(lra) Pg) as Apg. pose proof (apart_scale q _ ltac:(lra) Pb) as Apb.
  pose proof (grel_mul _ _ _ _ _ _ Wp Sr ltac:(lra) Nr Apr ltac:(lra) ltac:(lra) ltac:(lra)) as Mr.
  pose proof (grel_mul _ _ _ _ _ _ R4 Sg ltac:(lra) Ng Apg ltac:(lra) ltac:(lra) ltac:(lra)) as Mg.
  pose proof (grel_mul _ _ _ _ _ _ Wq Sb ltac:(lra) Nb Apb ltac:(lra) ltac:(lra) ltac:(lra)) as Mb.
  set (N1 := p * (fval dr * fval dr)) in * . set (N2 := 4 * (fval dg * fval dg)) in * . set (N3 := q * (fval db * fval db)) in * .
  pose proof (apart_pos _ Apg) as Ig. assert (Ug : N2 <= 4 * 65025) by (unfold N2; lra).
  assert (Mg' : rel ($4 *. sq dg) N2 (231 / 10)) by (apply (rel_weaken _ _ (0 + 17 + 11 / 10)); [exact Ig|exact Mg|lra]).
  assert (Mr' : rel (wp *. sq dr) N1 (231 / 10)) by (apply (rel_weaken _ _ (5 + 17 + 11 / 10)); [exact Ir|exact Mr|lra]).
  pose proof (grel_add _ _ _ _ _ Mr' Mg' Apr Apg ltac:(lra) ltac:(lra)) as A1.
  assert (Mb' : rel (wq *. sq db) N3 (231 / 10 + 102 / 100)) by (apply (rel_weaken _ _ (5 + 17 + 11 / 10)); [exact Ib|exact Mb|lra]).
  pose proof (grel_add _ _ _ _ _ A1 Mb' (apart_add _ _ Apr Apg) Apb ltac:(lra) ltac:(lra)) as A2.
  assert (UN : N1 + N2 + N3 <= 10 * 65025).
  { assert (p * (fval dr * fval dr) <= p * 65025) by (apply Rmult_le_compat_l; lra). assert (q * (fval db * fval db) <= q * 65025) by (apply Rmult_le_compat_l; lra). unfold N1, N3. lra. }
  assert (AN : apart (N1 + N2 + N3)) by (apply apart_add; [apply apart_add|]; assumption).
  set (S := wp *. sq dr +. $4 *. sq dg +. wq *. sq db) in * .
  assert (WN : wnorm p q (fval dr) (fval dg) (fval db) = sqrt (N1 + N2 + N3)) by reflexivity.
  set (N := N1 + N2 + N3) in * . assert (I : 0 <= N) by (apply (apart_pos _ AN)).
  assert (SN : rel S N (2516 / 100)) by (apply (rel_weaken _ _ (231 / 10 + 102 / 100 + 102 / 100)); [exact I|exact A2|lra]).
  destruct SN as [FS ES]. assert (PS : 0 <= fval S) by (apply Rabs_le_inv in ES; num).
  assert (ES' : Rabs (fval S - N) <= 27 * u * N) by (apply Rle_trans with (1 := ES); apply Rmult_le_compat_r; [exact I|num]).
  pose proof (sqrt_rel2 _ _ I ES') as EQ. destruct (Bsqrt_ok S FS PS) as [FQ VQ]. change (Bsqrt mode_NE S) with (@fsqrt f32 (F32 o) S) in * .
  assert (ASN : apart (sqrt N)).
  { destruct AN as [->|AN]; [left; apply sqrt_0|right]. apply Rle_trans with (sqrt (/ 1000 * / 1000)); [rewrite sqrt_square; lra|apply sqrt_le_1_alt; lra]. }
  assert (USN : sqrt N <= 255 * (317 / 100)). { rewrite <- (sqrt_square (255 * (317 / 100))) by lra. apply sqrt_le_1_alt. lra. }
  assert (RQ : rel (@fsqrt f32 (F32 o) S) (sqrt N) (146 / 10 + 1 / 100)).
  { split; [exact FQ|]. rewrite VQ. apply Rle_trans with (1 := grnd _ (sqrt N) (136 / 10) ASN ltac:(lra) EQ). apply Rmult_le_compat_r; [apply sqrt_pos|num]. }
  destruct (fz_val o 255) as [F2 V2]; [sm|]. pose proof (sqrt_pos N) as PN.
  assert (RD : fin (@fsqrt f32 (F32 o) S /. $255) /\ Rabs (fval (@fsqrt f32 (F32 o) S /. $255) - sqrt N / 255) <= 158 / 10 * u * (sqrt N / 255)).
  { destruct RQ as [_ EQ']. apply Rabs_le_inv in EQ'.
    destruct (Bdiv_ok (@fsqrt f32 (F32 o) S) $255 (-10) 10 FQ F2) as [FD VD]; try sm; [rewrite V2; lra|rewrite V2; num|].
    change (@fsqrt f32 (F32 o) S /. $255) with (Bdiv mode_NE (@fsqrt f32 (F32 o) S) $255). split; [exact FD|]. rewrite VD, V2.
    assert (AV : sqrt N = 0 \/ 9 / 10 <= sqrt N).
    { assert (NV : N = 0 \/ 81 / 100 <= N).
      { assert (K : forall d : f32, (fval d = 0 \/ 9 / 10 <= Rabs (fval d)) -> fval d * fval d = 0 \/ 81 / 100 <= fval d * fval d).
        { intros d [Z|Z]; [left; rewrite Z; ring|right]. rewrite <- (Rabs_pos_eq (fval d * fval d)) by (apply Rle_0_sqr). rewrite Rabs_mult. apply Rle_trans with (9 / 10 * (9 / 10)); [lra|]. apply Rmult_le_compat; lra. }
        unfold N, N1, N2, N3 in * . destruct (K dr Kr) as [->|K1].
        - destruct (K dg Kg) as [->|K2].
          + destruct (K db Kb) as [->|K3]; [left; ring|right]. assert (1 * (fval db * fval db) <= q * (fval db * fval db)) by (apply Rmult_le_compat_r; lra). lra.
          + right. lra.
        - right. assert (1 * (fval dr * fval dr) <= p * (fval dr * fval dr)) by (apply Rmult_le_compat_r; lra). lra. }
      destruct NV as [->|NV]; [left; apply sqrt_0|right]. rewrite <- (sqrt_square (9 / 10)) by lra. apply sqrt_le_1_alt. lra. }
    apply Rle_trans with ((1461 / 100 + 101 / 100) * u * (sqrt N / 255)); [|apply Rmult_le_compat_r; [lra|num]].
    apply grnd; [|lra|].
    - destruct AV as [->|AV]; [left; field|right; lra].
    - apply Rabs_le. num. }
  rewrite WN. split; [exact (proj1 RD)|]. split; [exact (proj2 RD)|]. split; [|split].
  - rewrite <- WN. pose proof (wnorm_close p q _ _ _ _ _ _ _ ltac:(lra) ltac:(lra) Hpq Er Eg Eb) as WC. apply Rabs_le_inv in WC. apply Rabs_le. num.
  - lra.
  - intros T. destruct (Zall T) as [Zr [Zg Zb]]. assert (N0 : N = 0) by (unfold N, N1, N2, N3; rewrite Zr, Zg, Zb; ring). rewrite N0, sqrt_0. field.
Qed.
End W.

Lemma redmean_same t : redmean (fractions_of t) (fractions_of t) = 0.
Proof.
  destruct t as [[r g] b]. unfold redmean, fractions_of. rewrite <- sqrt_0. f_equal. ring.
Qed.
Lemma redmean_differ t1 t2 : is_bytes t1 -> is_bytes t2 -> t1 <> t2 -> / 255 <= redmean (fractions_of t1) (fractions_of t2).
Proof.
  intros B1 B2 N. apply Rle_trans with (1 := differ t1 t2 N). destruct t1 as [[r1 g1] b1]. destruct t2 as [[r2 g2] b2]. destruct B1 as [H1 _]. destruct B2 as [H2 _].
  pose proof (byte_bounds _ H1). pose proof (byte_bounds _ H2). unfold byte_distance, fractions_of, redmean. rewrite euclid3. apply sqrt_le_1_alt.
  assert (K : forall k x, 1 <= k -> x * x <= k * (x * x)) by (intros k x L; rewrite <- (Rmult_1_l (x * x)) at 1; apply Rmult_le_compat_r; [apply Rle_0_sqr|exact L]).
  apply Rplus_le_compat; [apply Rplus_le_compat|]; apply K; lra.
Qed.

Lemma weighted_accuracy : forall o, accurate_square o -> forall (h : heap f32) p1 c1 t1 p2 c2 t2, at_addr h p1 c1 -> at_addr h p2 c2 ->
  @wf_color f32 (F32 o) RGB_TRUE c1 -> @wf_color f32 (F32 o) RGB_TRUE c2 -> is_bytes t1 -> is_bytes t2 -> holds_bytes t1 c1 -> holds_bytes t2 c2 ->
  exists x h', @distance f32 (F32 o) Weighted (Some p1) (Some p2) h = (Ok x, h') /\ approx (redmean (fractions_of t1) (fractions_of t2)) (/ 262144) x /\ (B2R x = 0 <-> t1 = t2).
Proof.
  intros o AS h p1 c1 t1 p2 c2 t2 H1 H2 W1 W2 B1 B2 K1 K2. destruct (Nat.eq_dec p1 p2) as [E|N].
  - exists (@fz f32 (F32 o) 0), h. destruct (fz_val o 0) as [F0 V0]; [sm|]. split; [rewrite E; apply (@distance_same f32 (F32 o))|].
    assert (T : t1 = t2). { assert (c1 = c2). { rewrite <- E in H2. unfold at_addr in H1, H2. congruence. } subst c2. apply (same_bytes _ _ c1); assumption. }
    split; [|split; [intros _; exact T|intros _; exact V0]]. rewrite T, redmean_same. apply zero_approx. lra.
  - destruct (deep_made o c1 t1 W1 B1 K1) as [s1 [E1 [_ D1]]]. destruct (deep_made o c2 t2 W2 B2 K2) as [s2 [E2 [_ D2]]].
    destruct (bytes_run o Weighted h p1 c1 p2 c2 s1 s2 eq_refl N H1 H2 W1 W2 E1 E2) as [h' R].
    destruct (weighted_close o AS t1 t2 s1 s2 B1 B2 D1 D2) as [x [r [Ex [Fx [Er [Em [Br Zr]]]]]]].
    exists x, h'. split; [rewrite R; cbn [on_components]; rewrite Ex; reflexivity|]. change (@B2R 24 128) with fval.
    assert (A : Rabs (fval x - redmean (fractions_of t1) (fractions_of t2)) <= / 262144).
    { apply Rabs_le_inv in Er. apply Rabs_le_inv in Em. apply Rabs_le. num. }
    split; [split; [exact Fx|exact A]|]. split.
    + intros Z. assert (DT : {t1 = t2} + {t1 <> t2}) by (repeat decide equality). destruct DT as [T|T]; [exact T|].
      pose proof (redmean_differ t1 t2 B1 B2 T) as L. rewrite Z in A. apply Rabs_le_inv in A. lra.
    + intros T. rewrite (Zr T) in Er. apply Rabs_le_inv in Er. lra.
Qed.

(** ** Symmetry *)
Lemma zeros (f : f32) : fin f -> fval f = 0 -> f = B754_zero false \/ f = B754_zero true.
Proof.
  intros Ff Vf. destruct f as [s|s| |s k e B]; try discriminate Ff; [destruct s; auto|]. exfalso. apply (F2R_neq_0 radix2 (Float radix2 (cond_Zopp s (Zpos k)) e)); [destruct s; discriminate|exact Vf].
Qed.
Lemma strict (f : f32) : fin f -> fval f <> 0 -> is_finite_strict f = true.
Proof. intros Ff Vf. destruct f as [s|s| |s k e B]; try discriminate Ff; [|reflexivity]. exfalso. apply Vf. reflexivity. Qed.
Lemma even_opposite o (a b : f32) : even_square o -> fin a -> fin b -> fval b = - fval a ->
  o_pow o a (@fz f32 (F32 o) 2) = o_pow o b (@fz f32 (F32 o) 2).
Proof.
  intros E Fa Fb V. destruct (Req_dec (fval a) 0) as [Q|Q].
  - assert (Q2 : fval b = 0) by lra. pose proof (E (B754_zero false) eq_refl) as E0. cbn [Bopp negb] in E0.
    destruct (zeros a Fa Q) as [->| ->]; destruct (zeros b Fb Q2) as [->| ->]; congruence.
  - rewrite <- (E a Fa). f_equal. apply B2R_inj; [rewrite is_finite_strict_Bopp; apply strict; assumption|apply strict; [exact Fb|lra]|]. rewrite B2R_Bopp. symmetry. exact V.
Qed.
Lemma rnd_odd v : rnd32 (- v) = - rnd32 v.
Proof. unfold rnd32. apply round_NE_opp. Qed.
Lemma swap_scaled o (x y : f32) m n : even_square o -> is_byte m -> is_byte n -> fin x -> fin y -> fval x = q255 m -> fval y = q255 n ->
  o_pow o (Bmult mode_NE (Bminus mode_NE x y) (@fz f32 (F32 o) 255)) (@fz f32 (F32 o) 2) = o_pow o (Bmult mode_NE (Bminus mode_NE y x) (@fz f32 (F32 o) 255)) (@fz f32 (F32 o) 2).
Proof.
  intros E Hm Hn Fx Fy Vx Vy. destruct (scaled o x y m n Hm Hn Fx Fy Vx Vy) as [F1 _]. destruct (scaled o y x n m Hn Hm Fy Fx Vy Vx) as [F2 _].
  apply even_opposite; [exact E|exact F1|exact F2|].
  destruct (diff o x y m n Hm Hn Fx Fy Vx Vy) as [G1 [_ [_ [_ A1]]]]. destruct (diff o y x n m Hn Hm Fy Fx Vy Vx) as [G2 [_ [_ [_ A2]]]]. cbn [fsub F32] in G1, G2, A1, A2.
  destruct (q255_near m Hm) as [_ Bm]. destruct (q255_near n Hn) as [_ Bn].
  destruct (Bminus_ok x y (-1) 1 Fx Fy) as [_ V1]; try sm; [rewrite Vx, Vy; lra|]. destruct (Bminus_ok y x (-1) 1 Fy Fx) as [_ V2]; try sm; [rewrite Vx, Vy; lra|].
  assert (V : fval (Bminus mode_NE y x) = - fval (Bminus mode_NE x y)). { rewrite V1, V2, <- rnd_odd. f_equal. ring. }
  apply Rabs_le_inv in A1. apply Rabs_le_inv in A2. destruct (fz_val o 255) as [F5 V5]; [sm|].
  destruct (Bmult_ok (Bminus mode_NE x y) (@fz f32 (F32 o) 255) (-255) 255 G1 F5) as [_ M1]; try sm; [rewrite V5; lra|].
  destruct (Bmult_ok (Bminus mode_NE y x) (@fz f32 (F32 o) 255) (-255) 255 G2 F5) as [_ M2]; try sm; [rewrite V5; lra|].
  rewrite M1, M2, V, V5, <- rnd_odd. f_equal. ring.
Qed.
Lemma Bplus_comm (x y : f32) : fin x -> fin y -> Bplus mode_NE x y = Bplus mode_NE y x.
Proof.
  intros Fx Fy. destruct x as [a|a| |a m e B]; try discriminate Fx; destruct y as [b|b| |b n f C]; try discriminate Fy; try reflexivity.
  - destruct a, b; reflexivity.
  - cbn [Bplus]. unfold Fplus_naive. rewrite (Z.min_comm e f), Z.add_comm. reflexivity.
Qed.
Lemma weighted_swap o t1 t2 s1 s2 : even_square o -> is_bytes t1 -> is_bytes t2 -> deep_of t1 s1 -> deep_of t2 s2 -> @weighted_f f32 (F32 o) s1 s2 = @weighted_f f32 (F32 o) s2 s1.
Proof.
  intros E. destruct t1 as [[r1 g1] b1]. destruct t2 as [[r2 g2] b2]. intros [Hr1 [Hg1 Hb1]] [Hr2 [Hg2 Hb2]] [x1 [y1 [z1 [C1 [[Fx1 Vx1] [[Fy1 Vy1] [Fz1 Vz1]]]]]]] [x2 [y2 [z2 [C2 [[Fx2 Vx2] [[Fy2 Vy2] [Fz2 Vz2]]]]]]].
  unfold weighted_f, with3. rewrite C1, C2. cbn [fpow fsub fadd fmul F32].
  rewrite (swap_scaled o x1 x2 r1 r2 E Hr1 Hr2 Fx1 Fx2 Vx1 Vx2), (swap_scaled o y1 y2 g1 g2 E Hg1 Hg2 Fy1 Fy2 Vy1 Vy2), (swap_scaled o z1 z2 b1 b2 E Hb1 Hb2 Fz1 Fz2 Vz1 Vz2), (Bplus_comm x1 x2 Fx1 Fx2). reflexivity.
Qed.
Lemma weighted_symmetry : forall o, even_square o -> forall (h : heap f32) p1 c1 t1 p2 c2 t2, at_addr h p1 c1 -> at_addr h p2 c2 ->
  @wf_color f32 (F32 o) RGB_TRUE c1 -> @wf_color f32 (F32 o) RGB_TRUE c2 -> is_bytes t1 -> is_bytes t2 -> holds_bytes t1 c1 -> holds_bytes t2 c2 ->
  fst (@distance f32 (F32 o) Weighted (Some p1) (Some p2) h) = fst (@distance f32 (F32 o) Weighted (Some p2) (Some p1) h).
Proof.
  intros o E h p1 c1 t1 p2 c2 t2 H1 H2 W1 W2 B1 B2 K1 K2. destruct (Nat.eq_dec p1 p2) as [Q|N]; [subst; auto|].
  destruct (deep_made o c1 t1 W1 B1 K1) as [s1 [E1 [_ D1]]]. destruct (deep_made o c2 t2 W2 B2 K2) as [s2 [E2 [_ D2]]].
  assert (N' : p2 <> p1) by congruence.
  destruct (bytes_run o Weighted h p1 c1 p2 c2 s1 s2 eq_refl N H1 H2 W1 W2 E1 E2) as [h' R]. destruct (bytes_run o Weighted h p2 c2 p1 c1 s2 s1 eq_refl N' H2 H1 W2 W1 E2 E1) as [h2 R2].
  rewrite R, R2. cbn [fst on_components]. apply (weighted_swap o t1 t2 s1 s2 E B1 B2 D1 D2).
Qed.
