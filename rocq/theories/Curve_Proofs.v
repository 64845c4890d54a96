(** * The gamma curves of the presets, forth and back on bytes (C154) *)
From Coq Require Import ZArith QArith Qreals Qabs Reals Lra Lia List Bool.
From Flocq Require Import Core IEEE754.BinarySingleNaN.
From Verif Require Import Arith Outcome ColorModel GammaModel MatrixModel SpaceModel F32 F32Facts Spec Spec32 Laws NormalForms
  Core_Proofs Core2_Proofs Core3_Proofs Core4_Proofs Spec_Error Error_Proofs Error2_Proofs Error3_Proofs Error4_Proofs Linear_Proofs Linear2_Proofs Pow_Proofs.
Import ListNotations.
Local Open Scope R_scope.
Local Notation fin x := (is_finite x = true).

(** concrete floats between rational bounds *)
Definition within (lo : Q) (x : f32) (hi : Q) : bool := is_finite x && Qle_bool lo (f2Q x) && Qle_bool (f2Q x) hi.
Lemma within_R lo x hi : within lo x hi = true -> fin x /\ Q2R lo <= fval x <= Q2R hi.
Proof.
  unfold within. rewrite !andb_true_iff, !Qle_bool_iff. intros [[F A] B]. apply Qle_Rle in A, B. rewrite f2Q_val in A, B. auto.
Qed.

Section Curves.
Context (o : oracle) (AP : accurate_pow o).
Local Notation "x +. y" := (@fadd f32 (F32 o) x y) (at level 50, left associativity).
Local Notation "x -. y" := (@fsub f32 (F32 o) x y) (at level 50, left associativity).
Local Notation "x *. y" := (@fmul f32 (F32 o) x y) (at level 40, left associativity).
Local Notation "x /. y" := (@fdiv f32 (F32 o) x y) (at level 40, left associativity).
Local Notation "$ n" := (@fz f32 (F32 o) n) (at level 0).
Local Notation c01 := (@c01 f32 (F32 o)).
Local Notation there g := (@inverse_gamma_correction f32 (F32 o) g).
Local Notation back g := (@gamma_correction f32 (F32 o) g).

Definition keep_err : R := step + 1000 * u.
(** the channel values for which [A] holds survive the curve, forth and back, with the errors of the matrices in between *)
Definition curve_on (A : R -> Prop) (g : gamma f32) : Prop := forall v L d, unitf v -> A (fval v) -> unitf L ->
  near L (fval (c01 (there g v))) d -> chan_err (26 * u) (16 * u) (c01 (there g v)) d -> near (c01 (back g L)) (fval v) keep_err.
Definition gap (n : R) (x : R) : Prop := x = 0 \/ n / 256 <= x.
Definition curve_keeps : gamma f32 -> Prop := curve_on (gap 1).


Lemma le_one x : unitf x -> @fle f32 (F32 o) x (lit32 1) = true.
Proof.
  intros [Fx B]. destruct (within_R 1 (lit32 1) 1 ltac:(vm_compute; reflexivity)) as [F1 [A _]].
  replace (Q2R 1) with 1 in A by (unfold Q2R; cbn; lra).
  cbn [fle F32]. rewrite Bleb_fin by assumption. apply Rle_bool_true. lra.
Qed.
Lemma power_run e : forall x, unitf x ->
  there (@power_gamma f32 (F32 o) e) x = o_pow o x (lit32 e) /\ back (@power_gamma f32 (F32 o) e) x = o_pow o x (lit32 1 /. lit32 e).
Proof. intros x Ux. unfold power_gamma, gamma_ctor, inverse_gamma_correction, gamma_correction. cbn [sort_parts insert_part g_parts ig_parts apply_parts piece g_fun g_border lit F32].
  rewrite le_one by exact Ux. split; reflexivity. Qed.
Definition inverse_ok (e k : f32) : bool := Qle_bool (Qabs (f2Q k * f2Q e - 1)) (f2Q e * (1 # 16777216)).
Lemma inverse_R e k : 0 < fval e -> inverse_ok e k = true -> Rabs (fval k - / fval e) <= u.
Proof.
  intros P H. unfold inverse_ok in H. apply Qle_bool_iff in H. apply Qabs_Qle_condition in H. destruct H as [A B]. apply Qle_Rle in A, B.
  rewrite Q2R_opp in A. rewrite Q2R_minus, !Q2R_mult, !f2Q_val in A. rewrite Q2R_minus, !Q2R_mult, !f2Q_val in B. replace (Q2R 1) with 1 in * by (unfold Q2R; cbn; lra).
  replace (Q2R (1 # 16777216)) with u in * by (unfold Q2R, u; cbn; lra).
  replace (fval k - / fval e) with ((fval k * fval e - 1) * / fval e) by (field; lra).
  rewrite Rabs_mult, (Rabs_pos_eq (/ fval e)) by (left; apply Rinv_0_lt_compat; lra).
  apply Rmult_le_reg_r with (fval e); [lra|]. rewrite Rmult_assoc, Rinv_l, Rmult_1_r by lra. apply Rabs_le. lra.
Qed.
Lemma power_curve e : within (3 # 2) (lit32 e) (97 # 44) = true -> is_finite (lit32 1 /. lit32 e) = true -> inverse_ok (lit32 e) (lit32 1 /. lit32 e) = true ->
  curve_keeps (@power_gamma f32 (F32 o) e).
Proof.
  intros W Fk I v L d Uv Cv UL NL CE. apply within_R in W. destruct W as [Fe W].
  replace (Q2R (3 # 2)) with (3 / 2) in W by (unfold Q2R; cbn; lra). replace (Q2R (97 # 44)) with (97 / 44) in W by (unfold Q2R; cbn; lra).
  apply inverse_R in I; [|lra]. rewrite (proj1 (power_run e v Uv)) in NL, CE. rewrite (proj2 (power_run e L UL)).
  apply c01_near_unit; [|destruct Uv; lra]. apply near_weaken with (step + 320 * u); [|unfold keep_err; num].
  apply (power_keeps o AP (lit32 e) (lit32 1 /. lit32 e) Fe Fk W I v L d); try assumption. destruct Cv; [left|right]; lra.
Qed.
Lemma keeps_18 : curve_keeps (@gamma1_8 f32 (F32 o)).
Proof. apply power_curve; vm_compute; reflexivity. Qed.
Lemma keeps_22 : curve_keeps (@gamma2_2 f32 (F32 o)).
Proof. apply power_curve; vm_compute; reflexivity. Qed.
Lemma keeps_adobe : curve_keeps (@gammaAdobe f32 (F32 o)).
Proof. apply power_curve; vm_compute; reflexivity. Qed.

(** ** Curves with a straight piece *)
Lemma near_quotf x y a e : near x a e -> fin y -> 1 <= fval y <= 100 -> Rabs a <= 2 -> 0 <= e <= 1 -> near (x /. y) (a / fval y) (e + 4 * u).
Proof.
  intros [Fx Ex] Fy By Ba Be. assert (I : 0 < / fval y <= 1).
  { split; [apply Rinv_0_lt_compat; lra|]. rewrite <- Rinv_1. apply Rinv_le_contravar; lra. }
  assert (K : Rabs (fval x / fval y - a / fval y) <= e).
  { replace (fval x / fval y - a / fval y) with ((fval x - a) * / fval y) by (field; lra). rewrite Rabs_mult, (Rabs_pos_eq (/ fval y)) by lra.
    rewrite <- (Rmult_1_r e). apply Rmult_le_compat; try lra. apply Rabs_pos. }
  assert (M : Rabs (a / fval y) <= 2).
  { unfold Rdiv. rewrite Rabs_mult, (Rabs_pos_eq (/ fval y)) by lra. rewrite <- (Rmult_1_r 2). apply Rmult_le_compat; try lra. apply Rabs_pos. }
  destruct (Bdiv_ok x y (-100000) 100000 Fx Fy) as [F V]; try sm; [lra| |].
  { pose proof (abs_within _ _ _ _ K M) as W. apply Rabs_le_inv in W. lra. }
  split; [exact F|]. change (@fdiv f32 (F32 o) x y) with (Bdiv mode_NE x y). rewrite V.
  apply Rle_trans with (1 := rnd_near _ _ _ _ K M). num.
Qed.
Lemma pow_unit x y : fin x -> 0 < fval x <= 2 -> fin y -> 0 < fval y <= 4 ->
  near (c01 (o_pow o x y)) (Rpower (Rmin (fval x) 1) (fval y)) (17 * u).
Proof.
  intros Fx Bx Fy By. destruct (AP x y Fx Fy) as [F [_ E]]; [unfold fval in *; lra|unfold fval in *; lra|].
  specialize (E (proj1 Bx)). change (@B2R 24 128) with fval in E. pose proof small149 as T.
  destruct (Rle_dec (fval x) 1) as [C|C].
  - rewrite Rmin_left by exact C. apply c01_near_unit; [split; [exact F|]|].
    + pose proof (Rp_le1 (fval x) (fval y) ltac:(lra) ltac:(lra)). num.
    + split; [left; apply Rp_pos|apply Rp_le1; lra].
  - rewrite Rmin_right by lra. assert (P1 : Rpower 1 (fval y) = 1) by (unfold Rpower; rewrite ln_1, Rmult_0_r; apply exp_0). rewrite P1.
    assert (G : 1 <= Rpower (fval x) (fval y)) by (rewrite <- P1 at 1; apply Rp_le_base; lra).
    set (p := fval (o_pow o x y)) in * . set (P := Rpower (fval x) (fval y)) in * . apply Rabs_le_inv in E.
    assert (LB : 1 - 17 * u <= p) by num.
    destruct (near_c01 o (o_pow o x y) p 0 (near_self _ F) ltac:(lra)) as [Fc Vc]. split; [exact Fc|].
    assert (fval (c01 (o_pow o x y)) = Rmax (Rmin p 1) 0) by (apply Rabs_le_inv in Vc; lra). rewrite H.
    apply Rabs_le. unfold Rmax, Rmin. destruct (Rle_dec p 1), (Rle_dec _ 0); num.
Qed.
Lemma Rp_lip a b K : 0 < a -> a <= b -> b <= 1 -> 1 <= K <= 3 -> Rpower b K - Rpower a K <= 3 * (b - a).
Proof.
  intros Pa Hab Hb HK. set (t := a / b). assert (Ea : a = b * t) by (unfold t; field; lra).
  assert (T : 0 < t <= 1). { split; [apply Rdiv_lt_0_compat; lra|]. apply Rmult_le_reg_l with b; [lra|]. rewrite <- Ea. lra. }
  rewrite Ea at 1. rewrite <- Rpower_mult_distr by lra.
  assert (T3 : t * t * t <= Rpower t K).
  { apply Rle_trans with (Rpower t 3); [|apply Rp_le_exp; lra]. replace 3 with (INR 3) by (simpl INR; lra). rewrite Rpower_pow by lra. simpl. lra. }
  assert (BK : Rpower b K <= b). { rewrite <- (Rp_1 b) at 2 by lra. apply Rp_le_exp; lra. }
  pose proof (Rp_pos b K) as PB.
  assert (1 - Rpower t K <= 3 * (1 - t)).
  { apply Rle_trans with (1 - t * t * t); [lra|]. assert (0 <= (1 - t) * ((1 - t) * (2 + t))) by (apply Rmult_le_pos; [lra|apply Rmult_le_pos; lra]). nra. }
  replace (Rpower b K - Rpower b K * Rpower t K) with (Rpower b K * (1 - Rpower t K)) by ring.
  apply Rle_trans with (Rpower b K * (3 * (1 - t))); [apply Rmult_le_compat_l; lra|].
  apply Rle_trans with (b * (3 * (1 - t))); [apply Rmult_le_compat_r; lra|]. lra.
Qed.
(** a rational power from integer powers *)
Lemma Rp_ge_q x c n m : 0 < x -> 0 < c -> (0 < m)%nat -> c ^ m <= x ^ n -> c <= Rpower x (INR n / INR m).
Proof.
  intros Px Pc Hm H. assert (Pm : 0 < INR m) by (apply lt_0_INR; lia).
  destruct (Rle_lt_dec c (Rpower x (INR n / INR m))) as [L|L]; [exact L|exfalso].
  set (r := Rpower x (INR n / INR m)) in * . assert (Pr : 0 < r) by apply Rp_pos.
  assert (E : r ^ m = x ^ n). { rewrite <- !Rpower_pow by assumption. unfold r. rewrite Rpower_mult. f_equal. field. lra. }
  rewrite <- E in H. assert (r ^ m < c ^ m); [|lra]. rewrite <- !Rpower_pow by assumption. unfold Rpower. apply exp_increasing.
  apply Rmult_lt_compat_l; [exact Pm|]. apply ln_increasing; assumption.
Qed.
Lemma Rp_le_q x c n m : 0 < x -> 0 < c -> (0 < m)%nat -> x ^ n <= c ^ m -> Rpower x (INR n / INR m) <= c.
Proof.
  intros Px Pc Hm H. assert (Pm : 0 < INR m) by (apply lt_0_INR; lia).
  destruct (Rle_lt_dec (Rpower x (INR n / INR m)) c) as [L|L]; [exact L|exfalso].
  set (r := Rpower x (INR n / INR m)) in * . assert (Pr : 0 < r) by apply Rp_pos.
  assert (E : r ^ m = x ^ n). { rewrite <- !Rpower_pow by assumption. unfold r. rewrite Rpower_mult. f_equal. field. lra. }
  rewrite <- E in H. assert (c ^ m < r ^ m); [|lra]. rewrite <- !Rpower_pow by assumption. unfold Rpower. apply exp_increasing.
  apply Rmult_lt_compat_l; [exact Pm|]. apply ln_increasing; assumption.
Qed.

(** sRGB *)
Local Notation l q := (lit32 q).
Lemma srgb_runs x : unitf x ->
  there (@gamma_sRGB f32 (F32 o)) x = (if Bleb x (l (4045 # 100000)) then x /. l (1292 # 100) else o_pow o ((x +. l (55 # 1000)) /. l (1055 # 1000)) (l (24 # 10))) /\
  back (@gamma_sRGB f32 (F32 o)) x = (if Bleb x (l (31308 # 10000000)) then l (1292 # 100) *. x else l (1055 # 1000) *. o_pow o x (l 1 /. l (24 # 10)) -. l (55 # 1000)).
Proof.
  intros Ux.
  assert (A1 : Bltb (l 1) (l (4045 # 100000)) = false) by (vm_compute; reflexivity).
  assert (A2 : Bltb (l 1) (l (31308 # 10000000)) = false) by (vm_compute; reflexivity).
  unfold gamma_sRGB, inverse_gamma_correction, gamma_correction, gamma_ctor. cbn [g_parts ig_parts sort_parts insert_part].
  unfold part_lt. cbn [g_border piece flt F32 lit]. rewrite A1, A2.
  cbn [apply_parts g_fun piece g_border lit F32]. rewrite (le_one x Ux). split; reflexivity.
Qed.
Lemma uhdtv_runs x : unitf x ->
  there (@gammaUHDTV f32 (F32 o)) x = (if Bleb x (l (18053968510807 # 1000000000000000)) then l (45 # 10) *. x else l (1099 # 1000) *. o_pow o x (l (45 # 100)) -. l (99 # 1000)) /\
  back (@gammaUHDTV f32 (F32 o)) x = (if Bleb x (l (81 # 1000)) then x /. l (45 # 10) else o_pow o ((x +. l (99 # 1000)) /. l (1099 # 1000)) (l 1 /. l (45 # 100))).
Proof.
  intros Ux.
  assert (A1 : Bltb (l 1) (l (18053968510807 # 1000000000000000)) = false) by (vm_compute; reflexivity).
  assert (A2 : Bltb (l 1) (l (81 # 1000)) = false) by (vm_compute; reflexivity).
  unfold gammaUHDTV, inverse_gamma_correction, gamma_correction, gamma_ctor. cbn [g_parts ig_parts sort_parts insert_part].
  unfold part_lt. cbn [g_border piece flt F32 lit]. rewrite A1, A2.
  cbn [apply_parts g_fun piece g_border lit F32]. rewrite (le_one x Ux). split; reflexivity.
Qed.
Lemma leb_cases x y : fin x -> fin y -> (Bleb x y = true /\ fval x <= fval y) \/ (Bleb x y = false /\ fval y < fval x).
Proof. intros Fx Fy. rewrite Bleb_fin by assumption. destruct (Rle_bool_spec (fval x) (fval y)); [left|right]; auto. Qed.
Tactic Notation "lits" ident(HH) ident(FF) constr(c) constr(lo) constr(hi) := let E := fresh in
  pose proof (within_R lo c hi ltac:(vm_compute; reflexivity)) as E; destruct E as [FF HH]; unfold Q2R in HH; cbn [Qnum Qden] in HH.

Lemma keeps_srgb : curve_keeps (@gamma_sRGB f32 (F32 o)).
Proof.
  intros v L d Uv Cv UL NL [D1 _]. pose proof Uv as Uv'. pose proof UL as UL'.
  assert (NL' : Rabs (fval L - fval (c01 (there (@gamma_sRGB f32 (F32 o)) v))) <= 26 * u) by (destruct NL; lra). clear NL D1 d Cv.
  rewrite (proj1 (srgb_runs v Uv)) in NL'. rewrite (proj2 (srgb_runs L UL)).
  lits B1 F1 (l (4045 # 100000)) (404499 # 10000000)%Q (404501 # 10000000)%Q. set (t1 := l (4045 # 100000)) in * .
  lits B2 F2 (l (31308 # 10000000)) (31307999 # 10000000000)%Q (31308001 # 10000000000)%Q. set (t2 := l (31308 # 10000000)) in * .
  lits B3 F3 (l (1292 # 100)) (129199999 # 10000000)%Q (129200001 # 10000000)%Q. set (m := l (1292 # 100)) in * .
  lits B4 F4 (l (55 # 1000)) (5499999 # 100000000)%Q (5500001 # 100000000)%Q. set (a := l (55 # 1000)) in * .
  lits B5 F5 (l (1055 # 1000)) (10549999 # 10000000)%Q (10550001 # 10000000)%Q. set (b := l (1055 # 1000)) in * .
  lits B6 F6 (l (24 # 10)) (12 # 5)%Q (101 # 42)%Q. set (e := l (24 # 10)) in * .
  assert (F7 : fin (l 1 /. e)) by (vm_compute; reflexivity).
  assert (B7 : Rabs (fval (l 1 /. e) - / fval e) <= u) by (apply inverse_R; [lra|vm_compute; reflexivity]).
  set (k := l 1 /. e) in * . clearbody t1 t2 m a b e k. clear Uv UL.
  destruct Uv' as [Fv Bv]. destruct UL' as [FL BL]. set (x := fval v) in * . set (y := fval L) in * . set (E := fval e) in * .
  assert (S : step = 48 / 25500) by reflexivity.
  (* the two pieces of the way back *)
  assert (LOW : near (m *. L) (fval m * y) (20 * u)).
  { apply near_weaken with (e := fval m * 0 + 1 * 0 + 0 * 0 + u * (fval m * 1 + (fval m * 0 + 1 * 0 + 0 * 0)) + tiny).
    - apply (near_mul o m L (fval m) y 0 0 (fval m) 1 (fval m * 1)); try (apply near_self; assumption); try (rewrite Rabs_pos_eq; nra).
      lra.
    - num. }
  assert (HIGH : 0 < y -> near (b *. o_pow o L k -. a) (fval b * Rpower y (/ E) - fval a) (400 * u)).
  { intros Py. assert (IE : 0 < / E < 1).
    { split; [apply Rinv_0_lt_compat; lra|]. rewrite <- Rinv_1. apply Rinv_lt_contravar; lra. }
    assert (IE' : / (101 / 42) <= / E) by (apply Rinv_le_contravar; lra). replace (/ (101 / 42)) with (42 / 101) in IE' by (field; lra).
    assert (PN : near (o_pow o L k) (Rpower y (/ E)) (317 * u)).
    { apply near_weaken with (316 * u * Rpower y (/ E) + tiny); [apply (pow_near o AP L k (/ E)); auto; try lra; [split; assumption|]|].
      - apply Rabs_le_inv in B7. num.
      - pose proof (Rp_le1 y (/ E) ltac:(lra) ltac:(lra)). num. }
    pose proof (Rp_le1 y (/ E) ltac:(lra) ltac:(lra)) as P1. pose proof (Rp_pos y (/ E)) as P0. set (p := Rpower y (/ E)) in * .
    assert (MN : near (b *. o_pow o L k) (fval b * p) (340 * u)).
    { apply near_weaken with (e := fval b * (317 * u) + 1 * 0 + 0 * (317 * u) + u * (fval b * 1 + (fval b * (317 * u) + 1 * 0 + 0 * (317 * u))) + tiny).
      - apply (near_mul o b (o_pow o L k) (fval b) p 0 (317 * u) (fval b) 1 (fval b * 1)); try (apply near_self; assumption); try assumption; try (rewrite Rabs_pos_eq; nra). num.
      - num. }
    apply near_weaken with (340 * u + 0 + u * (2 + (340 * u + 0)) + tiny); [|num].
    apply near_sub; [exact MN|apply near_self; assumption| |num]. apply Rabs_le. nra. }
  apply c01_near_unit; [|exact Bv].
  destruct (leb_cases v t1 Fv F1) as [[Q1 C1]|[Q1 C1]]; rewrite Q1 in NL'; clear Q1; fold x in C1.
  - (* dark colours *)
    assert (N1 : near (v /. m) (x / fval m) (4 * u)).
    { apply near_weaken with (0 + 4 * u); [|lra]. apply near_quotf; try assumption; try lra; [apply near_self; assumption|rewrite Rabs_pos_eq; lra]. }
    assert (X1 : x / fval m * fval m = x) by (field; lra). set (w := x / fval m) in * .
    assert (W0 : 0 <= w <= 1) by nra.
    destruct (c01_near_unit o _ _ _ N1 ltac:(lra)) as [_ N2]. apply Rabs_le_inv in N2. apply Rabs_le_inv in NL'.
    assert (YW : w - 30 * u <= y <= w + 30 * u) by lra. clear N1 N2 NL'.
    destruct (leb_cases L t2 FL F2) as [[Q2 C2]|[Q2 C2]]; rewrite Q2; clear Q2; fold y in C2.
    + destruct LOW as [Fl El]. split; [exact Fl|]. apply Rabs_le_inv in El. apply Rabs_le. unfold keep_err. rewrite S. clear - El YW X1 B3. set (M := fval m) in * . 
      assert (M * (w - 30 * u) <= M * y <= M * (w + 30 * u)) by (split; apply Rmult_le_compat_l; lra). num.
    + destruct (HIGH ltac:(lra)) as [Fh Eh]. split; [exact Fh|]. apply Rabs_le_inv in Eh.
      assert (R1 : 9 / 100 <= Rpower y (/ E)).
      { apply root_ge; try lra. apply Rle_trans with (Rpower (9 / 100) (INR 12 / INR 5)); [apply Rp_le_exp; simpl INR; lra|].
        apply Rle_trans with (31307 / 10000000); [|lra]. apply Rp_le_q; [lra|lra|lia|lra]. }
      assert (R2 : Rpower y (/ E) <= 915 / 10000).
      { apply root_le; try lra. apply Rle_trans with (Rpower (915 / 10000) (INR 101 / INR 42)); [|apply Rp_le_exp; simpl INR; lra].
        apply Rle_trans with (317 / 100000); [|apply Rp_ge_q; [lra|lra|lia|lra]]. assert (w <= 31343 / 10000000) by nra. num. }
      set (p := Rpower y (/ E)) in * . assert (403 / 10000 <= x) by (assert (3128 / 1000000 <= w) by num; nra).
      assert (fval b * (9 / 100) <= fval b * p <= fval b * (915 / 10000)) by (split; apply Rmult_le_compat_l; lra).
      apply Rabs_le. unfold keep_err. rewrite S. clear - Eh H H0 B4 B5 B1 C1. num.
  - (* bright colours *)
    set (wf := (v +. a) /. b) in * .
    assert (N1 : near wf ((x + fval a) / fval b) (8 * u)).
    { apply near_weaken with (0 + 0 + u * (2 + (0 + 0)) + tiny + 4 * u); [|num]. apply near_quotf; try assumption; try lra; [|rewrite Rabs_pos_eq; lra|num].
      apply near_add; try (apply near_self; assumption); [rewrite Rabs_pos_eq; lra|lra]. }
    assert (X1 : (x + fval a) / fval b * fval b = x + fval a) by (field; lra). set (w := (x + fval a) / fval b) in * .
    assert (W0 : 904 / 10000 <= w <= 1 + 3 * u) by (split; unfold u in *; nra).
    destruct N1 as [Fw Ew]. apply Rabs_le_inv in Ew. set (r := Rmin (fval wf) 1).
    assert (Rr : w - 12 * u <= r <= w + 12 * u) by (unfold r, Rmin; destruct (Rle_dec (fval wf) 1); num).
    assert (R1 : r <= 1) by apply Rmin_r. assert (R0 : 9 / 100 <= r) by num.
    destruct (pow_unit wf e Fw ltac:(num) F6 ltac:(fold E; lra)) as [_ NP]. fold r E in NP. apply Rabs_le_inv in NP. apply Rabs_le_inv in NL'.
    set (P := Rpower r E) in * . assert (YP : P - 50 * u <= y <= P + 50 * u) by num. clear NP NL'.
    assert (PB : 3082 / 1000000 <= P).
    { apply Rle_trans with (Rpower (9039 / 100000) E); [|apply Rp_le_base; num]. apply Rle_trans with (Rpower (9039 / 100000) (INR 101 / INR 42)); [|apply Rp_le_exp; simpl INR; lra].
      apply Rp_ge_q; [lra|lra|lia|lra]. }
    destruct (leb_cases L t2 FL F2) as [[Q2 C2]|[Q2 C2]]; rewrite Q2; clear Q2; fold y in C2.
    + destruct LOW as [Fl El]. split; [exact Fl|]. apply Rabs_le_inv in El.
      assert (RU : r <= 915 / 10000).
      { destruct (Rle_lt_dec r (915 / 10000)) as [G|G]; [exact G|exfalso].
        assert (317 / 100000 <= P); [|num].
        apply Rle_trans with (Rpower (915 / 10000) E); [|apply Rp_le_base; lra].
        apply Rle_trans with (Rpower (915 / 10000) (INR 101 / INR 42)); [apply Rp_ge_q; [lra|lra|lia|lra]|apply Rp_le_exp; simpl INR; lra]. }
      assert (XU : x <= 4155 / 100000). { assert (WU : w <= 915 / 10000 + 12 * u) by lra. assert (w * fval b <= (915 / 10000 + 12 * u) * (10550001 / 10000000)) by (apply Rmult_le_compat; lra). num. }
      assert (YL : 3079 / 1000000 <= y <= 31308001 / 10000000000) by num.
      set (M := fval m) in * . assert (M * (3079 / 1000000) <= M * y <= M * (31308001 / 10000000000)) by (split; apply Rmult_le_compat_l; lra).
      apply Rabs_le. unfold keep_err. rewrite S. num.
    + destruct (HIGH ltac:(lra)) as [Fh Eh]. split; [exact Fh|]. apply Rabs_le_inv in Eh.
      set (s := 17 / 10000). assert (Hs : s = 17 / 10000) by reflexivity. clearbody s.
      assert (V2 : 81 / 10000 <= Rpower r (E - 1)).
      { apply Rle_trans with (Rpower r (INR 2)); [|apply Rp_le_exp; simpl INR; lra]. rewrite Rpower_pow by lra. simpl. nra. }
      pose proof (Rp_step (r - s) r E ltac:(lra) ltac:(lra)) as Lo. pose proof (Rp_step r (r + s) E ltac:(lra) ltac:(lra)) as Hi.
      fold P in Lo, Hi. replace (r - (r - s)) with s in Lo by ring. replace (r + s - r) with s in Hi by ring.
      assert (HV : Rpower r (E - 1) <= Rpower (r + s) (E - 1)) by (apply Rp_le_base; lra).
      set (V := Rpower r (E - 1)) in * . set (V' := Rpower (r + s) (E - 1)) in * .
      assert (V * s <= V' * s) by (apply Rmult_le_compat_r; lra). assert (81 / 10000 * s <= V * s) by (apply Rmult_le_compat_r; lra).
      assert (R2 : r - s <= Rpower y (/ E)) by (apply root_ge; num). assert (R3 : Rpower y (/ E) <= r + s) by (apply root_le; num).
      set (p := Rpower y (/ E)) in * . set (B := fval b) in * .
      assert (BP : B * (w - 12 * u - s) <= B * p <= B * (w + 12 * u + s)) by (split; apply Rmult_le_compat_l; lra).
      apply Rabs_le. unfold keep_err. rewrite S. clear - Eh BP X1 B4 B5 Hs. subst s. num.
Qed.

(** ITU-R BT.2020: the straight pieces do not meet at the same place, but near enough *)
Lemma keeps_uhdtv : curve_keeps (@gammaUHDTV f32 (F32 o)).
Proof.
  intros v L d Uv Cv UL NL [D1 _]. pose proof Uv as Uv'. pose proof UL as UL'.
  assert (NL' : Rabs (fval L - fval (c01 (there (@gammaUHDTV f32 (F32 o)) v))) <= 26 * u) by (destruct NL; lra). clear NL D1 d Cv.
  rewrite (proj1 (uhdtv_runs v Uv)) in NL'. rewrite (proj2 (uhdtv_runs L UL)).
  lits B1 F1 (l (18053968510807 # 1000000000000000)) (18053 # 1000000)%Q (18055 # 1000000)%Q. set (t1 := l (18053968510807 # 1000000000000000)) in * .
  lits B2 F2 (l (81 # 1000)) (809999 # 10000000)%Q (810001 # 10000000)%Q. set (t2 := l (81 # 1000)) in * .
  lits B3 F3 (l (45 # 10)) (45 # 10)%Q (45 # 10)%Q. set (m := l (45 # 10)) in * .
  lits B4 F4 (l (99 # 1000)) (98999999 # 1000000000)%Q (99000001 # 1000000000)%Q. set (a := l (99 # 1000)) in * .
  lits B5 F5 (l (1099 # 1000)) (10989999 # 10000000)%Q (10990001 # 10000000)%Q. set (b := l (1099 # 1000)) in * .
  assert (F7 : fin (l 1 /. l (45 # 100))) by (vm_compute; reflexivity).
  lits B7 F7' (@fdiv f32 (F32 o) (l 1) (l (45 # 100))) (31 # 14)%Q (9 # 4)%Q.
  assert (B6 : Rabs (fval (l (45 # 100)) - / fval (l 1 /. l (45 # 100))) <= u) by (apply inverse_R; [lra|vm_compute; reflexivity]).
  assert (F6 : fin (l (45 # 100))) by (vm_compute; reflexivity).
  set (k := l 1 /. l (45 # 100)) in * . set (e := l (45 # 100)) in * . clearbody k t1 t2 m a b e. clear Uv UL F7'.
  destruct Uv' as [Fv Bv]. destruct UL' as [FL BL]. set (x := fval v) in * . set (y := fval L) in * . set (K := fval k) in * .
  assert (S : step = 48 / 25500) by reflexivity.
  assert (IK : 4 / 9 <= / K <= 14 / 31).
  { split; [replace (4 / 9) with (/ (9 / 4)) by (field; lra)|replace (14 / 31) with (/ (31 / 14)) by (field; lra)]; apply Rinv_le_contravar; lra. }
  (* the two pieces of the way back *)
  assert (LOW : near (L /. m) (y / (9 / 2)) (4 * u)).
  { assert (M : fval m = 9 / 2) by lra. rewrite <- M. apply near_weaken with (0 + 4 * u); [|lra].
    apply near_quotf; try assumption; try lra; [apply near_self; assumption|rewrite Rabs_pos_eq; lra]. }
  assert (HIGH : exists r, Rabs (r - (y + 99 / 1000) / (1099 / 1000)) <= 20 * u /\ r <= 1 /\ near (c01 (o_pow o ((L +. a) /. b) k)) (Rpower r K) (17 * u)).
  { set (wf := (L +. a) /. b). assert (N1 : near wf ((y + fval a) / fval b) (8 * u)).
    { apply near_weaken with (0 + 0 + u * (2 + (0 + 0)) + tiny + 4 * u); [|num]. apply near_quotf; try assumption; try lra; [|rewrite Rabs_pos_eq; lra|num].
      apply near_add; try (apply near_self; assumption); [rewrite Rabs_pos_eq; lra|lra]. }
    assert (X1 : (y + fval a) / fval b * fval b = y + fval a) by (field; lra). set (w := (y + fval a) / fval b) in * .
    assert (X2 : (y + 99 / 1000) / (1099 / 1000) * (1099 / 1000) = y + 99 / 1000) by (field; lra). set (w' := (y + 99 / 1000) / (1099 / 1000)) in * .
    assert (W1 : 0 <= w <= 1 + 4 * u) by (split; unfold u in *; nra).
    assert (W2 : Rabs (w - w') <= 4 * u). { apply Rabs_le. unfold u in * . split; nra. }
    assert (W3 : 9 / 100 <= w' <= 1) by lra. apply Rabs_le_inv in W2.
    destruct N1 as [Fw Ew]. apply Rabs_le_inv in Ew. exists (Rmin (fval wf) 1). split; [|split; [apply Rmin_r|apply pow_unit; auto; [num|fold K; lra]]].
    apply Rabs_le. unfold Rmin; destruct (Rle_dec (fval wf) 1); num. }
  destruct HIGH as [r [Er [R1 HIGH]]]. assert (X2 : (y + 99 / 1000) / (1099 / 1000) * (1099 / 1000) = y + 99 / 1000) by (field; lra).
  set (w := (y + 99 / 1000) / (1099 / 1000)) in * . apply Rabs_le_inv in Er.
  assert (R0 : 9 / 100 <= r) by num.
  destruct (leb_cases v t1 Fv F1) as [[Q1 C1]|[Q1 C1]]; rewrite Q1 in NL'; clear Q1; fold x in C1.
  - (* dark colours *)
    assert (N1 : near (m *. v) (9 / 2 * x) (5 * u)).
    { assert (M : fval m = 9 / 2) by lra. rewrite <- M.
      apply near_weaken with (e := fval m * 0 + 1 * 0 + 0 * 0 + u * (fval m * 1 + (fval m * 0 + 1 * 0 + 0 * 0)) + tiny); [|num].
      apply (near_mul o m v (fval m) x 0 0 (fval m) 1 (fval m * 1)); try (apply near_self; assumption); try (rewrite Rabs_pos_eq; nra). lra. }
    destruct (c01_near_unit o _ _ _ N1 ltac:(lra)) as [_ N2]. apply Rabs_le_inv in N2. apply Rabs_le_inv in NL'.
    assert (YW : 9 / 2 * x - 31 * u <= y <= 9 / 2 * x + 31 * u) by lra. clear N1 N2 NL'.
    destruct (leb_cases L t2 FL F2) as [[Q2 C2]|[Q2 C2]]; rewrite Q2; clear Q2; fold y in C2.
    + apply c01_near_unit; [|exact Bv]. destruct LOW as [Fl El]. split; [exact Fl|]. apply Rabs_le_inv in El. apply Rabs_le. unfold keep_err. rewrite S. num.
    + destruct HIGH as [Fh Eh]. split; [exact Fh|]. apply Rabs_le_inv in Eh.
      assert (P1 : 165 / 10000 <= Rpower r K).
      { apply Rle_trans with (Rpower (1637 / 10000) K); [|apply Rp_le_base; num]. apply Rle_trans with (Rpower (1637 / 10000) (INR 9 / INR 4)); [|apply Rp_le_exp; simpl INR; lra].
        apply Rp_ge_q; [lra|lra|lia|lra]. }
      assert (P2 : Rpower r K <= 195 / 10000).
      { apply Rle_trans with (Rpower (1641 / 10000) K); [apply Rp_le_base; num|]. apply Rle_trans with (Rpower (1641 / 10000) (INR 31 / INR 14)); [apply Rp_le_exp; simpl INR; lra|].
        apply Rp_le_q; [lra|lra|lia|lra]. }
      apply Rabs_le. unfold keep_err. rewrite S. num.
  - (* bright colours *)
    assert (Px : 0 < x) by lra. assert (PN : near (o_pow o v e) (Rpower x (/ K)) (317 * u)).
    { apply near_weaken with (316 * u * Rpower x (/ K) + tiny); [apply (pow_near o AP v e (/ K)); auto; try lra; [split; assumption|]|].
      - apply Rabs_le_inv in B6. num.
      - pose proof (Rp_le1 x (/ K) ltac:(lra) ltac:(lra)). num. }
    pose proof (Rp_le1 x (/ K) ltac:(lra) ltac:(lra)) as P1. pose proof (Rp_pos x (/ K)) as P0.
    assert (XP : Rpower (Rpower x (/ K)) K = x) by (apply Rp_inv'; lra). 
    assert (PL : 1627 / 10000 <= Rpower x (/ K)).
    { apply root_ge; try lra. apply Rle_trans with (Rpower (1627 / 10000) (INR 31 / INR 14)); [apply Rp_le_exp; simpl INR; lra|].
      apply Rle_trans with (1805 / 100000); [|lra]. apply Rp_le_q; [lra|lra|lia|lra]. }
    set (p := Rpower x (/ K)) in * .
    assert (MN : near (b *. o_pow o v e -. a) (1099 / 1000 * p - 99 / 1000) (370 * u)).
    { assert (MN : near (b *. o_pow o v e) (fval b * p) (353 * u)).
      { apply near_weaken with (e := fval b * (317 * u) + 1 * 0 + 0 * (317 * u) + u * (fval b * 1 + (fval b * (317 * u) + 1 * 0 + 0 * (317 * u))) + tiny).
        - apply (near_mul o b (o_pow o v e) (fval b) p 0 (317 * u) (fval b) 1 (fval b * 1)); try (apply near_self; assumption); try assumption; try (rewrite Rabs_pos_eq; nra). num.
        - num. }
      apply near_weaken with (353 * u + 0 + u * (2 + (353 * u + 0)) + tiny + 4 * u); [|num].
      apply near_move with (fval b * p - fval a).
      - apply near_sub; [exact MN|apply near_self; assumption| |num]. apply Rabs_le. nra.
      - apply Rabs_le. assert (10989999 / 10000000 * p <= fval b * p <= 10990001 / 10000000 * p) by (split; apply Rmult_le_compat_r; lra). num. }
    destruct (c01_near_unit o _ _ _ MN ltac:(lra)) as [_ N2]. apply Rabs_le_inv in N2. apply Rabs_le_inv in NL'.
    assert (YW : 1099 / 1000 * p - 99 / 1000 - 400 * u <= y <= 1099 / 1000 * p - 99 / 1000 + 400 * u) by lra. clear MN N2 NL'.
    destruct (leb_cases L t2 FL F2) as [[Q2 C2]|[Q2 C2]]; rewrite Q2; clear Q2; fold y in C2.
    + apply c01_near_unit; [|exact Bv]. destruct LOW as [Fl El]. split; [exact Fl|]. apply Rabs_le_inv in El.
      assert (XU : x <= 19 / 1000).
      { rewrite <- XP. apply Rle_trans with (Rpower (1641 / 10000) K); [apply Rp_le_base; num|]. apply Rle_trans with (Rpower (1641 / 10000) (INR 31 / INR 14)); [apply Rp_le_exp; simpl INR; lra|].
        apply Rp_le_q; [lra|lra|lia|lra]. }
      apply Rabs_le. unfold keep_err. rewrite S. num.
    + destruct HIGH as [Fh Eh]. split; [exact Fh|]. apply Rabs_le_inv in Eh.
      assert (RP : p - 420 * u <= r <= p + 420 * u) by num.
      assert (LP : Rabs (Rpower r K - x) <= 1500 * u).
      { rewrite <- XP. apply Rabs_le. destruct (Rle_lt_dec r p) as [G|G].
        - pose proof (Rp_lip r p K ltac:(lra) ltac:(lra) ltac:(lra) ltac:(lra)). pose proof (Rp_le_base r p K ltac:(lra) ltac:(lra)). num.
        - pose proof (Rp_lip p r K ltac:(lra) ltac:(lra) ltac:(lra) ltac:(lra)). pose proof (Rp_le_base p r K ltac:(lra) ltac:(lra)). num. }
      apply Rabs_le_inv in LP. apply Rabs_le. unfold keep_err. rewrite S. num.
Qed.

(** ** Channels that are not too dark: gamma 2.6 and 2.8 *)
Lemma bright_keeps ef kf (v L : f32) d : fin ef -> fin kf -> 3 / 2 <= fval ef <= 283 / 101 -> Rabs (fval kf - / fval ef) <= u ->
  unitf v -> 6 / 256 <= fval v -> unitf L -> near L (fval (c01 (o_pow o v ef))) d ->
  chan_err (26 * u) (16 * u) (c01 (o_pow o v ef)) d -> near (o_pow o L kf) (fval v) (step + 320 * u).
Proof.
  intros Fe Fk Be Bk [Fv Bv] Pv [FL BL] [_ NL] [D1 D2]. set (e := fval ef) in * . set (x := fval v) in * .
  assert (K1 : 0 < / e <= 1).
  { split; [apply Rinv_0_lt_compat; lra|]. rewrite <- Rinv_1. apply Rinv_le_contravar; lra. }
  assert (K3 : / (283 / 101) <= / e) by (apply Rinv_le_contravar; lra). replace (/ (283 / 101)) with (101 / 283) in K3 by (field; lra).
  assert (K2 : 0 < fval kf <= 4) by (apply Rabs_le_inv in Bk; num).
  assert (S0 : 0 < step) by (unfold step; lra). assert (S1 : step <= / 500) by (unfold step; lra).
  assert (E0 : Rabs (fval (c01 (o_pow o v ef)) - Rpower x e) <= 316 * u * Rpower x e + tiny).
  { apply (c01_near_unit o).
    - apply pow_near; auto; [split; assumption|fold e; lra|fold e; lra| |unfold x in *; lra]. fold e. rewrite Rminus_diag_eq, Rabs_R0 by reflexivity. unfold u. lra.
    - split; [left; apply Rp_pos|]. apply Rp_le1; lra. }
  set (l := fval (c01 (o_pow o v ef))) in * .
  assert (V10 : 11 / 10000 <= Rpower x (e - 1)).
  { apply Rle_trans with (Rpower (6 / 256) (e - 1)); [|apply Rp_le_base; lra]. apply Rle_trans with (Rpower (6 / 256) (INR 182 / INR 101)); [|apply Rp_le_exp; [lra|rewrite !INR_IZR_INZ; simpl; lra]].
    apply Rp_ge_q; [lra|lra|lia|lra]. }
  set (V := Rpower x (e - 1)) in * .
  assert (XV : Rpower x e <= V) by (unfold V; apply Rp_le_exp; lra).
  assert (DL : Rabs (fval L - Rpower x e) <= V * step).
  { replace (fval L - Rpower x e) with ((fval L - l) + (l - Rpower x e)) by ring. apply Rle_trans with (1 := Rabs_triang _ _).
    apply Rle_trans with (26 * u + (316 * u * V + tiny)); [|unfold step in *; num].
    apply Rplus_le_compat; [lra|]. apply Rle_trans with (1 := E0). apply Rplus_le_compat_r. apply Rmult_le_compat_l; [num|exact XV]. }
  pose proof (Rp_step (x - step) x e ltac:(lra) ltac:(lra)) as Lo. pose proof (Rp_step x (x + step) e ltac:(lra) ltac:(lra)) as Hi.
  fold V in Lo. replace (x - (x - step)) with step in Lo by ring. replace (x + step - x) with step in Hi by ring.
  assert (HV : V <= Rpower (x + step) (e - 1)) by (apply Rp_le_base; lra).
  assert (V * step <= Rpower (x + step) (e - 1) * step) by (apply Rmult_le_compat_r; lra).
  apply Rabs_le_inv in DL. pose proof (Rp_pos (x - step) e).
  assert (PL : 0 < fval L) by lra.
  assert (R1 : x - step <= Rpower (fval L) (/ e)) by (apply root_ge; lra). assert (R2 : Rpower (fval L) (/ e) <= x + step) by (apply root_le; lra).
  destruct (pow_near o AP L kf (/ e) (conj FL BL) Fk ltac:(lra) ltac:(lra) Bk PL) as [F E].
  split; [exact F|]. assert (P1 : Rpower (fval L) (/ e) <= 1) by (apply Rp_le1; lra).
  set (r := Rpower (fval L) (/ e)) in * . replace (fval (o_pow o L kf) - x) with ((fval (o_pow o L kf) - r) + (r - x)) by ring.
  apply Rle_trans with (1 := Rabs_triang _ _). assert (Rabs (r - x) <= step) by (apply Rabs_le; lra). num.
Qed.
Lemma bright_curve e : within (3 # 2) (lit32 e) (283 # 101) = true -> is_finite (lit32 1 /. lit32 e) = true -> inverse_ok (lit32 e) (lit32 1 /. lit32 e) = true ->
  curve_on (fun x => 6 / 256 <= x) (@power_gamma f32 (F32 o) e).
Proof.
  intros W Fk I v L d Uv Cv UL NL CE. apply within_R in W. destruct W as [Fe W].
  replace (Q2R (3 # 2)) with (3 / 2) in W by (unfold Q2R; cbn; lra). replace (Q2R (283 # 101)) with (283 / 101) in W by (unfold Q2R; cbn; lra).
  apply inverse_R in I; [|lra]. rewrite (proj1 (power_run e v Uv)) in NL, CE. rewrite (proj2 (power_run e L UL)).
  apply c01_near_unit; [|destruct Uv; lra]. apply near_weaken with (step + 320 * u); [|unfold keep_err; num].
  apply (bright_keeps (lit32 e) (lit32 1 /. lit32 e) v L d Fe Fk W I); assumption.
Qed.
Lemma bright_26 : curve_on (fun x => 6 / 256 <= x) (@gamma2_6 f32 (F32 o)).
Proof. apply bright_curve; vm_compute; reflexivity. Qed.
Lemma bright_28 : curve_on (fun x => 6 / 256 <= x) (@gamma2_8 f32 (F32 o)).
Proof. apply bright_curve; vm_compute; reflexivity. Qed.

(** ** ROMM: the straight piece of the way there ends at the wrong place *)
Lemma romm_runs x : unitf x ->
  there (@gammaRomm f32 (F32 o)) x = (if Bleb x (l (1953 # 1000000)) then x /. $16 else o_pow o x (l (18 # 10))) /\
  back (@gammaRomm f32 (F32 o)) x = (if Bleb x (l (1953 # 1000000)) then $16 *. x else o_pow o x (l 1 /. l (18 # 10))).
Proof.
  intros Ux.
  assert (A1 : Bltb (l 1) (l (1953 # 1000000)) = false) by (vm_compute; reflexivity).
  unfold gammaRomm, inverse_gamma_correction, gamma_correction, gamma_ctor. cbn [g_parts ig_parts sort_parts insert_part].
  unfold part_lt. cbn [g_border piece flt F32 lit]. rewrite A1.
  cbn [apply_parts g_fun piece g_border lit F32]. rewrite (le_one x Ux). split; reflexivity.
Qed.
Lemma romm_dark x : unitf x -> fval x <= 195 / 100000 -> near (back (@gammaRomm f32 (F32 o)) x) (16 * fval x) (17 * u).
Proof.
  intros [Fx Bx] H. rewrite (proj2 (romm_runs x (conj Fx Bx))). lits B1 F1 (l (1953 # 1000000)) (1952 # 1000000)%Q (1954 # 1000000)%Q.
  destruct (leb_cases x (l (1953 # 1000000)) Fx F1) as [[-> _]|[_ C]]; [|lra].
  apply near_weaken with (e := 16 * 0 + 1 * 0 + 0 * 0 + u * (16 * 1 + (16 * 0 + 1 * 0 + 0 * 0)) + tiny); [|num].
  apply (near_mul o $16 x 16 (fval x) 0 0 16 1 (16 * 1)); [apply near_fz; sm|apply near_self; assumption|rewrite Rabs_pos_eq; lra|rewrite Rabs_pos_eq; lra|rewrite Rabs_pos_eq; lra|lra].
Qed.
Lemma keeps_romm : curve_on (gap (803 / 100)) (@gammaRomm f32 (F32 o)).
Proof.
  intros v L d Uv Cv UL NL CE. lits B1 F1 (l (1953 # 1000000)) (1952 # 1000000)%Q (1954 # 1000000)%Q.
  destruct Cv as [Z0|Pv].
  - rewrite Z0. apply c01_near_unit; [|lra]. destruct UL as [FL BL].
    assert (E0 : fval (c01 (there (@gammaRomm f32 (F32 o)) v)) = 0).
    { rewrite (proj1 (romm_runs v Uv)). destruct Uv as [Fv Bv]. destruct (leb_cases v (l (1953 # 1000000)) Fv F1) as [[-> _]|[_ C]]; [|lra].
      destruct (fz_val o 16) as [F16 V16]; [sm|]. destruct (Bdiv_ok v $16 0 1 Fv F16) as [Fq Vq]; try sm; [rewrite V16; lra|rewrite V16, Z0; lra|].
      rewrite Z0, V16 in Vq. replace (0 / 16) with 0 in Vq by field. rewrite rnd32_0 in Vq.
      destruct (c01_val o (v /. $16) Fq) as [_ Vc]; [change (fval (v /. $16)) with (fval (Bdiv mode_NE v $16)); lra|]. rewrite Vc. exact Vq. }
    destruct NL as [_ NL]. destruct CE as [_ CE]. specialize (CE E0). rewrite E0, Rminus_0_r in NL. rewrite Rabs_pos_eq in NL by lra.
    destruct (romm_dark L (conj FL BL) ltac:(num)) as [F E]. split; [exact F|]. apply Rabs_le_inv in E. apply Rabs_le. unfold keep_err, step. num.
  - rewrite (proj1 (romm_runs v Uv)) in NL, CE. rewrite (proj2 (romm_runs L UL)).
    lits B0 F0 (l (1953 # 1000000)) (19529 # 10000000)%Q (19531 # 10000000)%Q. clear B1 F0. rename B0 into B1.
    destruct (leb_cases v (l (1953 # 1000000)) (proj1 Uv) F1) as [[_ C]|[C0 C]]; [exfalso; lra|]. rewrite C0 in NL, CE. clear C0.
    lits B2 F2 (l (18 # 10)) (29999999 # 16666667)%Q (30000001 # 16666666)%Q.
    assert (F3 : fin (l 1 /. l (18 # 10))) by (vm_compute; reflexivity).
    assert (B3 : Rabs (fval (l 1 /. l (18 # 10)) - / fval (l (18 # 10))) <= u) by (apply inverse_R; [lra|vm_compute; reflexivity]).
    pose proof (within_R (30198988 # 16777216) (l (18 # 10)) (30198989 # 16777216) ltac:(vm_compute; reflexivity)) as [_ B4]. unfold Q2R in B4; cbn [Qnum Qden] in B4.
    set (e := l (18 # 10)) in * . clearbody e.
    assert (PN : near (c01 (o_pow o v e)) (Rpower (fval v) (9 / 5)) (316 * u * Rpower (fval v) (9 / 5) + tiny)).
    { apply c01_near_unit; [|split; [left; apply Rp_pos|apply Rp_le1; [destruct Uv; lra|lra]]]. apply pow_near; auto; try lra. apply Rabs_le. num. }
    assert (P1 : 196 / 100000 <= Rpower (fval v) (9 / 5)).
    { apply Rle_trans with (Rpower (803 / 100 / 256) (9 / 5)); [|apply Rp_le_base; lra]. replace (9 / 5) with (INR 9 / INR 5) by (simpl INR; lra). apply Rp_ge_q; [lra|lra|lia|lra]. }
    pose proof (Rp_le1 (fval v) (9 / 5) ltac:(destruct Uv; lra) ltac:(lra)) as P2.
    destruct (leb_cases L (l (1953 # 1000000)) (proj1 UL) F1) as [[_ C1]|[-> C1]].
    { exfalso. destruct NL as [_ NL]. destruct PN as [_ PN]. destruct CE as [CE _]. apply Rabs_le_inv in NL, PN. set (P := Rpower (fval v) (9 / 5)) in * . clear - NL PN CE C1 B1 P1 P2. num. }
    apply c01_near_unit; [|destruct Uv; lra]. apply near_weaken with (step + 320 * u); [|unfold keep_err; num].
    apply (power_keeps o AP e (l 1 /. e) F2 F3 ltac:(lra) B3 v L d); try assumption. right; lra.
Qed.
End Curves.
