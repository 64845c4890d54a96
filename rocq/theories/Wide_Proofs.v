(** * The sRGB curve survives larger errors (C157, C158) *)
From Coq Require Import ZArith QArith Qreals Qabs Reals Lra Lia List Bool.
From Flocq Require Import Core IEEE754.BinarySingleNaN.
From Verif Require Import Arith Outcome ColorModel GammaModel MatrixModel SpaceModel F32 F32Facts Spec Spec32 Laws NormalForms
  Core_Proofs Core2_Proofs Core3_Proofs Core4_Proofs Spec_Error Error_Proofs Error2_Proofs Error3_Proofs Error4_Proofs Linear_Proofs Linear2_Proofs Pow_Proofs Curve_Proofs.
Import ListNotations.
Local Open Scope R_scope.
Local Notation fin x := (is_finite x = true).

Section Wide.
Context (o : oracle) (AP : accurate_pow o).
Local Notation "x +. y" := (@fadd f32 (F32 o) x y) (at level 50, left associativity).
Local Notation "x -. y" := (@fsub f32 (F32 o) x y) (at level 50, left associativity).
Local Notation "x *. y" := (@fmul f32 (F32 o) x y) (at level 40, left associativity).
Local Notation "x /. y" := (@fdiv f32 (F32 o) x y) (at level 40, left associativity).
Local Notation "$ n" := (@fz f32 (F32 o) n) (at level 0).
Local Notation c01 := (@c01 f32 (F32 o)).
Local Notation there g := (@inverse_gamma_correction f32 (F32 o) g).
Local Notation back g := (@gamma_correction f32 (F32 o) g).
Local Notation l q := (lit32 q).

Tactic Notation "lits" ident(HH) ident(FF) constr(c) constr(lo) constr(hi) := let E := fresh in
  pose proof (within_R lo c hi ltac:(vm_compute; reflexivity)) as E; destruct E as [FF HH]; unfold Q2R in HH; cbn [Qnum Qden] in HH.

(** twice the slope that [Rp_step] gives *)
Lemma Rp_step2 a b e : 0 < a <= b -> 2 <= e -> Rpower b (e - 2) * (b * b - a * a) <= Rpower b e - Rpower a e.
Proof.
  intros H He.
  assert (T : forall x, 0 < x -> Rpower x e = x * x * Rpower x (e - 2)).
  { intros x P. rewrite (Rp_split x e), (Rp_split x (e - 1)) by exact P. replace (e - 1 - 1) with (e - 2) by ring. ring. }
  rewrite (T b), (T a) by lra.
  assert (Rpower a (e - 2) <= Rpower b (e - 2)) by (apply Rp_le_base; lra).
  assert (a * a * Rpower a (e - 2) <= a * a * Rpower b (e - 2)) by (apply Rmult_le_compat_l; nra). lra.
Qed.

(** the exponent of the curve is 2.4 up to rounding *)
Lemma Rp_tight r k E : / 20 <= r <= 1 -> k <= E <= k + 2 * u -> Rpower r k * (1 - 40 * u) <= Rpower r E.
Proof.
  intros Hr HE. replace (Rpower r E) with (Rpower r k * exp ((E - k) * ln r)) by (unfold Rpower; rewrite <- exp_plus; f_equal; ring).
  apply Rmult_le_compat_l; [left; apply Rp_pos|].
  assert (LN : - 19 <= ln r).
  { pose proof (exp_ineq1_le (- ln r)) as H. rewrite exp_Ropp, exp_ln in H by lra.
    assert (/ r <= 20); [|lra]. rewrite <- (Rinv_inv 20). apply Rinv_le_contravar; lra. }
  pose proof (exp_ineq1_le ((E - k) * ln r)) as H.
  assert (- (40 * u) <= (E - k) * ln r); [|lra].
  assert (LN1 : ln r <= 0). { destruct (Rle_lt_or_eq_dec _ _ (proj2 Hr)) as [K| ->]; [left; rewrite <- ln_1; apply ln_increasing; lra|rewrite ln_1; lra]. }
  assert (0 <= (2 * u - (E - k)) * - ln r) by (apply Rmult_le_pos; lra). unfold u in *; nra.
Qed.
Lemma srgb_wide (v L : f32) : unitf v -> unitf L -> near L (fval (c01 (there (@gamma_sRGB f32 (F32 o)) v))) (1100 * u) ->
  near (c01 (back (@gamma_sRGB f32 (F32 o)) L)) (fval v) keep_err.
Proof.
  intros Uv UL NL. pose proof Uv as Uv'. pose proof UL as UL'.
  assert (NL' : Rabs (fval L - fval (c01 (there (@gamma_sRGB f32 (F32 o)) v))) <= 1100 * u) by (destruct NL; lra). clear NL.
  rewrite (proj1 (srgb_runs o v Uv)) in NL'. rewrite (proj2 (srgb_runs o L UL)).
  lits B1 F1 (l (4045 # 100000)) (404499 # 10000000)%Q (404501 # 10000000)%Q. set (t1 := l (4045 # 100000)) in * .
  lits B2 F2 (l (31308 # 10000000)) (31307999 # 10000000000)%Q (31308001 # 10000000000)%Q. set (t2 := l (31308 # 10000000)) in * .
  lits B3 F3 (l (1292 # 100)) (129199999 # 10000000)%Q (129200001 # 10000000)%Q. set (m := l (1292 # 100)) in * .
  lits B4 F4 (l (55 # 1000)) (5499999 # 100000000)%Q (5500001 # 100000000)%Q. set (a := l (55 # 1000)) in * .
  lits B5 F5 (l (1055 # 1000)) (10549999 # 10000000)%Q (10550001 # 10000000)%Q. set (b := l (1055 # 1000)) in * .
  lits B6 F6 (l (24 # 10)) (12 # 5)%Q (24000001 # 10000000)%Q. set (e := l (24 # 10)) in * .
  assert (F7 : fin (l 1 /. e)) by (vm_compute; reflexivity).
  assert (B7 : Rabs (fval (l 1 /. e) - / fval e) <= u) by (apply inverse_R; [lra|vm_compute; reflexivity]).
  set (k := l 1 /. e) in * . clearbody t1 t2 m a b e k. clear Uv UL.
  destruct Uv' as [Fv Bv]. destruct UL' as [FL BL]. set (x := fval v) in * . set (y := fval L) in * . set (E := fval e) in * .
  assert (S : step = 48 / 25500) by reflexivity.
  (* the two pieces of the way back *)
  assert (LOW : near (m *. L) (fval m * y) (20 * u)).
  { apply near_weaken with (e := fval m * 0 + 1 * 0 + 0 * 0 + u * (fval m * 1 + (fval m * 0 + 1 * 0 + 0 * 0)) + tiny).
    - apply (near_mul o m L (fval m) y 0 0 (fval m) 1 (fval m * 1)); try (apply near_self; assumption); try (rewrite Rabs_pos_eq; nra).
      lra.
    - num. }
  assert (HIGH : 0 < y -> near (b *. o_pow o L k -. a) (fval b * Rpower y (/ E) - fval a) (400 * u)).
  { intros Py. assert (IE : 0 < / E < 1).
    { split; [apply Rinv_0_lt_compat; lra|]. rewrite <- Rinv_1. apply Rinv_lt_contravar; lra. }
    assert (IE' : / (101 / 42) <= / E) by (apply Rinv_le_contravar; lra). replace (/ (101 / 42)) with (42 / 101) in IE' by (field; lra).
    assert (PN : near (o_pow o L k) (Rpower y (/ E)) (317 * u)).
    { apply near_weaken with (316 * u * Rpower y (/ E) + tiny); [apply (pow_near o AP L k (/ E)); auto; try lra; [split; assumption|]|].
      - apply Rabs_le_inv in B7. num.
      - pose proof (Rp_le1 y (/ E) ltac:(lra) ltac:(lra)). num. }
    pose proof (Rp_le1 y (/ E) ltac:(lra) ltac:(lra)) as P1. pose proof (Rp_pos y (/ E)) as P0. set (p := Rpower y (/ E)) in * .
    assert (MN : near (b *. o_pow o L k) (fval b * p) (340 * u)).
    { apply near_weaken with (e := fval b * (317 * u) + 1 * 0 + 0 * (317 * u) + u * (fval b * 1 + (fval b * (317 * u) + 1 * 0 + 0 * (317 * u))) + tiny).
      - apply (near_mul o b (o_pow o L k) (fval b) p 0 (317 * u) (fval b) 1 (fval b * 1)); try (apply near_self; assumption); try assumption; try (rewrite Rabs_pos_eq; nra). num.
      - num. }
    apply near_weaken with (340 * u + 0 + u * (2 + (340 * u + 0)) + tiny); [|num].
    apply near_sub; [exact MN|apply near_self; assumption| |num]. apply Rabs_le. nra. }
  apply c01_near_unit; [|exact Bv].
  destruct (leb_cases v t1 Fv F1) as [[Q1 C1]|[Q1 C1]]; rewrite Q1 in NL'; clear Q1; fold x in C1.
  - (* dark colours *)
    assert (N1 : near (v /. m) (x / fval m) (4 * u)).
    { apply near_weaken with (0 + 4 * u); [|lra]. apply (near_quotf o); try assumption; try lra; [apply near_self; assumption|rewrite Rabs_pos_eq; lra]. }
    assert (X1 : x / fval m * fval m = x) by (field; lra). set (w := x / fval m) in * .
    assert (W0 : 0 <= w <= 1) by nra.
    destruct (c01_near_unit o _ _ _ N1 ltac:(lra)) as [_ N2]. apply Rabs_le_inv in N2. apply Rabs_le_inv in NL'.
    assert (YW : w - 1104 * u <= y <= w + 1104 * u) by lra. clear N1 N2 NL'.
    destruct (leb_cases L t2 FL F2) as [[Q2 C2]|[Q2 C2]]; rewrite Q2; clear Q2; fold y in C2.
    + destruct LOW as [Fl El]. split; [exact Fl|]. apply Rabs_le_inv in El. apply Rabs_le. unfold keep_err. rewrite S. clear - El YW X1 B3. set (M := fval m) in * . 
      assert (M * (w - 1104 * u) <= M * y <= M * (w + 1104 * u)) by (split; apply Rmult_le_compat_l; lra). num.
    + destruct (HIGH ltac:(lra)) as [Fh Eh]. split; [exact Fh|]. apply Rabs_le_inv in Eh.
      assert (R1 : 9 / 100 <= Rpower y (/ E)).
      { apply root_ge; try lra. apply Rle_trans with (Rpower (9 / 100) (INR 12 / INR 5)); [apply Rp_le_exp; simpl INR; lra|].
        apply Rle_trans with (31307 / 10000000); [|lra]. apply Rp_le_q; [lra|lra|lia|lra]. }
      assert (R2 : Rpower y (/ E) <= 914 / 10000).
      { apply root_le; try lra. apply Rle_trans with (Rpower (914 / 10000) (INR 12 / INR 5) * (1 - 40 * u)); [|apply Rp_tight; [lra|simpl INR; num]].
        assert (T : 3208 / 1000000 <= Rpower (914 / 10000) (INR 12 / INR 5)) by (apply Rp_ge_q; [lra|lra|lia|lra]).
        apply Rle_trans with (3207 / 1000000); [|num]. assert (w <= 31343 / 10000000) by nra. num. }
      set (p := Rpower y (/ E)) in * . assert (3958 / 100000 <= x) by (assert (3064 / 1000000 <= w) by num; nra).
      assert (fval b * (9 / 100) <= fval b * p <= fval b * (914 / 10000)) by (split; apply Rmult_le_compat_l; lra).
      apply Rabs_le. unfold keep_err. rewrite S. clear - Eh H H0 B4 B5 B1 C1. num.
  - (* bright colours *)
    set (wf := (v +. a) /. b) in * .
    assert (N1 : near wf ((x + fval a) / fval b) (8 * u)).
    { apply near_weaken with (0 + 0 + u * (2 + (0 + 0)) + tiny + 4 * u); [|num]. apply (near_quotf o); try assumption; try lra; [|rewrite Rabs_pos_eq; lra|num].
      apply near_add; try (apply near_self; assumption); [rewrite Rabs_pos_eq; lra|lra]. }
    assert (X1 : (x + fval a) / fval b * fval b = x + fval a) by (field; lra). set (w := (x + fval a) / fval b) in * .
    assert (W0 : 90471 / 1000000 <= w <= 1 + 3 * u) by (split; unfold u in *; nra).
    destruct N1 as [Fw Ew]. apply Rabs_le_inv in Ew. set (r := Rmin (fval wf) 1).
    assert (Rr : w - 12 * u <= r <= w + 12 * u) by (unfold r, Rmin; destruct (Rle_dec (fval wf) 1); num).
    assert (R1 : r <= 1) by apply Rmin_r. assert (R0 : 9 / 100 <= r) by num.
    destruct (pow_unit o AP wf e Fw ltac:(num) F6 ltac:(fold E; lra)) as [_ NP]. fold r E in NP. apply Rabs_le_inv in NP. apply Rabs_le_inv in NL'.
    set (P := Rpower r E) in * . assert (YP : P - 1140 * u <= y <= P + 1140 * u) by num. clear NP NL'.
    assert (PB : 3128 / 1000000 <= P).
    { apply Rle_trans with (Rpower (9047 / 100000) E); [|apply Rp_le_base; num].
      apply Rle_trans with (Rpower (9047 / 100000) (INR 12 / INR 5) * (1 - 40 * u)); [|apply Rp_tight; [lra|simpl INR; num]].
      assert (T : 3129 / 1000000 <= Rpower (9047 / 100000) (INR 12 / INR 5)) by (apply Rp_ge_q; [lra|lra|lia|lra]). num. }
    destruct (leb_cases L t2 FL F2) as [[Q2 C2]|[Q2 C2]]; rewrite Q2; clear Q2; fold y in C2.
    + destruct LOW as [Fl El]. split; [exact Fl|]. apply Rabs_le_inv in El.
      assert (RU : r <= 914 / 10000).
      { destruct (Rle_lt_dec r (914 / 10000)) as [G|G]; [exact G|exfalso].
        assert (3207 / 1000000 <= P); [|num].
        apply Rle_trans with (Rpower (914 / 10000) E); [|apply Rp_le_base; lra].
        apply Rle_trans with (Rpower (914 / 10000) (INR 12 / INR 5) * (1 - 40 * u)); [|apply Rp_tight; [lra|simpl INR; num]].
        assert (T : 3208 / 1000000 <= Rpower (914 / 10000) (INR 12 / INR 5)) by (apply Rp_ge_q; [lra|lra|lia|lra]). num. }
      assert (XU : x <= 4144 / 100000). { assert (WU : w <= 914 / 10000 + 12 * u) by lra. assert (w * fval b <= (914 / 10000 + 12 * u) * (10550001 / 10000000)) by (apply Rmult_le_compat; lra). num. }
      assert (YL : 306 / 100000 <= y <= 31308001 / 10000000000) by num.
      set (M := fval m) in * . assert (M * (306 / 100000) <= M * y <= M * (31308001 / 10000000000)) by (split; apply Rmult_le_compat_l; lra).
      apply Rabs_le. unfold keep_err. rewrite S. num.
    + destruct (HIGH ltac:(lra)) as [Fh Eh]. split; [exact Fh|]. apply Rabs_le_inv in Eh.
      set (s := 18 / 10000). assert (Hs : s = 18 / 10000) by reflexivity. clearbody s.
      assert (V2 : 37 / 100 <= Rpower r (E - 2)).
      { apply Rle_trans with (Rpower (9 / 100) (E - 2)); [|apply Rp_le_base; lra].
        apply Rle_trans with (Rpower (9 / 100) (INR 17 / INR 42)); [apply Rp_ge_q; [lra|lra|lia|lra]|apply Rp_le_exp; simpl INR; lra]. }
      pose proof (Rp_step2 (r - s) r E ltac:(lra) ltac:(lra)) as Lo. pose proof (Rp_step2 r (r + s) E ltac:(lra) ltac:(lra)) as Hi.
      fold P in Lo, Hi.
      assert (HV : Rpower r (E - 2) <= Rpower (r + s) (E - 2)) by (apply Rp_le_base; lra).
      set (V := Rpower r (E - 2)) in * . set (V' := Rpower (r + s) (E - 2)) in * .
      assert (Lo2 : 37 / 100 * (2 * (9 / 100) * s - s * s) <= V * (r * r - (r - s) * (r - s))) by (apply Rmult_le_compat; nra).
      assert (Hi2 : 37 / 100 * (2 * (9 / 100) * s - s * s) <= V' * ((r + s) * (r + s) - r * r)) by (apply Rmult_le_compat; nra).
      assert (DD : 1160 * u <= 37 / 100 * (2 * (9 / 100) * s - s * s)) by (rewrite Hs; num).
      assert (R2 : r - s <= Rpower y (/ E)) by (apply root_ge; num). assert (R3 : Rpower y (/ E) <= r + s) by (apply root_le; num).
      set (p := Rpower y (/ E)) in * . set (B := fval b) in * .
      assert (BP : B * (w - 12 * u - s) <= B * p <= B * (w + 12 * u + s)) by (split; apply Rmult_le_compat_l; lra).
      apply Rabs_le. unfold keep_err. rewrite S. clear - Eh BP X1 B4 B5 Hs. subst s. num.
Qed.

End Wide.
