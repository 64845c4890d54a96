(** * Blending is monotone in binary32 (C192, C194) *)
From Coq Require Import ZArith QArith Reals Lra Lia List Bool.
From Flocq Require Import Core Mult_error IEEE754.BinarySingleNaN.
From Verif Require Import Arith Outcome ColorModel Heap Converter Calculation Blend
  Spec F32 F32Facts Spec32 Laws NormalForms Core_Proofs Core2_Proofs Core3_Proofs Core4_Proofs Convert_Proofs Alpha8 Spec_Conv Spec_Calc Spec_Blend Spec_Order
  Conv_Proofs Conv2_Proofs Conv3_Proofs Calc_Proofs Calc2_Proofs Blend_Proofs Blend3_Proofs Blend32_Proofs Blend2_Proofs.
Import ListNotations.
Local Open Scope R_scope.

Definition wide32 (x : f32) : Prop := is_finite x = true /\ -2 <= fval x <= 2.
Lemma unit_wide x : unit32 x -> wide32 x.
Proof. intros [A B]. split; [exact A|lra]. Qed.

Lemma rnd_scale n x : (0 <= n)%Z -> rnd32 x = x -> rnd32 (x * bpow radix2 n) = x * bpow radix2 n.
Proof.
  intros N H. unfold rnd32. apply round_generic; [apply valid_rnd_N|].
  apply (mult_bpow_pos_exact_FLT radix2 (3 - 128 - 24) 24); [|exact N].
  rewrite <- H. apply generic_format_round; [apply fexp_correct; reflexivity|apply valid_rnd_N].
Qed.

Section F.
Variable o : oracle.
Local Notation fz := (@fz f32 (F32 o)).

Lemma mul_wide a b : unit32 a -> wide32 b -> wide32 (Bmult mode_NE a b) /\ fval (Bmult mode_NE a b) = rnd32 (fval a * fval b).
Proof.
  intros [Fa Ra] [Fb Rb].
  assert (P : -2 <= fval a * fval b <= 2) by (split; nra).
  destruct (Bmult_ok a b (-2) 2 Fa Fb) as [A B]; try sm; [exact P|]. split; [|exact B]. split; [exact A|]. rewrite B. apply (rnd32_bounds _ (-2) 2); try sm. exact P.
Qed.

(** what the three areas contribute to a component *)
Definition mix3 (us ud : bool) (x y s d b : R) : R :=
  sum3 (rnd32 (rnd32 (x * rnd32 (1 - y)) * (if us then s else 0))) (rnd32 (rnd32 (y * rnd32 (1 - x)) * (if ud then d else 0)))
       (rnd32 (rnd32 (x * y) * b)).

Lemma blend_sum_wide us ud x y s d b : unit32 x -> unit32 y -> unit32 s -> unit32 d -> wide32 b ->
  is_finite (@blend_sum f32 (F32 o) us ud x y s d b) = true /\
  fval (@blend_sum f32 (F32 o) us ud x y s d b) = mix3 us ud (fval x) (fval y) (fval s) (fval d) (fval b).
Proof.
  intros X Y S D B. unfold blend_sum, mix3. cbn [fadd fmul fsub F32].
  destruct (compl_unit o y Y) as [Y1 Y2]. destruct (compl_unit o x X) as [X1 X2].
  destruct (mul_unit x _ X Y1) as [P1 P2]. destruct (mul_unit y _ Y X1) as [Q1 Q2]. destruct (mul_unit x y X Y) as [R1 R2].
  destruct (mul_unit _ _ P1 (if_unit o us s S)) as [P3 P4]. destruct (mul_unit _ _ Q1 (if_unit o ud d D)) as [Q3 Q4]. destruct (mul_wide _ _ R1 B) as [R3 R4].
  set (p := Bmult mode_NE (Bmult mode_NE x _) _) in *. set (q := Bmult mode_NE (Bmult mode_NE y _) _) in *. set (r := Bmult mode_NE (Bmult mode_NE x y) b) in *.
  destruct P3 as [Fp Bp]. destruct Q3 as [Fq Bq]. destruct R3 as [Fr Br].
  destruct (Bplus_ok p q 0 2 Fp Fq) as [A C]; try sm; [lra|].
  assert (C' : 0 <= fval (Bplus mode_NE p q) <= 2) by (rewrite C; apply (rnd32_bounds _ 0 2); try sm; lra).
  destruct (Bplus_ok (Bplus mode_NE p q) r (-2) 4 A Fr) as [D1 E1]; try sm; [lra|]. split; [exact D1|].
  rewrite E1, C, P4, Q4, R4, P2, Q2, R2, X2, Y2. destruct (zero32 o) as [F0 V0]. unfold sum3. destruct us, ud; rewrite ?V0; reflexivity.
Qed.

Lemma areas x y : unit32 x -> unit32 y ->
  0 <= rnd32 (fval x * rnd32 (1 - fval y)) /\ 0 <= rnd32 (fval y * rnd32 (1 - fval x)) /\ 0 <= rnd32 (fval x * fval y).
Proof.
  intros [_ X] [_ Y]. split; [|split]; apply rnd_pos, Rmult_le_pos; try lra; apply rnd_pos; lra.
Qed.

Lemma mix_le us ud x y s d b s' d' b' : unit32 x -> unit32 y -> s <= s' -> d <= d' -> b <= b' ->
  mix3 us ud (fval x) (fval y) s d b <= mix3 us ud (fval x) (fval y) s' d' b'.
Proof.
  intros X Y S D B. destruct (areas x y X Y) as [P [Q R]]. unfold mix3. apply sum3_le; apply rnd_mul_le; try assumption; [destruct us|destruct ud]; lra.
Qed.

Definition one_if (u : bool) : R := if u then 1 else 0.
(** A component is at most four times alpha. *)
Lemma mix_alpha us ud ub x y s d b : unit32 x -> unit32 y -> s <= 1 -> d <= 1 -> b <= 2 * one_if ub ->
  mix3 us ud (fval x) (fval y) s d b <= 4 * mix3 us ud (fval x) (fval y) 1 1 (one_if ub).
Proof.
  intros X Y S D B. destruct (areas x y X Y) as [P [Q R]]. unfold mix3.
  set (A := rnd32 (fval x * rnd32 (1 - fval y))) in *. set (C := rnd32 (fval y * rnd32 (1 - fval x))) in *. set (E := rnd32 (fval x * fval y)) in *.
  assert (FA : rnd32 A = A) by apply format_idem. assert (FC : rnd32 C = C) by apply format_idem. assert (FE : rnd32 E = E) by apply format_idem.
  clearbody A C E. set (A' := A * (if us then 1 else 0)). set (C' := C * (if ud then 1 else 0)). set (E' := E * one_if ub).
  assert (FA' : rnd32 A' = A') by (unfold A'; destruct us; rewrite ?Rmult_1_r, ?Rmult_0_r; [exact FA|apply (rnd32_int 0); sm]).
  assert (FC' : rnd32 C' = C') by (unfold C'; destruct ud; rewrite ?Rmult_1_r, ?Rmult_0_r; [exact FC|apply (rnd32_int 0); sm]).
  assert (FE' : rnd32 E' = E') by (unfold E', one_if; destruct ub; rewrite ?Rmult_1_r, ?Rmult_0_r; [exact FE|apply (rnd32_int 0); sm]).
  assert (PA : 0 <= A') by (unfold A'; destruct us; lra). assert (PC : 0 <= C') by (unfold C'; destruct ud; lra).
  assert (PE : 0 <= E') by (unfold E', one_if; destruct ub; lra).
  assert (LA : rnd32 (A * (if us then s else 0)) <= A').
  { rewrite <- FA'. apply rnd_mul_le; [exact P|]. destruct us; lra. }
  assert (LC : rnd32 (C * (if ud then d else 0)) <= C').
  { rewrite <- FC'. apply rnd_mul_le; [exact Q|]. destruct ud; lra. }
  assert (LE : rnd32 (E * b) <= 2 * E').
  { replace (2 * E') with (E' * bpow radix2 1) by (simpl; lra). rewrite <- (rnd_scale 1 E') by (lia || exact FE').
    replace (E' * bpow radix2 1) with (E * (2 * one_if ub)) by (change (bpow radix2 1) with 2; unfold E'; ring). apply rnd_mul_le; assumption. }
  rewrite FA', FC', FE'.
  apply Rle_trans with (sum3 A' C' (2 * E')); [apply sum3_le; assumption|]. unfold sum3.
  set (s1 := rnd32 (A' + C')). assert (K : 0 <= s1) by (apply rnd_pos; lra). assert (Fs : rnd32 s1 = s1) by apply format_idem.
  assert (M : forall M, rnd32 M = M -> s1 <= M -> E' <= M -> rnd32 (s1 + 2 * E') <= 4 * M).
  { intros M FM L1 L2. replace (4 * M) with (M * bpow radix2 2) by (simpl; lra). rewrite <- (rnd_scale 2 M) by (lia || exact FM). apply rnd32_le. simpl. lra. }
  apply M; [apply format_idem| |].
  - rewrite <- Fs at 1. apply rnd32_le. lra.
  - rewrite <- FE' at 1. apply rnd32_le. lra.
Qed.

Lemma clamp_le x x' : is_finite x = true -> is_finite x' = true -> fval x <= fval x' ->
  let w := @c01 f32 (F32 o) x in let w' := @c01 f32 (F32 o) x' in
  is_finite w = true /\ is_finite w' = true /\ 0 <= fval w <= fval w' /\ fval w' <= Rmax 0 (fval x').
Proof.
  intros Fx Fx' L w w'. destruct (clamp_unit o x) as [A B]. destruct (clamp_unit o x') as [A' B']. rewrite unit_clamp_fin in B by exact Fx. rewrite unit_clamp_fin in B' by exact Fx'.
  split; [exact A|]. split; [exact A'|]. change (fval w = Rmax 0 (Rmin 1 (fval x))) in B. change (fval w' = Rmax 0 (Rmin 1 (fval x'))) in B'. rewrite B, B'.
  unfold Rmax, Rmin. repeat destruct Rle_dec; lra.
Qed.

Lemma quotient_le v v' a : is_finite v = true -> is_finite v' = true -> is_finite a = true -> 0 < fval a -> 0 <= fval v <= fval v' -> fval v' <= 4 * fval a ->
  is_finite (Bdiv mode_NE v a) = true /\ is_finite (Bdiv mode_NE v' a) = true /\ fval (Bdiv mode_NE v a) <= fval (Bdiv mode_NE v' a).
Proof.
  intros Fv Fv' Fa P L U. assert (I : 0 < / fval a) by (apply Rinv_0_lt_compat; exact P).
  assert (Q' : 0 <= fval v' / fval a <= 4).
  { unfold Rdiv. split; [apply Rmult_le_pos; lra|]. replace 4 with (4 * fval a * / fval a) by (field; lra). apply Rmult_le_compat_r; lra. }
  assert (Q : 0 <= fval v / fval a <= fval v' / fval a).
  { unfold Rdiv. split; [apply Rmult_le_pos; lra|]. apply Rmult_le_compat_r; lra. }
  destruct (Bdiv_ok v a 0 4 Fv Fa) as [A B]; try sm; try lra. destruct (Bdiv_ok v' a 0 4 Fv' Fa) as [A' B']; try sm; try lra.
  split; [exact A|]. split; [exact A'|]. rewrite B, B'. apply rnd32_le. lra.
Qed.

Lemma alpha_sum us ud ub x y : unit32 x -> unit32 y ->
  is_finite (@blend_alpha f32 (F32 o) us ud ub x y) = true /\
  fval (@blend_alpha f32 (F32 o) us ud ub x y) = mix3 us ud (fval x) (fval y) 1 1 (one_if ub).
Proof.
  intros X Y. destruct (one32 o) as [F1 V1]. destruct (zero32 o) as [F0 V0]. assert (U : unit32 (fz 1)) by (split; [exact F1|lra]).
  destruct (blend_sum_wide us ud x y (fz 1) (fz 1) (if ub then fz 1 else fz 0) X Y U U (unit_wide _ (if_unit o ub _ U))) as [A B]. rewrite V1 in B.
  split; [exact A|]. unfold blend_alpha. rewrite B. destruct ub; unfold one_if; rewrite ?V1, ?V0; reflexivity.
Qed.

(** The general statement: larger components and a larger function give a larger result. *)
Lemma blend_f_le us ud ub f g (c1 c2 c1' c2' r r' : color f32) : deep32 o c1 -> deep32 o c2 -> deep32 o c1' -> deep32 o c2' -> darker32 c1 c1' -> darker32 c2 c2' ->
  (forall i s d s' d', unit32 s -> unit32 d -> unit32 s' -> unit32 d' -> fval s <= fval s' -> fval d <= fval d' ->
    nth_error (comps c1) i = Some s -> nth_error (comps c2) i = Some d -> nth_error (comps c1') i = Some s' -> nth_error (comps c2') i = Some d' ->
    wide32 (f i s d) /\ wide32 (g i s' d') /\ fval (f i s d) <= fval (g i s' d') /\ fval (g i s' d') <= 2 * one_if ub) ->
  @blend_f f32 (F32 o) us ud ub f c1 c2 = Ok r -> @blend_f f32 (F32 o) us ud ub g c1' c2' = Ok r' -> darker32 r r'.
Proof.
  intros [W1 A1] [W2 A2] [W1' A1'] [W2' A2'] [L1 [_ D1]] [L2 [_ D2]] Hf E E'.
  destruct (comps3 _ c1 W1 eq_refl) as [s0 [s1 [s2 E1]]]. destruct (comps3 _ c2 W2 eq_refl) as [d0 [d1 [d2 E2]]].
  destruct (comps3 _ c1' W1' eq_refl) as [s0' [s1' [s2' E1']]]. destruct (comps3 _ c2' W2' eq_refl) as [d0' [d1' [d2' E2']]].
  pose proof (fun i x => unit_comp o c1 i x W1) as R1. pose proof (fun i x => unit_comp o c2 i x W2) as R2.
  pose proof (fun i x => unit_comp o c1' i x W1') as R1'. pose proof (fun i x => unit_comp o c2' i x W2') as R2'.
  rewrite (blend_f_nf us ud ub f c1 c2 _ _ _ _ _ _ E1 E2) in E. rewrite (blend_f_nf us ud ub g c1' c2' _ _ _ _ _ _ E1' E2') in E'.
  assert (K1 : unit32 (@alpha f32 (F32 o) c1)) by (unfold alpha; rewrite (wf_cls _ _ W1); exact A1).
  assert (K2 : unit32 (@alpha f32 (F32 o) c2)) by (unfold alpha; rewrite (wf_cls _ _ W2); exact A2).
  assert (Q1 : @alpha f32 (F32 o) c1' = @alpha f32 (F32 o) c1) by (unfold alpha; rewrite (wf_cls _ _ W1), (wf_cls _ _ W1'); symmetry; exact L1).
  assert (Q2 : @alpha f32 (F32 o) c2' = @alpha f32 (F32 o) c2) by (unfold alpha; rewrite (wf_cls _ _ W2), (wf_cls _ _ W2'); symmetry; exact L2).
  rewrite Q1, Q2 in E'. set (x := @alpha f32 (F32 o) c1) in *. set (y := @alpha f32 (F32 o) c2) in *.
  destruct (alpha_sum us ud ub x y K1 K2) as [Fa Va].
  assert (C : forall i s d s' d', nth_error (comps c1) i = Some s -> nth_error (comps c2) i = Some d -> nth_error (comps c1') i = Some s' -> nth_error (comps c2') i = Some d' ->
    let w := @c01 f32 (F32 o) (@blend_sum f32 (F32 o) us ud x y s d (f i s d)) in let w' := @c01 f32 (F32 o) (@blend_sum f32 (F32 o) us ud x y s' d' (g i s' d')) in
    is_finite w = true /\ is_finite w' = true /\ 0 <= fval w <= fval w' /\ fval w' <= 4 * fval (@blend_alpha f32 (F32 o) us ud ub x y)).
  { intros i s d s' d' N1 N2 N1' N2'. destruct (D1 i s s' N1 N1') as [_ [_ M1]]. destruct (D2 i d d' N2 N2') as [_ [_ M2]].
    destruct (Hf i s d s' d' (R1 _ _ N1) (R2 _ _ N2) (R1' _ _ N1') (R2' _ _ N2') M1 M2 N1 N2 N1' N2') as [B1 [B2 [B3 B4]]].
    destruct (blend_sum_wide us ud x y s d (f i s d) K1 K2 (R1 _ _ N1) (R2 _ _ N2) B1) as [G1 G2].
    destruct (blend_sum_wide us ud x y s' d' (g i s' d') K1 K2 (R1' _ _ N1') (R2' _ _ N2') B2) as [G1' G2'].
    set (u := @blend_sum f32 (F32 o) us ud x y s d (f i s d)) in *. set (u' := @blend_sum f32 (F32 o) us ud x y s' d' (g i s' d')) in *.
    assert (LE : fval u <= fval u') by (rewrite G2, G2'; apply mix_le; assumption).
    assert (U4 : fval u' <= 4 * fval (@blend_alpha f32 (F32 o) us ud ub x y)).
    { rewrite Va, G2'. destruct (R1' _ _ N1') as [_ Z1]. destruct (R2' _ _ N2') as [_ Z2]. destruct B2 as [_ Z3]. apply mix_alpha; try assumption; lra. }
    assert (P : 0 <= fval (@blend_alpha f32 (F32 o) us ud ub x y)).
    { rewrite Va. destruct (areas x y K1 K2) as [P [Q R]]. unfold mix3. apply sum3_pos; apply rnd_pos, Rmult_le_pos; try assumption; try lra; [destruct us|destruct ud|destruct ub; unfold one_if]; lra. }
    destruct (clamp_le u u' G1 G1' LE) as [H1 [H2 [H3 H4]]]. cbv zeta. split; [exact H1|]. split; [exact H2|]. split; [exact H3|].
    apply Rle_trans with (1 := H4). apply Rmax_lub; lra. }
  assert (P : 0 <= fval (@blend_alpha f32 (F32 o) us ud ub x y)).
  { rewrite Va. destruct (areas x y K1 K2) as [P [Q R]]. unfold mix3. apply sum3_pos; apply rnd_pos, Rmult_le_pos; try assumption; try lra; [destruct us|destruct ud|destruct ub; unfold one_if]; lra. }
  pose proof (C 0%nat s0 d0 s0' d0') as C0. pose proof (C 1%nat s1 d1 s1' d1') as C1. pose proof (C 2%nat s2 d2 s2' d2') as C2. clear C.
  rewrite E1, E2, E1', E2' in C0, C1, C2. specialize (C0 eq_refl eq_refl eq_refl eq_refl). specialize (C1 eq_refl eq_refl eq_refl eq_refl). specialize (C2 eq_refl eq_refl eq_refl eq_refl).
  cbv zeta in C0, C1, C2.
  set (a := @blend_alpha f32 (F32 o) us ud ub x y) in *. clearbody a.
  set (v0 := @c01 f32 (F32 o) (@blend_sum f32 (F32 o) us ud x y s0 d0 _)) in *. set (v0' := @c01 f32 (F32 o) (@blend_sum f32 (F32 o) us ud x y s0' d0' _)) in *.
  set (v1 := @c01 f32 (F32 o) (@blend_sum f32 (F32 o) us ud x y s1 d1 _)) in *. set (v1' := @c01 f32 (F32 o) (@blend_sum f32 (F32 o) us ud x y s1' d1' _)) in *.
  set (v2 := @c01 f32 (F32 o) (@blend_sum f32 (F32 o) us ud x y s2 d2 _)) in *. set (v2' := @c01 f32 (F32 o) (@blend_sum f32 (F32 o) us ud x y s2' d2' _)) in *.
  clearbody v0 v1 v2 v0' v1' v2'. apply Ok_inj in E. apply Ok_inj in E'.
  destruct (zero32 o) as [Fz Vz]. unfold alpha_divide in E, E'. cbn [m_alpha] in E, E'. cbn [feq F32] in E, E'. rewrite Beqb_fin in E, E' by assumption. rewrite Vz in E, E'.
  destruct (Req_bool_spec (fval a) 0) as [Z|Z]; rewrite <- E, <- E'; (split; [reflexivity|]; split; [reflexivity|]); cbn [comps with_comps map]; intros i v v';
    (destruct i as [|[|[|i]]]; cbn [nth_error]; [| | |destruct i; discriminate]); intros [= <-] [= <-].
  1-3: split; [apply C0 || apply C1 || apply C2|split; [apply C0 || apply C1 || apply C2|]]; first [apply C0|apply C1|apply C2].
  1: destruct C0 as [X1 [X2 [X3 X4]]]. 2: destruct C1 as [X1 [X2 [X3 X4]]]. 3: destruct C2 as [X1 [X2 [X3 X4]]].
  all: cbn [fdiv F32]; apply quotient_le; auto; lra.
Qed.

Lemma checked_mono us ud ub f g (h h' : heap f32) p1 c1 p2 c2 q1 c1' q2 c2' : at_addr h p1 c1 -> at_addr h p2 c2 -> at_addr h' q1 c1' -> at_addr h' q2 c2' ->
  deep32 o c1 -> deep32 o c2 -> deep32 o c1' -> deep32 o c2' -> rgb_space c1 = rgb_space c2 -> rgb_space c1' = rgb_space c2' -> darker32 c1 c1' -> darker32 c2 c2' ->
  (forall i s d s' d', unit32 s -> unit32 d -> unit32 s' -> unit32 d' -> fval s <= fval s' -> fval d <= fval d' ->
    nth_error (comps c1) i = Some s -> nth_error (comps c2) i = Some d -> nth_error (comps c1') i = Some s' -> nth_error (comps c2') i = Some d' ->
    wide32 (f c1 c2 i s d) /\ wide32 (g c1' c2' i s' d') /\ fval (f c1 c2 i s d) <= fval (g c1' c2' i s' d') /\ fval (g c1' c2' i s' d') <= 2 * one_if ub) ->
  returns (@checked_blend f32 (F32 o) us ud ub f (Some p1) (Some p2)) h (fun r =>
    returns (@checked_blend f32 (F32 o) us ud ub g (Some q1) (Some q2)) h' (fun r' => darker32 r r')).
Proof.
  intros H1 H2 H1' H2' D1 D2 D1' D2' SP SP' L1 L2 Hf.
  destruct (checked_deep_run (AF := F32 o) us ud ub f h p1 c1 p2 c2 H1 H2 (proj1 D1) (proj1 D2) SP) as [q [r [k [E [Q B]]]]].
  destruct (checked_deep_run (AF := F32 o) us ud ub g h' q1 c1' q2 c2' H1' H2' (proj1 D1') (proj1 D2') SP') as [q' [r' [k' [E' [Q' B']]]]].
  exists q, r, k. split; [exact E|]. split; [exact Q|]. exists q', r', k'. split; [exact E'|]. split; [exact Q'|].
  exact (blend_f_le us ud ub _ _ c1 c2 c1' c2' r r' D1 D2 D1' D2' L1 L2 Hf B B').
Qed.

Lemma blend_mono us ud m m' (h h' : heap f32) p1 c1 p2 c2 q1 c1' q2 c2' : at_addr h p1 c1 -> at_addr h p2 c2 -> at_addr h' q1 c1' -> at_addr h' q2 c2' ->
  deep32 o c1 -> deep32 o c2 -> deep32 o c1' -> deep32 o c2' -> rgb_space c1 = rgb_space c2 -> rgb_space c1' = rgb_space c2' -> darker32 c1 c1' -> darker32 c2 c2' ->
  (forall i s d s' d', unit32 s -> unit32 d -> unit32 s' -> unit32 d' -> fval s <= fval s' -> fval d <= fval d' ->
    nth_error (comps c1) i = Some s -> nth_error (comps c2) i = Some d -> nth_error (comps c1') i = Some s' -> nth_error (comps c2') i = Some d' ->
    wide32 (@blend_function f32 (F32 o) m c1 c2 i s d) /\ wide32 (@blend_function f32 (F32 o) m' c1' c2' i s' d') /\
    fval (@blend_function f32 (F32 o) m c1 c2 i s d) <= fval (@blend_function f32 (F32 o) m' c1' c2' i s' d')) ->
  returns (@blend f32 (F32 o) m (Some p1) (Some p2) us ud) h (fun r =>
    returns (@blend f32 (F32 o) m' (Some q1) (Some q2) us ud) h' (fun r' => darker32 r r')).
Proof.
  intros H1 H2 H1' H2' D1 D2 D1' D2' SP SP' L1 L2 Hf. rewrite blend_checked.
  assert (K : returns (@checked_blend f32 (F32 o) us ud true (@blend_function f32 (F32 o) m) (Some p1) (Some p2)) h (fun r =>
    returns (@checked_blend f32 (F32 o) us ud true (@blend_function f32 (F32 o) m') (Some q1) (Some q2)) h' (fun r' => darker32 r r'))).
  { apply (checked_mono us ud true _ _ h h' p1 c1 p2 c2 q1 c1' q2 c2'); auto. intros i s d s' d' S D S' D' LS LD N1 N2 N1' N2'.
    destruct (Hf i s d s' d' S D S' D' LS LD N1 N2 N1' N2') as [A [B C]]. split; [exact A|]. split; [exact B|]. split; [exact C|]. destruct B as [_ B]. unfold one_if. lra. }
  apply (returns_impl _ _ _ _ K). intros r. rewrite blend_checked. auto.
Qed.

(** Porter-Duff operators *)
Lemma composite_mono p (h h' : heap f32) p1 c1 p2 c2 q1 c1' q2 c2' : at_addr h p1 c1 -> at_addr h p2 c2 -> at_addr h' q1 c1' -> at_addr h' q2 c2' ->
  deep32 o c1 -> deep32 o c2 -> deep32 o c1' -> deep32 o c2' -> rgb_space c1 = rgb_space c2 -> rgb_space c1' = rgb_space c2' -> darker32 c1 c1' -> darker32 c2 c2' ->
  returns (@composite f32 (F32 o) p (Some p1) (Some p2)) h (fun r =>
    returns (@composite f32 (F32 o) p (Some q1) (Some q2)) h' (fun r' => darker32 r r')).
Proof.
  intros H1 H2 H1' H2' D1 D2 D1' D2' SP SP' L1 L2. rewrite composite_checked.
  assert (K : returns (@checked_blend f32 (F32 o) (op_s p) (op_d p) (op_b p) (@op_f f32 (F32 o) p) (Some p1) (Some p2)) h (fun r =>
    returns (@checked_blend f32 (F32 o) (op_s p) (op_d p) (op_b p) (@op_f f32 (F32 o) p) (Some q1) (Some q2)) h' (fun r' => darker32 r r'))).
  { apply (checked_mono _ _ _ _ _ h h' p1 c1 p2 c2 q1 c1' q2 c2'); auto. intros i s d s' d' S D S' D' LS LD _ _ _ _.
    destruct (zero32 o) as [F0 V0]. assert (W0 : wide32 (fz 0)) by (split; [exact F0|lra]).
    pose proof (proj2 S') as RS. pose proof (proj2 D') as RD.
    destruct p; cbn [op_f op_b]; unfold one_if; repeat (split; [first [exact W0|apply unit_wide; assumption|lra]|]); lra. }
  exact K.
Qed.
End F.
