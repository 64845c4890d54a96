(** * Compositing deep colours in binary32 (C210, C211) *)
From Coq Require Import ZArith QArith Reals Lra Lia List Bool.
From Flocq Require Import Core IEEE754.BinarySingleNaN.
From Verif Require Import Arith Outcome ColorModel GammaModel MatrixModel SpaceModel Heap Converter Calculation Blend F32 F32Facts RArith
  Spec Spec32 Laws NormalForms Alpha8 Core_Proofs Core2_Proofs Core3_Proofs Core4_Proofs Hue32 Spec_Matrix Spec_Conv Spec_Calc Spec_Blend Spec_Round
  Conv_Proofs Conv2_Proofs Conv3_Proofs Run_Proofs Round_Proofs Round2_Proofs Error_Proofs Error2_Proofs HueR_Proofs Error3_Proofs Error4_Proofs Error5_Proofs Error7_Proofs Error8_Proofs Spec_Error
  Linear2_Proofs Curve_Proofs Blend32_Proofs Blend_Proofs Blend2_Proofs Spec_Byte Byte_Proofs Byte2_Proofs Byte3_Proofs Sum_Proofs Veil_Proofs Veil3_Proofs Veil4_Proofs Spec_Film.
Import ListNotations.
Local Open Scope R_scope.

Section Film.
Variable o : oracle.
Local Notation fin x := (is_finite x = true).
Local Notation "x +. y" := (@fadd f32 (F32 o) x y) (at level 50, left associativity).
Local Notation "x -. y" := (@fsub f32 (F32 o) x y) (at level 50, left associativity).
Local Notation "x *. y" := (@fmul f32 (F32 o) x y) (at level 40, left associativity).
Local Notation "x /. y" := (@fdiv f32 (F32 o) x y) (at level 40, left associativity).
Local Notation "$ n" := (fz (H := F32 o) n) (at level 2).

Lemma unit_prod a b : 0 <= a <= 1 -> 0 <= b <= 1 -> 0 <= a * b <= 1.
Proof. intros A B. split; [apply Rmult_le_pos; lra|]. rewrite <- (Rmult_1_r 1). apply Rmult_le_compat; lra. Qed.
Lemma near_prod x y a b e1 e2 : near x a e1 -> near y b e2 -> 0 <= a <= 1 -> 0 <= b <= 1 -> 0 <= e1 <= 100 * u -> 0 <= e2 <= 100 * u ->
  near (x *. y) (a * b) (e1 + e2 + 101 / 100 * u).
Proof.
  intros N1 N2 A B H1 H2. pose proof (unit_prod a b A B) as P. eapply near_weaken; [apply (near_mul o x y a b e1 e2 1 1 1 N1 N2)|]; try (apply Rabs_le; lra).
  - assert (e1 * e2 <= 100 * u * (100 * u)) by (apply Rmult_le_compat; lra). num.
  - assert (e1 * e2 <= 100 * u * (100 * u)) by (apply Rmult_le_compat; lra). assert (0 <= e1 * e2) by (apply Rmult_le_pos; lra). num.
Qed.
Lemma near_compl x a e : near x a e -> 0 <= a <= 1 -> 0 <= e <= 100 * u -> near ($1 -. x) (1 - a) (e + 101 / 100 * u).
Proof. intros N A E. eapply near_weaken; [apply (near_sub o _ _ _ _ _ _ 1 (near_one o) N)|]; try (apply Rabs_le; lra); num. Qed.
Lemma near_self32 x : unit32 x -> near x (fval x) 0.
Proof. intros [F _]. apply near_self, F. Qed.

Lemma sum_close (us ud ub : bool) (x y s d f : f32) (S D t es et : R) : unit32 x -> unit32 y -> near s S es -> near d D es -> 0 <= S <= 1 -> 0 <= D <= 1 -> 0 <= es <= 2 * u ->
  near f (if ub then t else 0) et -> 0 <= t <= 1 -> 0 <= et <= 32 * u ->
  near (@blend_sum f32 (F32 o) us ud x y s d f) (mixture us ud ub (fval x) (fval y) S D t) (121 / 10 * u + 2 * es + et).
Proof.
  intros X Y Ns Nd BS BD He Nf Bt Het. pose proof (proj2 X) as BX. pose proof (proj2 Y) as BY.
  pose proof (near_prod _ _ _ _ _ _ (near_self32 x X) (near_compl y _ _ (near_self32 y Y) BY ltac:(num)) BX ltac:(lra) ltac:(num) ltac:(num)) as Ws.
  pose proof (near_prod _ _ _ _ _ _ (near_self32 y Y) (near_compl x _ _ (near_self32 x X) BX ltac:(num)) BY ltac:(lra) ltac:(num) ltac:(num)) as Wd.
  pose proof (near_prod _ _ _ _ _ _ (near_self32 x X) (near_self32 y Y) BX BY ltac:(num) ltac:(num)) as Wb.
  pose proof (unit_prod (fval x) (1 - fval y) BX ltac:(lra)) as Rs. pose proof (unit_prod (fval y) (1 - fval x) BY ltac:(lra)) as Rd. pose proof (unit_prod (fval x) (fval y) BX BY) as Rb.
  assert (Tot : fval x * (1 - fval y) + fval y * (1 - fval x) + fval x * fval y <= 1) by (assert (0 <= (1 - fval x) * (1 - fval y)) by (apply Rmult_le_pos; lra); lra).
  assert (N0 : near $0 0 es) by (eapply near_weaken; [apply near_fz; sm|lra]).
  assert (Is : near (if us then s else $0) (if us then S else 0) es) by (destruct us; assumption).
  assert (Id : near (if ud then d else $0) (if ud then D else 0) es) by (destruct ud; assumption).
  assert (Bs : 0 <= (if us then S else 0) <= 1) by (destruct us; lra). assert (Bd : 0 <= (if ud then D else 0) <= 1) by (destruct ud; lra). assert (Bb : 0 <= (if ub then t else 0) <= 1) by (destruct ub; lra).
  pose proof (near_prod _ _ _ _ _ _ Ws Is Rs Bs ltac:(num) ltac:(num)) as Ps. pose proof (near_prod _ _ _ _ _ _ Wd Id Rd Bd ltac:(num) ltac:(num)) as Pd.
  pose proof (near_prod _ _ _ _ _ _ Wb Nf Rb Bb ltac:(num) ltac:(num)) as Pb.
  assert (M : mixture us ud ub (fval x) (fval y) S D t = fval x * (1 - fval y) * (if us then S else 0) + fval y * (1 - fval x) * (if ud then D else 0) + fval x * fval y * (if ub then t else 0)).
  { unfold mixture. destruct us, ud, ub; ring. }
  assert (Us : 0 <= fval x * (1 - fval y) * (if us then S else 0) <= fval x * (1 - fval y)) by (split; [apply Rmult_le_pos; lra|rewrite <- (Rmult_1_r (fval x * (1 - fval y))) at 2; apply Rmult_le_compat_l; lra]).
  assert (Ud : 0 <= fval y * (1 - fval x) * (if ud then D else 0) <= fval y * (1 - fval x)) by (split; [apply Rmult_le_pos; lra|rewrite <- (Rmult_1_r (fval y * (1 - fval x))) at 2; apply Rmult_le_compat_l; lra]).
  assert (Ub : 0 <= fval x * fval y * (if ub then t else 0) <= fval x * fval y) by (split; [apply Rmult_le_pos; lra|rewrite <- (Rmult_1_r (fval x * fval y)) at 2; apply Rmult_le_compat_l; lra]).
  rewrite M. unfold blend_sum.
  pose proof (near_add o _ _ _ _ _ _ 1 Ps Pd ltac:(apply Rabs_le; lra) ltac:(num)) as A1.
  pose proof (near_add o _ _ _ _ _ _ 1 A1 Pb ltac:(apply Rabs_le; lra) ltac:(num)) as A2.
  eapply near_weaken; [exact A2|]. num.
Qed.

Lemma alpha_film (us ud ub : bool) (x y : f32) : unit32 x -> unit32 y -> near (@blend_alpha f32 (F32 o) us ud ub x y) (coverage us ud ub (fval x) (fval y)) (121 / 10 * u).
Proof.
  intros X Y. assert (N1 : near $1 1 0) by (apply near_fz; sm).
  assert (Nb : near (if ub then $1 else $0) (if ub then 1 else 0) 0) by (destruct ub; apply near_fz; sm).
  pose proof (sum_close us ud ub x y $1 $1 _ 1 1 1 0 0 X Y N1 N1 ltac:(lra) ltac:(lra) ltac:(num) Nb ltac:(lra) ltac:(num)) as N.
  replace (coverage us ud ub (fval x) (fval y)) with (mixture us ud ub (fval x) (fval y) 1 1 1) by (unfold mixture, coverage; destruct us, ud, ub; ring).
  eapply near_weaken; [exact N|num].
Qed.

Lemma film_channel (us ud ub : bool) (x y s d f : f32) t et : unit32 x -> unit32 y -> unit32 s -> unit32 d -> unit32 f -> fval f <= (if ub then 1 else 0) ->
  near f (if ub then t else 0) et -> 0 <= t <= 1 -> 0 <= et <= 65 / 10 * u ->
  contributes (coverage us ud ub (fval x) (fval y)) (mixture us ud ub (fval x) (fval y) (fval s) (fval d) t) (/ 524288)
    (divided o (@c01 f32 (F32 o) (@blend_sum f32 (F32 o) us ud x y s d f)) (@blend_alpha f32 (F32 o) us ud ub x y)).
Proof.
  intros X Y S D Uf Lf Nf Bt He.
  pose proof (sum_close us ud ub x y s d f _ _ t 0 et X Y (near_self32 s S) (near_self32 d D) (proj2 S) (proj2 D) ltac:(num) Nf Bt ltac:(num)) as Nv.
  pose proof (alpha_film us ud ub x y X Y) as Na.
  destruct (blend_sum_le o us ud ub x y s d f X Y S D Uf Lf) as [Fv [Fa [Lv La]]].
  set (v := @blend_sum f32 (F32 o) us ud x y s d f) in * . set (a := @blend_alpha f32 (F32 o) us ud ub x y) in * .
  set (A := coverage us ud ub (fval x) (fval y)) in * . set (M := mixture us ud ub (fval x) (fval y) (fval s) (fval d) t) in * . clearbody v a A M.
  rewrite (c01_id o v) by (split; [exact Fv|lra]). destruct Nv as [_ Ev]. destruct Na as [_ Ea]. destruct (fz_val o 0) as [F0 V0]; [sm|].
  unfold divided. destruct (Req_dec (fval a) 0) as [Z|Z].
  - rewrite (eq_val o a $0 Fa F0) by lra. assert (V : fval v = 0) by lra. split; [split; [exact Fv|change (0 <= fval v <= 1); lra]|].
    change (Rabs (A * fval v - M) <= / 524288). rewrite V. rewrite V in Ev. apply Rabs_le_inv in Ev. apply Rabs_le. num.
  - rewrite (ne_val o a $0 Fa F0) by lra. assert (Q : 0 <= fval v / fval a <= 1) by (apply div_bounds; lra).
    destruct (Bdiv_ok v a 0 1 Fv Fa Z) as [Fq Vq]; try sm; [exact Q|].
    assert (Bq : 0 <= fval (Bdiv mode_NE v a) <= 1) by (rewrite Vq; apply (rnd32_bounds _ 0 1); try sm; exact Q).
    split; [split; [exact Fq|exact Bq]|]. change (Rabs (A * fval (Bdiv mode_NE v a) - M) <= / 524288).
    assert (R : Rabs (fval (Bdiv mode_NE v a) - fval v / fval a) <= 101 / 100 * u).
    { rewrite Vq. apply Rle_trans with (1 := rnd_err _). rewrite Rabs_pos_eq by lra. num. }
    set (q := fval (Bdiv mode_NE v a)) in * . clearbody q.
    replace (A * q - M) with (- ((fval a - A) * q) + (q - fval v / fval a) * fval a + (fval v - M)) by (field; exact Z).
    assert (K1 : Rabs (- ((fval a - A) * q)) <= 121 / 10 * u).
    { rewrite Rabs_Ropp, Rabs_mult, (Rabs_pos_eq q) by lra. rewrite <- (Rmult_1_r (121 / 10 * u)). apply Rmult_le_compat; [apply Rabs_pos|lra|exact Ea|lra]. }
    assert (K2 : Rabs ((q - fval v / fval a) * fval a) <= 101 / 100 * u).
    { rewrite Rabs_mult, (Rabs_pos_eq (fval a)) by lra. rewrite <- (Rmult_1_r (101 / 100 * u)). apply Rmult_le_compat; [apply Rabs_pos|lra|exact R|lra]. }
    apply Rle_trans with (1 := Rabs_triang _ _). pose proof (Rabs_triang (- ((fval a - A) * q)) ((q - fval v / fval a) * fval a)) as T. num.
Qed.

(** The stored colour of a blend. *)
Definition filmed (us ud ub : bool) (T : nat -> R -> R -> R) (c1 c2 r : color f32) : Prop :=
  colour_of_type RGB_DEEP r /\ rgb_space r = rgb_space c1 /\
  approx (coverage us ud ub (B2R (m_alpha c1)) (B2R (m_alpha c2))) (/ 1048576) (m_alpha r) /\
  forall i s d, nth_error (comps c1) i = Some s -> nth_error (comps c2) i = Some d ->
    comp_sat r i (contributes (coverage us ud ub (B2R (m_alpha c1)) (B2R (m_alpha c2)))
      (mixture us ud ub (B2R (m_alpha c1)) (B2R (m_alpha c2)) (B2R s) (B2R d) (T i (B2R s) (B2R d))) (/ 524288)).

Lemma film_run (us ud ub : bool) f (T : nat -> R -> R -> R) et (h : heap f32) p1 c1 p2 c2 : at_addr h p1 c1 -> at_addr h p2 c2 ->
  @wf_color f32 (F32 o) RGB_DEEP c1 -> @wf_color f32 (F32 o) RGB_DEEP c2 -> in_interval 0 1 (m_alpha c1) -> in_interval 0 1 (m_alpha c2) -> rgb_space c1 = rgb_space c2 ->
  0 <= et <= 65 / 10 * u ->
  (forall i s d, unit32 s -> unit32 d -> unit32 (f c1 c2 i s d) /\ fval (f c1 c2 i s d) <= (if ub then 1 else 0) /\
     near (f c1 c2 i s d) (if ub then T i (fval s) (fval d) else 0) et /\ 0 <= T i (fval s) (fval d) <= 1) ->
  returns (@checked_blend f32 (F32 o) us ud ub f (Some p1) (Some p2)) h (filmed us ud ub T c1 c2).
Proof.
  intros H1 H2 W1 W2 A1 A2 SP He G.
  destruct (checked_deep_run (AF := F32 o) us ud ub f h p1 c1 p2 c2 H1 H2 W1 W2 SP) as [q [r [h' [E [Q B]]]]].
  exists q, r, h'. split; [exact E|]. split; [exact Q|].
  destruct (blend_f_range o us ud ub (f c1 c2) c1 c2 r (conj W1 A1) (conj W2 A2)) as [CT _]; [|exact B|].
  { intros i s d Us Ud. destruct (G i s d Us Ud) as [G1 [G2 _]]. split; assumption. }
  destruct (comps3 c1 (wf_len _ _ W1)) as [s0 [s1 [s2 E1]]]. destruct (comps3 c2 (wf_len _ _ W2)) as [d0 [d1 [d2 E2]]].
  pose proof (fun i x => unit_comp o c1 i x W1) as R1. pose proof (fun i x => unit_comp o c2 i x W2) as R2. rewrite E1 in R1. rewrite E2 in R2.
  pose proof (@blend_f_nf f32 (F32 o) us ud ub (f c1 c2) c1 c2 _ _ _ _ _ _ E1 E2) as NF. rewrite B in NF. apply Ok_inj in NF.
  assert (K1 : @alpha f32 (F32 o) c1 = m_alpha c1) by (unfold alpha; rewrite (wf_cls _ _ W1); reflexivity).
  assert (K2 : @alpha f32 (F32 o) c2 = m_alpha c2) by (unfold alpha; rewrite (wf_cls _ _ W2); reflexivity).
  rewrite K1, K2 in NF. set (x := m_alpha c1) in * . set (y := m_alpha c2) in * .
  assert (Cr : comps r = [divided o (@c01 f32 (F32 o) (@blend_sum f32 (F32 o) us ud x y s0 d0 (f c1 c2 0%nat s0 d0))) (@blend_alpha f32 (F32 o) us ud ub x y);
     divided o (@c01 f32 (F32 o) (@blend_sum f32 (F32 o) us ud x y s1 d1 (f c1 c2 1%nat s1 d1))) (@blend_alpha f32 (F32 o) us ud ub x y);
     divided o (@c01 f32 (F32 o) (@blend_sum f32 (F32 o) us ud x y s2 d2 (f c1 c2 2%nat s2 d2))) (@blend_alpha f32 (F32 o) us ud ub x y)] /\
     m_alpha r = @blend_alpha f32 (F32 o) us ud ub x y /\ rgb_space r = rgb_space c1).
  { rewrite NF. unfold alpha_divide. cbn [m_alpha]. unfold divided. destruct (@feq f32 (F32 o) (@blend_alpha f32 (F32 o) us ud ub x y) $0); repeat split; reflexivity. }
  destruct Cr as [Cr [Mr Sr]]. split; [exact CT|]. split; [exact Sr|]. fold x y. split.
  - rewrite Mr. destruct (alpha_film us ud ub x y A1 A2) as [Fa Ea]. split; [exact Fa|]. change (Rabs (fval (@blend_alpha f32 (F32 o) us ud ub x y) - coverage us ud ub (fval x) (fval y)) <= / 1048576). num.
  - assert (K : forall i s d, unit32 s -> unit32 d -> contributes (coverage us ud ub (fval x) (fval y)) (mixture us ud ub (fval x) (fval y) (fval s) (fval d) (T i (fval s) (fval d))) (/ 524288)
      (divided o (@c01 f32 (F32 o) (@blend_sum f32 (F32 o) us ud x y s d (f c1 c2 i s d))) (@blend_alpha f32 (F32 o) us ud ub x y))).
    { intros i s d Us Ud. destruct (G i s d Us Ud) as [G1 [G2 [G3 G4]]]. apply (film_channel us ud ub x y s d _ _ et); auto. }
    clear NF B E. intros i s d Hs Hd. rewrite E1 in Hs. rewrite E2 in Hd. pose proof (R1 i s Hs) as Us. pose proof (R2 i d Hd) as Ud. specialize (K i s d Us Ud).
    unfold comp_sat. rewrite Cr. destruct i as [|[|[|i]]]; cbn [nth_error] in * ; try (destruct i; discriminate); apply Some_inv in Hs; apply Some_inv in Hd; subst; (eexists; split; [reflexivity|exact K]).
Qed.

(** ** Operators *)
Lemma film_operator p (h : heap f32) p1 c1 p2 c2 : at_addr h p1 c1 -> at_addr h p2 c2 ->
  @wf_color f32 (F32 o) RGB_DEEP c1 -> @wf_color f32 (F32 o) RGB_DEEP c2 -> in_interval 0 1 (m_alpha c1) -> in_interval 0 1 (m_alpha c2) -> rgb_space c1 = rgb_space c2 ->
  forall a b fa fb, a = B2R (m_alpha c1) -> b = B2R (m_alpha c2) -> fractions p a b = (fa, fb) ->
  returns (@composite f32 (F32 o) p (Some p1) (Some p2)) h (fun r => colour_of_type RGB_DEEP r /\ rgb_space r = rgb_space c1 /\
    approx (fa * a + fb * b) (/ 1048576) (m_alpha r) /\
    forall i s d, nth_error (comps c1) i = Some s -> nth_error (comps c2) i = Some d ->
      comp_sat r i (contributes (fa * a + fb * b) (fa * a * B2R s + fb * b * B2R d) (/ 524288))).
Proof.
  intros H1 H2 W1 W2 A1 A2 SP a b fa fb Ea Eb EF. rewrite composite_checked.
  destruct (film_run (op_s p) (op_d p) (op_b p) (@op_f f32 (F32 o) p) (fun _ => op_t p) 0 h p1 c1 p2 c2 H1 H2 W1 W2 A1 A2 SP) as [q [r [h' [E [Q [C [S [Al K]]]]]]]]; [num| |].
  - intros i s d Us Ud. assert (N0 : near $0 0 0) by (apply near_fz; sm). destruct (fz_val o 0) as [F0 V0]; [sm|]. assert (U0 : unit32 $0) by (split; [exact F0|lra]).
    pose proof (near_self32 s Us). pose proof (near_self32 d Ud). pose proof (proj2 Us). pose proof (proj2 Ud).
    destruct p; cbn [op_f op_b op_t]; (split; [assumption|]); (split; [try lra|]); (split; [assumption|lra]).
  - exists q, r, h'. split; [exact E|]. split; [exact Q|]. split; [exact C|]. split; [exact S|].
    rewrite op_coverage, <- Ea, <- Eb, EF in Al. cbn [fst snd] in Al. split; [exact Al|]. intros i s d Hs Hd. specialize (K i s d Hs Hd).
    rewrite op_coverage, op_mixture, <- Ea, <- Eb, EF in K. cbn [fst snd] in K. exact K.
Qed.

(** ** Modes *)
Lemma near_half : near (@half f32 (F32 o)) (1 / 2) 0.
Proof. destruct (half_val) as [A B]. split; [exact A|]. change (Rabs (fval (@half f32 (F32 o)) - 1 / 2) <= 0). unfold half. cbn [lit F32]. rewrite B. rewrite Rminus_diag_eq by reflexivity. rewrite Rabs_R0. lra. Qed.
Lemma hard_close s d : unit32 s -> unit32 d -> near (@hard_light_func f32 (F32 o) s d) (hard_light (fval s) (fval d)) (65 / 10 * u).
Proof.
  intros Us Ud. pose proof (near_self32 s Us) as Ns. pose proof (near_self32 d Ud) as Nd. pose proof (proj2 Us) as Bs. pose proof (proj2 Ud) as Bd. pose proof near_half as Nh.
  assert (N2 : near $2 2 0) by (apply near_fz; sm).
  unfold hard_light_func, hard_light. cbn [fle F32]. rewrite Bleb_fin by (apply Us || apply Nh).
  assert (Vh : fval (@half f32 (F32 o)) = 1 / 2) by (destruct Nh as [_ E]; apply Rabs_le_inv in E; lra). rewrite Vh.
  destruct (Rle_bool_spec (fval s) (1 / 2)) as [L|L]; destruct (Rle_dec (fval s) (1 / 2)) as [M|M]; try lra.
  - replace (2 * fval s * fval d) with (fval d * 2 * fval s) by ring.
    assert (N1 : near (d *. $2) (fval d * 2) (21 / 10 * u)) by (eapply near_weaken; [apply (near_mul o d $2 (fval d) 2 0 0 1 2 2 Nd N2); try (apply Rabs_le; lra); num|num]).
    assert (0 <= fval d * 2 * fval s <= 2) by (split; [apply Rmult_le_pos; lra|]; apply Rle_trans with (2 * 1); [apply Rmult_le_compat; lra|lra]).
    eapply near_weaken; [apply (near_mul o (d *. $2) s (fval d * 2) (fval s) (21 / 10 * u) 0 2 1 2 N1 Ns); try (apply Rabs_le; lra); num|num].
  - replace (1 - 2 * (1 - fval s) * (1 - fval d)) with (1 - (1 - fval d) * (1 - 2 * (fval s - 1 / 2))) by field.
    assert (N1 : near (s -. @half f32 (F32 o)) (fval s - 1 / 2) (51 / 100 * u)) by (eapply near_weaken; [apply (near_sub o _ _ _ _ _ _ (1 / 2) Ns Nh); try (apply Rabs_le; lra); num|num]).
    assert (N3 : near ($2 *. (s -. @half f32 (F32 o))) (2 * (fval s - 1 / 2)) (205 / 100 * u)) by (eapply near_weaken; [apply (near_mul o _ _ _ _ _ _ 2 (1 / 2) 1 N2 N1); try (apply Rabs_le; lra); num|num]).
    pose proof (near_compl _ _ _ N3 ltac:(lra) ltac:(num)) as N4. pose proof (near_compl _ _ _ Nd Bd ltac:(num)) as N5.
    pose proof (near_prod _ _ _ _ _ _ N5 N4 ltac:(lra) ltac:(lra) ltac:(num) ltac:(num)) as N6.
    eapply near_weaken; [apply near_compl; [exact N6|apply unit_prod; lra|num]|num].
Qed.
Lemma dodge_close s d : unit32 s -> unit32 d -> near (@color_dodge_func f32 (F32 o) s d) (dodge (fval s) (fval d)) (65 / 10 * u).
Proof.
  intros Us Ud. pose proof (proj2 Us) as Bs. pose proof (proj2 Ud) as Bd. destruct (fz_val o 0) as [F0 V0]; [sm|]. destruct (fz_val o 1) as [F1 V1]; [sm|].
  unfold color_dodge_func, dodge. destruct (Req_EM_T (fval d) 0) as [D|D].
  - rewrite (eq_val o d $0) by (first [apply Ud|exact F0|lra]). eapply near_weaken; [apply near_fz; sm|num].
  - rewrite (ne_val o d $0) by (first [apply Ud|exact F0|lra]). destruct (Req_EM_T (fval s) 1) as [S|S].
    + rewrite (eq_val o s $1) by (first [apply Us|exact F1|lra]). eapply near_weaken; [apply near_fz; sm|num].
    + rewrite (ne_val o s $1) by (first [apply Us|exact F1|lra]).
      pose proof (rel_sub o $1 s F1 (proj1 Us) ltac:(rewrite V1; apply Rabs_le; lra) ltac:(apply Rabs_le; lra)) as RS. rewrite V1 in RS.
      assert (P : 0 < 1 - fval s) by lra.
      assert (FC : fval ($1 -. s) = rnd32 (1 - fval s)).
      { destruct (Bminus_ok $1 s 0 1 F1 (proj1 Us)) as [_ V]; try sm; [lra|]. rewrite V1 in V. exact V. }
      assert (PC : 1 / 2 * (1 - fval s) <= fval ($1 -. s)).
      { destruct RS as [_ [e [He Ee]]]. rewrite Ee. apply Rabs_le_inv in He. rewrite Rmult_comm. apply Rmult_le_compat_l; num. }
      destruct (Rle_dec (fval d) (1 - fval s)) as [L|L].
      * assert (Q : 0 <= fval d / (1 - fval s) <= 1) by (apply div_bounds; lra). rewrite Rmin_right by lra.
        destruct (near_div o d ($1 -. s) (fval d) (1 - fval s) 0 u (rel_self d (proj1 Ud)) RS ltac:(lra) ltac:(apply Rabs_le; lra) ltac:(num) ltac:(num)) as [N _].
        cbv zeta. cbn [fle F32]. rewrite Bleb_fin by (first [apply N|exact F1]). rewrite V1.
        destruct (Rle_bool_spec (fval (d /. ($1 -. s))) 1) as [M|M]; [eapply near_weaken; [exact N|num]|].
        destruct N as [_ N]. apply Rabs_le_inv in N. split; [exact F1|]. change (B2R $1) with (fval $1). rewrite V1. apply Rabs_le. num.
      * rewrite Rmin_left by (apply Rlt_le, (Rmult_lt_reg_r (1 - fval s)); [exact P|]; unfold Rdiv; rewrite Rmult_assoc, Rinv_l, Rmult_1_r, Rmult_1_l by lra; lra).
        assert (LD : fval ($1 -. s) <= fval d) by (rewrite FC, <- (rnd32_id d); apply rnd32_le; lra).
        assert (G : uu <= 1 - fval s).
        { destruct (Rlt_le_dec (fval s) (1 / 2)); [unfold uu; lra|]. destruct (grid (fval s) (rnd32_id s)) as [k [Ek Kk]]; [lra|]. rewrite Ek.
          assert (IZR k <= 16777215) by (apply IZR_le; lia). unfold uu. lra. }
        assert (PG : / 16777216 <= fval ($1 -. s)).
        { rewrite FC. replace (/ 16777216) with (rnd32 (IZR 1 * uu)) by (rewrite format_grid by lia; unfold uu; lra). apply rnd32_le. lra. }
        assert (Q : 1 <= fval d / fval ($1 -. s) <= 16777216) by (apply div_bounds; lra).
        assert (R : fin (d /. ($1 -. s)) /\ 1 <= fval (d /. ($1 -. s))).
        { destruct (Bdiv_ok d ($1 -. s) 1 16777216 (proj1 Ud) (proj1 RS)) as [F V]; try sm; [lra|exact Q|]. split; [exact F|]. change (1 <= fval (Bdiv mode_NE d ($1 -. s))). rewrite V. rewrite <- (rnd32_int 1) by sm. apply rnd32_le, Q. }
        cbv zeta. cbn [fle F32]. rewrite Bleb_fin by (first [apply R|exact F1]). rewrite V1.
        destruct (Rle_bool_spec (fval (d /. ($1 -. s))) 1) as [M|M]; [|eapply near_weaken; [apply near_fz; sm|num]].
        destruct R as [FR R]. split; [exact FR|]. change (Rabs (fval (d /. ($1 -. s)) - 1) <= 65 / 10 * u). apply Rabs_le. num.
Qed.

Lemma film_close m t c1 c2 i s d : film_function m = Some t -> unit32 s -> unit32 d ->
  near (@blend_function f32 (F32 o) m c1 c2 i s d) (t (fval s) (fval d)) (65 / 10 * u) /\ 0 <= t (fval s) (fval d) <= 1 /\ bounded m = true.
Proof.
  intros E Us Ud. pose proof (near_self32 s Us) as Ns. pose proof (near_self32 d Ud) as Nd. pose proof (proj2 Us) as Bs. pose proof (proj2 Ud) as Bd.
  destruct m; cbn in E; try discriminate E; apply Some_inv in E; subst t; cbn [blend_function bounded].
  - split; [eapply near_weaken; [exact Ns|num]|]. split; [lra|reflexivity].
  - split; [eapply near_weaken; [apply near_prod; eauto; num|num]|]. split; [apply unit_prod; lra|reflexivity].
  - split; [|split; [|reflexivity]].
    + replace (fval s + fval d - fval s * fval d) with (1 - (1 - fval d) * (1 - fval s)) by ring.
      pose proof (near_prod _ _ _ _ _ _ (near_compl _ _ _ Nd Bd ltac:(num)) (near_compl _ _ _ Ns Bs ltac:(num)) ltac:(lra) ltac:(lra) ltac:(num) ltac:(num)) as N.
      eapply near_weaken; [apply near_compl; [exact N|apply unit_prod; lra|num]|num].
    + pose proof (unit_prod (1 - fval s) (1 - fval d) ltac:(lra) ltac:(lra)). lra.
  - split; [apply hard_close; assumption|]. split; [apply hard_range; assumption|reflexivity].
  - split; [eapply near_weaken; [apply near_min; eassumption|num]|]. split; [unfold Rmin; destruct (Rle_dec _ _); lra|reflexivity].
  - split; [eapply near_weaken; [apply near_max; eassumption|num]|]. split; [unfold Rmax; destruct (Rle_dec _ _); lra|reflexivity].
  - split; [apply dodge_close; assumption|]. split; [|reflexivity]. unfold dodge. destruct (Req_EM_T _ _); [lra|]. destruct (Req_EM_T _ _); [lra|]. split; [|apply Rmin_l].
    apply Rmin_glb; [lra|]. apply Rmult_le_pos; [lra|left; apply Rinv_0_lt_compat; lra].
  - split; [apply hard_close; assumption|]. split; [apply hard_range; assumption|reflexivity].
  - split; [|split; [|reflexivity]].
    + pose proof near_half as Nh. assert (N2 : near $2 2 0) by (apply near_fz; sm). unfold pin_light_func. cbn [fle F32]. rewrite Bleb_fin by (apply Us || apply Nh).
      assert (Vh : fval (@half f32 (F32 o)) = 1 / 2) by (destruct Nh as [_ E]; apply Rabs_le_inv in E; lra). rewrite Vh.
      destruct (Rle_bool_spec (fval s) (1 / 2)) as [L|L]; destruct (Rle_dec (fval s) (1 / 2)) as [M|M]; try lra.
      * apply near_min; [eapply near_weaken; [exact Nd|num]|]. eapply near_weaken; [apply (near_mul o $2 s 2 (fval s) 0 0 2 1 2 N2 Ns); try (apply Rabs_le; lra); num|num].
      * apply near_max; [eapply near_weaken; [exact Nd|num]|]. replace (2 * fval s - 1) with (2 * (fval s - 1 / 2)) by field.
        assert (N1 : near (s -. @half f32 (F32 o)) (fval s - 1 / 2) (51 / 100 * u)) by (eapply near_weaken; [apply (near_sub o _ _ _ _ _ _ (1 / 2) Ns Nh); try (apply Rabs_le; lra); num|num]).
        eapply near_weaken; [apply (near_mul o _ _ _ _ _ _ 2 (1 / 2) 1 N2 N1); try (apply Rabs_le; lra); num|num].
    + destruct (Rle_dec _ _); unfold Rmin, Rmax; destruct (Rle_dec _ _); lra.
  - split; [|split; [|reflexivity]].
    + replace (Rabs (fval s - fval d)) with (Rabs (fval d - fval s)) by apply Rabs_minus_sym. apply near_abs.
      eapply near_weaken; [apply (near_sub o _ _ _ _ _ _ 1 Nd Ns); try (apply Rabs_le; lra); num|num].
    + split; [apply Rabs_pos|apply Rabs_le; lra].
Qed.

Lemma film_blend m t us ud (h : heap f32) p1 c1 p2 c2 : film_function m = Some t -> at_addr h p1 c1 -> at_addr h p2 c2 ->
  @wf_color f32 (F32 o) RGB_DEEP c1 -> @wf_color f32 (F32 o) RGB_DEEP c2 -> in_interval 0 1 (m_alpha c1) -> in_interval 0 1 (m_alpha c2) -> rgb_space c1 = rgb_space c2 ->
  forall a b, a = B2R (m_alpha c1) -> b = B2R (m_alpha c2) ->
  returns (@blend f32 (F32 o) m (Some p1) (Some p2) us ud) h (fun r => colour_of_type RGB_DEEP r /\ rgb_space r = rgb_space c1 /\
    approx (coverage us ud true a b) (/ 1048576) (m_alpha r) /\
    forall i s d, nth_error (comps c1) i = Some s -> nth_error (comps c2) i = Some d ->
      comp_sat r i (contributes (coverage us ud true a b) (mixture us ud true a b (B2R s) (B2R d) (t (B2R s) (B2R d))) (/ 524288))).
Proof.
  intros E H1 H2 W1 W2 A1 A2 SP a b -> ->. rewrite blend_checked.
  apply (film_run us ud true (@blend_function f32 (F32 o) m) (fun _ => t) (65 / 10 * u)); auto; [num|].
  intros i s d Us Ud. destruct (film_close m t c1 c2 i s d E Us Ud) as [N [B K]]. pose proof (bounded_maps32 o m c1 c2 i s d K Us Ud) as U.
  split; [exact U|]. split; [apply U|]. split; assumption.
Qed.
End Film.

Lemma contributes_quotient area amount e x : 0 < area -> contributes area amount e x -> Rabs (B2R x - amount / area) <= e / area.
Proof.
  intros P [_ H]. replace (B2R x - amount / area) with ((area * B2R x - amount) * / area) by (field; lra). rewrite Rabs_mult, (Rabs_pos_eq (/ area)) by (left; apply Rinv_0_lt_compat, P).
  apply Rmult_le_compat_r; [left; apply Rinv_0_lt_compat, P|exact H].
Qed.
