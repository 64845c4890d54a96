(** * Porter-Duff operators and blend modes in binary32 (C59, C61, C63, C66, C67) *)
From Coq Require Import ZArith QArith Reals Lra Lia List Bool.
From Flocq Require Import Core IEEE754.BinarySingleNaN.
From Verif Require Import Arith Outcome ColorModel GammaModel MatrixModel SpaceModel Heap Converter Calculation Blend
  Spec F32 F32Facts Spec32 Laws NormalForms Core_Proofs Core2_Proofs Core3_Proofs Core4_Proofs Convert_Proofs Alpha8 Spec_Matrix Spec_Conv Spec_Calc Spec_Blend
  Conv_Proofs Conv2_Proofs Conv3_Proofs Calc_Proofs Calc2_Proofs Blend_Proofs Blend32_Proofs.
Import ListNotations.
Local Open Scope R_scope.

Definition unit32 (x : f32) : Prop := is_finite x = true /\ 0 <= fval x <= 1.

Section F.
Variable o : oracle.
Local Notation fz := (@fz f32 (F32 o)).

Lemma one32 : is_finite (fz 1) = true /\ fval (fz 1) = 1.
Proof. apply fz_val. sm. Qed.
Lemma zero32 : is_finite (fz 0) = true /\ fval (fz 0) = 0.
Proof. apply fz_val. sm. Qed.

Lemma mul_unit a b : unit32 a -> unit32 b -> unit32 (Bmult mode_NE a b) /\ fval (Bmult mode_NE a b) = rnd32 (fval a * fval b).
Proof.
  intros [Fa Ra] [Fb Rb].
  assert (P : 0 <= fval a * fval b <= 1).
  { split; [apply Rmult_le_pos; lra|]. rewrite <- (Rmult_1_r 1). apply Rmult_le_compat; lra. }
  destruct (Bmult_ok a b 0 1 Fa Fb) as [A B]; try sm; [exact P|]. split; [|exact B]. split; [exact A|]. rewrite B. apply rnd_unit, P.
Qed.
Lemma compl_unit a : unit32 a -> unit32 (Bminus mode_NE (fz 1) a) /\ fval (Bminus mode_NE (fz 1) a) = rnd32 (1 - fval a).
Proof.
  intros [Fa Ra]. destruct one32 as [F1 V1]. destruct (Bminus_ok (fz 1) a 0 1 F1 Fa) as [A B]; try sm; [rewrite V1; simpl; lra|].
  rewrite V1 in B. split; [|exact B]. split; [exact A|]. rewrite B. apply rnd_unit. lra.
Qed.
Lemma if_unit (u : bool) s : unit32 s -> unit32 (if u then s else fz 0).
Proof. intros S. destruct u; [exact S|]. destruct zero32 as [F0 V0]. split; [exact F0|]. rewrite V0. lra. Qed.

(** The sum of three products. *)
Definition sum3 (p q r : R) : R := rnd32 (rnd32 (p + q) + r).
Lemma sum3_le p q r p' q' r' : p <= p' -> q <= q' -> r <= r' -> sum3 p q r <= sum3 p' q' r'.
Proof. intros. unfold sum3. apply rnd32_le. assert (rnd32 (p + q) <= rnd32 (p' + q')) by (apply rnd32_le; lra). lra. Qed.
Lemma sum3_pos p q r : 0 <= p -> 0 <= q -> 0 <= r -> 0 <= sum3 p q r.
Proof. intros. unfold sum3. apply rnd_pos. assert (0 <= rnd32 (p + q)) by (apply rnd_pos; lra). lra. Qed.
Lemma sum3_ok p q r : unit32 p -> unit32 q -> unit32 r ->
  is_finite (Bplus mode_NE (Bplus mode_NE p q) r) = true /\ fval (Bplus mode_NE (Bplus mode_NE p q) r) = sum3 (fval p) (fval q) (fval r).
Proof.
  intros [Fp Rp] [Fq Rq] [Fr Rr]. destruct (Bplus_ok p q 0 2 Fp Fq) as [A B]; try sm; [lra|].
  assert (C : 0 <= fval (Bplus mode_NE p q) <= 2) by (rewrite B; apply (rnd32_bounds _ 0 2); try sm; lra).
  destruct (Bplus_ok (Bplus mode_NE p q) r 0 3 A Fr) as [D E]; try sm; [lra|]. split; [exact D|]. rewrite E, B. reflexivity.
Qed.

Lemma blend_sum32 us ud x y s d b : unit32 x -> unit32 y -> unit32 s -> unit32 d -> unit32 b ->
  is_finite (@blend_sum f32 (F32 o) us ud x y s d b) = true /\
  fval (@blend_sum f32 (F32 o) us ud x y s d b) =
    sum3 (rnd32 (rnd32 (fval x * rnd32 (1 - fval y)) * fval (if us then s else fz 0)))
         (rnd32 (rnd32 (fval y * rnd32 (1 - fval x)) * fval (if ud then d else fz 0)))
         (rnd32 (rnd32 (fval x * fval y) * fval b)).
Proof.
  intros X Y S D B. unfold blend_sum. cbn [fadd fmul fsub F32].
  destruct (compl_unit y Y) as [Y1 Y2]. destruct (compl_unit x X) as [X1 X2].
  destruct (mul_unit x _ X Y1) as [P1 P2]. destruct (mul_unit y _ Y X1) as [Q1 Q2]. destruct (mul_unit x y X Y) as [R1 R2].
  destruct (mul_unit _ _ P1 (if_unit us s S)) as [P3 P4]. destruct (mul_unit _ _ Q1 (if_unit ud d D)) as [Q3 Q4]. destruct (mul_unit _ _ R1 B) as [R3 R4].
  destruct (sum3_ok _ _ _ P3 Q3 R3) as [A1 A2]. split; [exact A1|]. rewrite A2, P4, Q4, R4, P2, Q2, R2, X2, Y2. reflexivity.
Qed.

Lemma rnd_mul_le (p a b : R) : 0 <= p -> a <= b -> rnd32 (p * a) <= rnd32 (p * b).
Proof. intros. apply rnd32_le, Rmult_le_compat_l; assumption. Qed.

(** Alpha is at most one, and no component exceeds alpha. *)
Lemma blend_sum_le us ud (ub : bool) x y s d b : unit32 x -> unit32 y -> unit32 s -> unit32 d -> unit32 b ->
  fval b <= (if ub then 1 else 0) ->
  let v := @blend_sum f32 (F32 o) us ud x y s d b in let a := @blend_alpha f32 (F32 o) us ud ub x y in
  is_finite v = true /\ is_finite a = true /\ 0 <= fval v <= fval a /\ fval a <= 1.
Proof.
  intros X Y S D B L v a. destruct one32 as [F1 V1]. destruct zero32 as [F0 V0].
  assert (U1 : unit32 (fz 1)) by (split; [exact F1|lra]).
  assert (Um : unit32 (if ub then fz 1 else fz 0)) by (apply if_unit, U1).
  destruct (blend_sum32 us ud x y s d b X Y S D B) as [Fv Ev].
  destruct (blend_sum32 us ud x y (fz 1) (fz 1) (if ub then fz 1 else fz 0) X Y U1 U1 Um) as [Fa Ea].
  assert (Px : 0 <= rnd32 (fval x * rnd32 (1 - fval y))).
  { apply rnd_pos, Rmult_le_pos; [apply X|]. apply rnd_pos. destruct Y. lra. }
  assert (Py : 0 <= rnd32 (fval y * rnd32 (1 - fval x))).
  { apply rnd_pos, Rmult_le_pos; [apply Y|]. apply rnd_pos. destruct X. lra. }
  assert (Pb : 0 <= rnd32 (fval x * fval y)) by (apply rnd_pos, Rmult_le_pos; [apply X|apply Y]).
  assert (Ls : 0 <= fval (if us then s else fz 0) <= fval (if us then fz 1 else fz 0) /\ fval (if us then fz 1 else fz 0) <= 1).
  { destruct S as [_ S]. destruct us; rewrite ?V1, ?V0; lra. }
  assert (Ld : 0 <= fval (if ud then d else fz 0) <= fval (if ud then fz 1 else fz 0) /\ fval (if ud then fz 1 else fz 0) <= 1).
  { destruct D as [_ D]. destruct ud; rewrite ?V1, ?V0; lra. }
  assert (Lb : 0 <= fval b <= fval (if ub then fz 1 else fz 0) /\ fval (if ub then fz 1 else fz 0) <= 1).
  { destruct B as [_ B]. destruct ub; rewrite ?V1, ?V0; lra. }
  split; [exact Fv|]. split; [exact Fa|]. unfold v, a, blend_alpha. rewrite Ea, Ev. split; [split|].
  - apply sum3_pos; apply rnd_pos, Rmult_le_pos; tauto.
  - apply sum3_le; apply rnd_mul_le; tauto.
  - apply Rle_trans with (union_alpha (fval x) (fval y)).
    + unfold union_alpha. apply sum3_le.
      * apply Rle_trans with (rnd32 (rnd32 (fval x * rnd32 (1 - fval y)) * 1)); [apply rnd_mul_le; tauto|]. rewrite Rmult_1_r, format_idem. lra.
      * apply Rle_trans with (rnd32 (rnd32 (fval y * rnd32 (1 - fval x)) * 1)); [apply rnd_mul_le; tauto|]. rewrite Rmult_1_r, format_idem. lra.
      * apply Rle_trans with (rnd32 (rnd32 (fval x * fval y) * 1)); [apply rnd_mul_le; tauto|]. rewrite Rmult_1_r, format_idem. lra.
    + apply union_le; try apply rnd32_id; [apply X|apply Y].
Qed.

Lemma c01_id x : unit32 x -> @c01 f32 (F32 o) x = x.
Proof. intros [A B]. unfold c01. apply (clamp_id (AF := F32 o)); try sm. apply within32; try sm. auto. Qed.

Lemma divide_unit v a : is_finite v = true -> is_finite a = true -> 0 <= fval v <= fval a -> fval a <> 0 -> unit32 (Bdiv mode_NE v a).
Proof.
  intros Fv Fa R N. assert (P : 0 <= fval v / fval a <= 1).
  { unfold Rdiv. assert (0 < / fval a) by (apply Rinv_0_lt_compat; lra). split; [apply Rmult_le_pos; lra|].
    apply Rmult_le_reg_l with (fval a); [lra|]. replace (fval a * (fval v * / fval a)) with (fval v) by (field; lra). lra. }
  destruct (Bdiv_ok v a 0 1 Fv Fa N) as [A B]; try sm; [exact P|]. split; [exact A|]. rewrite B. apply rnd_unit, P.
Qed.

Definition deep32 (c : color f32) : Prop := @wf_color f32 (F32 o) RGB_DEEP c /\ in_interval 0 1 (m_alpha c).

Lemma unit_comp (c : color f32) i x : @wf_color f32 (F32 o) RGB_DEEP c -> nth_error (comps c) i = Some x -> unit32 x.
Proof.
  intros W E. assert (H : @within f32 (F32 o) 0 1 x) by exact (wf_range _ _ W i x E). apply within32 in H; [exact H|sm|sm].
Qed.

(** The result of blending deep colours with a function into [0, 1]. *)
Lemma blend_f_range us ud (ub : bool) f (c1 c2 r : color f32) : deep32 c1 -> deep32 c2 ->
  (forall i s d, unit32 s -> unit32 d -> unit32 (f i s d) /\ fval (f i s d) <= (if ub then 1 else 0)) ->
  @blend_f f32 (F32 o) us ud ub f c1 c2 = Ok r -> colour_of_type RGB_DEEP r /\ in_interval 0 1 (m_alpha r).
Proof.
  intros [W1 A1] [W2 A2] Hf E.
  destruct (comps3 _ c1 W1 eq_refl) as [s0 [s1 [s2 E1]]]. destruct (comps3 _ c2 W2 eq_refl) as [d0 [d1 [d2 E2]]].
  pose proof (fun i x => unit_comp c1 i x W1) as R1. pose proof (fun i x => unit_comp c2 i x W2) as R2.
  rewrite E1 in R1. rewrite E2 in R2.
  rewrite (blend_f_nf us ud ub f c1 c2 _ _ _ _ _ _ E1 E2) in E.
  assert (K1 : unit32 (@alpha f32 (F32 o) c1)) by (unfold alpha; rewrite (wf_cls _ _ W1); exact A1).
  assert (K2 : unit32 (@alpha f32 (F32 o) c2)) by (unfold alpha; rewrite (wf_cls _ _ W2); exact A2).
  set (x := @alpha f32 (F32 o) c1) in *. set (y := @alpha f32 (F32 o) c2) in *.
  assert (C : forall i s d, unit32 s -> unit32 d -> let v := @blend_sum f32 (F32 o) us ud x y s d (f i s d) in
    is_finite v = true /\ is_finite (@blend_alpha f32 (F32 o) us ud ub x y) = true /\
    0 <= fval v <= fval (@blend_alpha f32 (F32 o) us ud ub x y) /\ fval (@blend_alpha f32 (F32 o) us ud ub x y) <= 1).
  { intros i s d Us Ud. destruct (Hf i s d Us Ud) as [Uf Lf]. apply (blend_sum_le us ud ub x y s d (f i s d) K1 K2 Us Ud Uf Lf). }
  pose proof (C 0%nat s0 d0 (R1 0%nat _ eq_refl) (R2 0%nat _ eq_refl)) as C0.
  pose proof (C 1%nat s1 d1 (R1 1%nat _ eq_refl) (R2 1%nat _ eq_refl)) as C1.
  pose proof (C 2%nat s2 d2 (R1 2%nat _ eq_refl) (R2 2%nat _ eq_refl)) as C2.
  cbv zeta in C0, C1, C2. clear C.
  set (v0 := @blend_sum f32 (F32 o) us ud x y s0 d0 (f 0%nat s0 d0)) in *.
  set (v1 := @blend_sum f32 (F32 o) us ud x y s1 d1 (f 1%nat s1 d1)) in *.
  set (v2 := @blend_sum f32 (F32 o) us ud x y s2 d2 (f 2%nat s2 d2)) in *.
  set (a := @blend_alpha f32 (F32 o) us ud ub x y) in *.
  destruct C0 as [F0 [Fa [L0 La]]]. destruct C1 as [F1 [_ [L1 _]]]. destruct C2 as [F2 [_ [L2 _]]].
  rewrite !c01_id in E by (split; [assumption|lra]).
  clearbody v0 v1 v2 a x y. clear Hf E1 E2 R1 R2 K1 K2.
  destruct zero32 as [Fz Vz].
  assert (R : forall l, (forall z, In z l -> unit32 z) -> length l = 3%nat -> forall c, c = Color RGB_DEEP RGB_DEEP l a (fz 1) (fz 0) (rgb_space c1) ->
    colour_of_type RGB_DEEP c /\ in_interval 0 1 (m_alpha c)).
  { intros l Hl Ll c ->. split; [|split; [exact Fa|change (0 <= fval a <= 1); lra]].
    split; [simpl; tauto|]. split; [reflexivity|]. split; [reflexivity|]. split; [exact Ll|].
    intros i z Hz. cbn [comps] in Hz. apply nth_error_In in Hz. apply Hl in Hz. exact Hz. }
  unfold alpha_divide in E. cbn [m_alpha] in E. cbn [feq F32] in E. rewrite Beqb_fin in E by assumption. rewrite Vz in E.
  destruct (Req_bool_spec (fval a) 0) as [Z|Z].
  - injection E as E. apply (R [v0; v1; v2]); [|reflexivity|symmetry; exact E].
    intros z [<-|[<-|[<-|[]]]]; (split; [assumption|lra]).
  - cbn [map comps with_comps] in E. cbn [fdiv F32] in E. injection E as E.
    apply (R [Bdiv mode_NE v0 a; Bdiv mode_NE v1 a; Bdiv mode_NE v2 a]); [|reflexivity|symmetry; exact E].
    intros z [<-|[<-|[<-|[]]]]; apply divide_unit; assumption.
Qed.

Lemma checked_range us ud (ub : bool) f (h : heap f32) p1 c1 p2 c2 : at_addr h p1 c1 -> at_addr h p2 c2 -> deep32 c1 -> deep32 c2 ->
  rgb_space c1 = rgb_space c2 ->
  (forall i s d, unit32 s -> unit32 d -> unit32 (f c1 c2 i s d) /\ fval (f c1 c2 i s d) <= (if ub then 1 else 0)) ->
  returns (@checked_blend f32 (F32 o) us ud ub f (Some p1) (Some p2)) h (fun r => colour_of_type RGB_DEEP r /\ in_interval 0 1 (m_alpha r)).
Proof.
  intros H1 H2 D1 D2 SP Hf.
  destruct (checked_deep_run (AF := F32 o) us ud ub f h p1 c1 p2 c2 H1 H2 (proj1 D1) (proj1 D2) SP) as [q [r [h' [E [Q B]]]]].
  exists q, r, h'. split; [exact E|]. split; [exact Q|]. apply (blend_f_range us ud ub _ c1 c2 r D1 D2 Hf B).
Qed.

(** ** C61 *)
Lemma pd_range p (h : heap f32) p1 c1 p2 c2 : at_addr h p1 c1 -> at_addr h p2 c2 ->
  @wf_color f32 (F32 o) RGB_DEEP c1 -> @wf_color f32 (F32 o) RGB_DEEP c2 -> in_interval 0 1 (m_alpha c1) -> in_interval 0 1 (m_alpha c2) ->
  rgb_space c1 = rgb_space c2 ->
  returns (@composite f32 (F32 o) p (Some p1) (Some p2)) h (fun r => colour_of_type RGB_DEEP r /\ in_interval 0 1 (m_alpha r)).
Proof.
  intros H1 H2 W1 W2 A1 A2 SP. rewrite composite_checked. apply (checked_range _ _ _ _ h p1 c1 p2 c2); auto; try (split; assumption).
  intros i s d S D. destruct zero32 as [F0 V0].
  assert (U0 : unit32 (fz 0)) by (split; [exact F0|lra]).
  destruct p; cbn [op_f op_b]; (split; [assumption|]); rewrite ?V0; try lra; first [apply S|apply D].
Qed.

(** ** Blend functions that stay in [0, 1] in binary32 *)
Lemma sub_unit a b : unit32 a -> unit32 b -> fval b <= fval a -> unit32 (Bminus mode_NE a b).
Proof.
  intros [Fa Ra] [Fb Rb] L. destruct (Bminus_ok a b 0 1 Fa Fb) as [A B]; try sm; [lra|]. split; [exact A|]. rewrite B. apply rnd_unit. lra.
Qed.
Lemma half32 : unit32 (@half f32 (F32 o)) /\ fval (@half f32 (F32 o)) = 1 / 2.
Proof. destruct half_val as [A B]. split; [|exact B]. split; [exact A|]. change (0 <= fval (lit32 (1 # 2)) <= 1). rewrite B. lra. Qed.
Lemma rnd_half_le z : 0 <= z <= 1 / 2 -> 0 <= rnd32 z <= 1 / 2.
Proof.
  intros H. split; [apply rnd_pos, H|]. replace (1 / 2) with (rnd32 (IZR 8388608 * uu)) by (rewrite format_grid by lia; unfold uu; lra).
  apply rnd32_le. unfold uu. lra.
Qed.
(** twice a number of [0, 1/2] *)
Lemma double_unit b : is_finite b = true -> 0 <= fval b <= 1 / 2 -> unit32 (Bmult mode_NE (fz 2) b).
Proof.
  intros Fb R. destruct (fz_val o 2) as [F2 V2]; [sm|]. destruct (Bmult_ok (fz 2) b 0 1 F2 Fb) as [A B]; try sm; [rewrite V2; simpl; lra|].
  split; [exact A|]. rewrite B, V2. apply rnd_unit. lra.
Qed.
Lemma minus_half s : unit32 s -> 1 / 2 <= fval s -> is_finite (Bminus mode_NE s (@half f32 (F32 o))) = true /\ 0 <= fval (Bminus mode_NE s (@half f32 (F32 o))) <= 1 / 2.
Proof.
  intros [Fs Rs] L. destruct half32 as [[Fh _] Vh]. destruct (Bminus_ok s _ 0 1 Fs Fh) as [A B]; try sm; [rewrite Vh; lra|].
  split; [exact A|]. rewrite B, Vh. apply rnd_half_le. lra.
Qed.
Lemma hard_light_unit s d : unit32 s -> unit32 d -> unit32 (@hard_light_func f32 (F32 o) s d).
Proof.
  intros S D. unfold hard_light_func. destruct half32 as [[Fh _] Vh]. destruct (fz_val o 2) as [F2 V2]; [sm|].
  cbn [fle fmul fsub F32]. rewrite Bleb_fin by (try apply S; exact Fh). rewrite Vh.
  destruct (Rle_bool_spec (fval s) (1 / 2)) as [L|L].
  - destruct (Bmult_ok d (fz 2) 0 2 (proj1 D) F2) as [A B]; try sm; [rewrite V2; destruct D; lra|].
    assert (R : 0 <= fval (Bmult mode_NE d (fz 2)) <= 2) by (rewrite B, V2; apply (rnd32_bounds _ 0 2); try sm; destruct D; lra).
    assert (P : 0 <= fval (Bmult mode_NE d (fz 2)) * fval s <= 1).
    { split; [apply Rmult_le_pos; [lra|apply S]|]. apply Rle_trans with (2 * (1 / 2)); [|lra]. apply Rmult_le_compat; try lra. apply S. }
    destruct (Bmult_ok (Bmult mode_NE d (fz 2)) s 0 1 A (proj1 S)) as [A' B']; try sm; [exact P|]. split; [exact A'|]. rewrite B'. apply rnd_unit, P.
  - destruct (minus_half s S ltac:(lra)) as [A R]. pose proof (double_unit _ A R) as U.
    destruct (compl_unit _ U) as [U1 _]. destruct (compl_unit _ D) as [D1 _]. destruct (mul_unit _ _ D1 U1) as [M _]. apply (proj1 (compl_unit _ M)).
Qed.
Lemma min_unit a b : unit32 a -> unit32 b -> unit32 (fmin32 a b).
Proof. intros A B. destruct (fmin32_fin a b (proj1 A) (proj1 B)) as [F V]. split; [exact F|]. rewrite V. destruct A, B. unfold Rmin. destruct (Rle_dec (fval a) (fval b)); lra. Qed.
Lemma max_unit a b : unit32 a -> unit32 b -> unit32 (fmax32 a b).
Proof. intros A B. destruct (fmax32_fin a b (proj1 A) (proj1 B)) as [F V]. split; [exact F|]. rewrite V. destruct A, B. unfold Rmax. destruct (Rle_dec (fval a) (fval b)); lra. Qed.

(** a quotient that is not greater than one *)
Lemma quot_unit a b : unit32 a -> unit32 b -> fval b <> 0 -> Bleb (Bdiv mode_NE a b) (fz 1) = true -> unit32 (Bdiv mode_NE a b).
Proof.
  intros [Fa Ra] [Fb Rb] N L. destruct one32 as [F1 V1].
  destruct (Rle_lt_dec (fval a) (fval b)) as [C|C]; [apply divide_unit; auto; lra|].
  pose proof (Bdiv_correct 24 128 _ _ mode_NE a b N) as H. cbv zeta in H.
  destruct (Rlt_bool_spec (Rabs (round radix2 (SpecFloat.fexp 24 128) (round_mode mode_NE) (fval a / fval b))) (bpow radix2 128)) as [K|K].
  - destruct H as [H1 [H2 _]]. rewrite Fa in H2. split; [exact H2|]. rewrite Bleb_fin in L by assumption. rewrite V1 in L.
    destruct (Rle_bool_spec (fval (Bdiv mode_NE a b)) 1) as [L'|L']; [|discriminate L]. split; [|exact L'].
    rewrite H1. change (0 <= rnd32 (fval a / fval b)). apply rnd_pos. apply Rmult_le_pos; [lra|]. left. apply Rinv_0_lt_compat. lra.
  - exfalso. assert (SG : forall x : f32, is_finite x = true -> 0 < fval x -> Bsign x = false).
    { intros x Fx Px. clear - Fx Px. destruct x as [sg|sg| |sg m e Hx]; try discriminate Fx; [simpl in Px; lra|]. destruct sg; [|reflexivity]. exfalso.
      assert (K : F2R (Float radix2 (Zneg m) e) < 0) by (apply F2R_lt_0; reflexivity). change (0 < F2R (Float radix2 (Zneg m) e)) in Px. lra. }
    rewrite (SG a Fa ltac:(lra)), (SG b Fb ltac:(lra)) in H.
    destruct (Bdiv mode_NE a b) as [sg|sg| |sg m e Hx]; simpl in H; try discriminate H. injection H as ->.
    clear - L. destruct (fz_val o 1) as [F V]; [sm|]. destruct (fz 1) as [sg|sg| |sg m e Hx]; try discriminate F; destruct sg; discriminate L.
Qed.

Lemma abs_unit a b : unit32 a -> unit32 b -> unit32 (Babs (Bminus mode_NE a b)).
Proof.
  intros [Fa Ra] [Fb Rb]. destruct (Bminus_ok a b (-1) 1 Fa Fb) as [A B]; try sm; [lra|].
  split; [rewrite is_finite_Babs; exact A|]. rewrite B2R_Babs. change (B2R (Bminus mode_NE a b)) with (fval (Bminus mode_NE a b)). rewrite B.
  pose proof (rnd32_bounds (fval a - fval b) (-1) 1 ltac:(sm) ltac:(sm) ltac:(lra)) as K. split; [apply Rabs_pos|]. apply Rabs_le. lra.
Qed.

Lemma bounded_maps32 (m : mode f32) c1 c2 i s d : bounded m = true -> unit32 s -> unit32 d -> unit32 (@blend_function f32 (F32 o) m c1 c2 i s d).
Proof.
  intros E S D. destruct one32 as [F1 V1]. destruct zero32 as [F0 V0]. destruct half32 as [[Fh _] Vh].
  assert (U1 : unit32 (fz 1)) by (split; [exact F1|lra]). assert (U0 : unit32 (fz 0)) by (split; [exact F0|lra]).
  destruct m; cbn [bounded] in E; try discriminate E; cbn [blend_function].
  - exact S.
  - unfold dissolve_func. cbv zeta. destruct (flt _ _), (fle _ _); assumption.
  - apply (proj1 (mul_unit s d S D)).
  - unfold screen_func. cbn [fsub fmul F32]. apply compl_unit, mul_unit; apply compl_unit; assumption.
  - apply hard_light_unit; assumption.
  - apply min_unit; assumption.
  - apply max_unit; assumption.
  - unfold color_dodge_func. cbn [feq fle fdiv fsub F32]. cbv zeta. rewrite !Beqb_fin by (try apply S; try apply D; assumption). rewrite V0, V1.
    destruct (Req_bool_spec (fval d) 0); [exact U0|]. destruct (Req_bool_spec (fval s) 1); [exact U1|].
    destruct (Bleb (Bdiv mode_NE d (Bminus mode_NE (fz 1) s)) (fz 1)) eqn:L; [|exact U1].
    destruct (compl_unit s S) as [C1 C2]. apply quot_unit; auto. rewrite C2. intros K.
    destruct S as [_ S]. assert (uu / 2 <= 1 - fval s).
    { destruct (Rlt_le_dec (fval s) (1 / 2)); [unfold uu; lra|].
      destruct (grid (fval s) (rnd32_id s)) as [k [Ek Kk]]; [lra|]. rewrite Ek. assert (IZR k <= 16777215) by (apply IZR_le; lia). unfold uu. lra. }
    assert (rnd32 (uu / 2) <= rnd32 (1 - fval s)) by (apply rnd32_le; assumption).
    replace (uu / 2) with (bpow radix2 (-25)) in H2 by (unfold uu; simpl; lra).
    unfold rnd32 in H2 at 1. rewrite round_generic in H2; [|apply valid_rnd_N|apply generic_format_bpow; unfold SpecFloat.fexp, SpecFloat.emin; simpl; lia].
    rewrite K in H2. simpl in H2. lra.
  - unfold color_burn_func. cbn [feq fle fdiv fsub F32]. cbv zeta. rewrite !Beqb_fin by (try apply S; try apply D; assumption). rewrite V0, V1.
    destruct (Req_bool_spec (fval d) 1); [exact U0|]. destruct (Req_bool_spec (fval s) 0); [exact U1|].
    destruct (Bleb (Bdiv mode_NE (Bminus mode_NE (fz 1) d) s) (fz 1)) eqn:L; [|exact U1].
    apply quot_unit; auto. apply compl_unit, D.
  - apply hard_light_unit; assumption.
  - unfold pin_light_func. cbn [fle fmin fmax fmul fsub F32]. rewrite Bleb_fin by (try apply S; exact Fh). rewrite Vh.
    destruct (Rle_bool_spec (fval s) (1 / 2)) as [L|L].
    + apply min_unit; [exact D|]. apply double_unit; [apply S|]. destruct S. lra.
    + apply max_unit; [exact D|]. destruct (minus_half s S ltac:(lra)) as [A R]. apply double_unit; assumption.
  - unfold hard_mix_func. destruct (flt _ _); assumption.
  - apply abs_unit; assumption.
Qed.

Lemma blend_range m us ud (h : heap f32) p1 c1 p2 c2 : at_addr h p1 c1 -> at_addr h p2 c2 ->
  @wf_color f32 (F32 o) RGB_DEEP c1 -> @wf_color f32 (F32 o) RGB_DEEP c2 -> in_interval 0 1 (m_alpha c1) -> in_interval 0 1 (m_alpha c2) ->
  rgb_space c1 = rgb_space c2 -> bounded m = true ->
  returns (@blend f32 (F32 o) m (Some p1) (Some p2) us ud) h (fun r => colour_of_type RGB_DEEP r /\ in_interval 0 1 (m_alpha r)).
Proof.
  intros H1 H2 W1 W2 A1 A2 SP Bm. rewrite blend_checked. apply (checked_range _ _ _ _ h p1 c1 p2 c2); auto; try (split; assumption).
  intros i s d S D. pose proof (bounded_maps32 m c1 c2 i s d Bm S D) as U. split; [exact U|apply U].
Qed.

(** ** C59 *)
Lemma blend_null m p us ud (h : heap f32) : rejects (@blend f32 (F32 o) m None p us ud) h /\ rejects (@blend f32 (F32 o) m p None us ud) h.
Proof. rewrite !blend_checked. apply checked_null. Qed.
Lemma pd_null q p (h : heap f32) : rejects (@composite f32 (F32 o) q None p) h /\ rejects (@composite f32 (F32 o) q p None) h.
Proof. rewrite !composite_checked. apply checked_null. Qed.
Lemma blend_spaces m us ud (h : heap f32) p1 c1 p2 c2 : at_addr h p1 c1 -> at_addr h p2 c2 -> rgb_space c1 <> rgb_space c2 ->
  rejects (@blend f32 (F32 o) m (Some p1) (Some p2) us ud) h.
Proof. rewrite !blend_checked. apply checked_spaces. Qed.
Lemma pd_spaces q (h : heap f32) p1 c1 p2 c2 : at_addr h p1 c1 -> at_addr h p2 c2 -> rgb_space c1 <> rgb_space c2 ->
  rejects (@composite f32 (F32 o) q (Some p1) (Some p2)) h.
Proof. rewrite !composite_checked. apply checked_spaces. Qed.

Lemma wf_colour X (r : color f32) : @wf_color f32 (F32 o) X r -> colour_of_type X r.
Proof. intros W. apply (wf32 o) in W. apply W. Qed.

Lemma checked_makes us ud ub f (h : heap f32) X1 X2 p1 c1 p2 c2 : at_addr h p1 c1 -> at_addr h p2 c2 ->
  @wf_color f32 (F32 o) X1 c1 -> @wf_color f32 (F32 o) X2 c2 -> rgb_space c1 = rgb_space c2 -> (cie X1 || cie X2 = true -> has_space h c1) ->
  convertible X1 = true -> makes X1 (@checked_blend f32 (F32 o) us ud ub f (Some p1) (Some p2)) h (rgb_space c1).
Proof.
  intros H1 H2 W1 W2 SP N C.
  destruct (checked_total (AF := F32 o) (AL := F32Laws o) us ud ub f h X1 X2 p1 c1 p2 c2 H1 H2 W1 W2 SP N C)
    as [q [r [h' [E [Fq [A [K [T [L [W [S U]]]]]]]]]]].
  exists q, r, h'. split; [exact E|]. split; [exact Fq|]. split; [exact A|]. split; [exact K|]. split; [exact T|]. split; [exact L|].
  split; [intros NX; apply wf_colour, W, NX|]. split; assumption.
Qed.
Lemma blend_makes m us ud (h : heap f32) X1 X2 p1 c1 p2 c2 : at_addr h p1 c1 -> at_addr h p2 c2 ->
  @wf_color f32 (F32 o) X1 c1 -> @wf_color f32 (F32 o) X2 c2 -> rgb_space c1 = rgb_space c2 -> (cie X1 || cie X2 = true -> has_space h c1) ->
  convertible X1 = true -> makes X1 (@blend f32 (F32 o) m (Some p1) (Some p2) us ud) h (rgb_space c1).
Proof. rewrite blend_checked. apply checked_makes. Qed.
Lemma pd_makes q (h : heap f32) X1 X2 p1 c1 p2 c2 : at_addr h p1 c1 -> at_addr h p2 c2 ->
  @wf_color f32 (F32 o) X1 c1 -> @wf_color f32 (F32 o) X2 c2 -> rgb_space c1 = rgb_space c2 -> (cie X1 || cie X2 = true -> has_space h c1) ->
  convertible X1 = true -> makes X1 (@composite f32 (F32 o) q (Some p1) (Some p2)) h (rgb_space c1).
Proof. rewrite composite_checked. apply checked_makes. Qed.
Lemma lch_no_colour m q us ud (h : heap f32) X1 X2 p1 c1 p2 c2 : at_addr h p1 c1 -> at_addr h p2 c2 ->
  @wf_color f32 (F32 o) X1 c1 -> @wf_color f32 (F32 o) X2 c2 -> rgb_space c1 = rgb_space c2 -> has_space h c1 ->
  convertible X1 = false ->
  (exists h', @blend f32 (F32 o) m (Some p1) (Some p2) us ud h = (Ok None, h')) /\
  (exists h', @composite f32 (F32 o) q (Some p1) (Some p2) h = (Ok None, h')).
Proof.
  intros. rewrite blend_checked, composite_checked. split; eapply checked_lch; eassumption.
Qed.

(** ** C63 *)
Lemma is_one x : is_value x 1 -> x = fz 1.
Proof.
  intros [Fx Vx]. destruct one32 as [F1 V1]. apply B2R_inj; [| |change (B2R (fz 1)) with (fval (fz 1)); rewrite V1; exact Vx].
  - clear - Fx Vx. destruct x as [s|s| |s m e H]; try discriminate Fx; [simpl in Vx; lra|reflexivity].
  - reflexivity.
Qed.

Lemma exact_finite (b : f32) : Rlt_bool (Rabs (round radix2 (SpecFloat.fexp 24 128) (round_mode mode_NE) (fval b))) (bpow radix2 128) = true.
Proof.
  rewrite round_generic; [|apply valid_rnd_round_mode|apply generic_format_B2R]. apply Rlt_bool_true. apply abs_B2R_lt_emax.
Qed.
Lemma mult_one (b : f32) : is_finite b = true -> is_finite (Bmult mode_NE (fz 1) b) = true /\ fval (Bmult mode_NE (fz 1) b) = fval b.
Proof.
  intros Fb. destruct one32 as [F1 V1]. pose proof (Bmult_correct 24 128 _ _ mode_NE (fz 1) b) as H. cbv zeta in H.
  change (B2R (fz 1)) with (fval (fz 1)) in H. rewrite V1, Rmult_1_l, exact_finite in H. destruct H as [H1 [H2 _]]. rewrite F1, Fb in H2.
  split; [exact H2|]. unfold fval in *. rewrite H1. apply round_generic; [apply valid_rnd_round_mode|apply generic_format_B2R].
Qed.
Lemma zero_plus (z b : f32) : is_finite z = true -> fval z = 0 -> is_finite b = true -> is_finite (Bplus mode_NE z b) = true /\ fval (Bplus mode_NE z b) = fval b.
Proof.
  intros Fz Vz Fb. pose proof (Bplus_correct 24 128 _ _ mode_NE z b Fz Fb) as H. cbv zeta in H.
  change (B2R z) with (fval z) in H. rewrite Vz, Rplus_0_l, exact_finite in H. destruct H as [H1 [H2 _]].
  split; [exact H2|]. unfold fval in *. rewrite H1. apply round_generic; [apply valid_rnd_round_mode|apply generic_format_B2R].
Qed.
Lemma zero_unit z : is_finite z = true -> fval z = 0 -> unit32 z.
Proof. intros F V. split; [exact F|]. lra. Qed.

Lemma clamp_unit x : is_value (@c01 f32 (F32 o) x) (unit_clamp x).
Proof.
  destruct one32 as [F1 V1]. destruct zero32 as [F0 V0].
  destruct x as [s|s| |s m e H].
  - unfold c01, unit_clamp. destruct (clamp_val o (B754_zero s) 0 1) as [A B]; try sm; try lia; [reflexivity|]. split; [exact A|].
    rewrite B. simpl. unfold Rmax, Rmin. destruct (Rle_dec 0 1), (Rle_dec 1 0); try lra.
  - destruct s.
    + unfold c01. rewrite clamp_F32, clamp32_ninf by assumption. split; [exact F0|exact V0].
    + unfold c01. rewrite clamp_F32, clamp32_inf by (try assumption; lra). split; [exact F1|exact V1].
  - apply (clamp_nan o B754_nan 0 1); try sm; try lia; reflexivity.
  - unfold c01, unit_clamp. destruct (clamp_val o (B754_finite s m e H) 0 1) as [A B]; try sm; try lia; [reflexivity|]. split; [exact A|].
    rewrite B. rewrite Rmax_comm, (Rmin_comm 1). reflexivity.
Qed.
Lemma unit_clamp_fin x : is_finite x = true -> unit_clamp x = Rmax 0 (Rmin 1 (fval x)).
Proof. destruct x; try discriminate; reflexivity. Qed.

(** Blending opaque colours. *)
Lemma opaque_sum us ud s d b : unit32 s -> unit32 d ->
  unit_clamp (@blend_sum f32 (F32 o) us ud (fz 1) (fz 1) s d b) = unit_clamp b /\
  (is_finite b = true -> fval (@blend_sum f32 (F32 o) us ud (fz 1) (fz 1) s d b) = fval b).
Proof.
  intros S D. unfold blend_sum. cbn [fadd fmul fsub F32]. destruct one32 as [F1 V1].
  assert (U1 : unit32 (fz 1)) by (split; [exact F1|lra]).
  destruct (compl_unit _ U1) as [C1 C2]. rewrite V1 in C2. replace (1 - 1) with 0 in C2 by ring. rewrite rnd32_0 in C2.
  destruct (mul_unit _ _ U1 C1) as [P1 P2]. rewrite C2, Rmult_0_r, rnd32_0 in P2.
  set (z := Bmult mode_NE (fz 1) (Bminus mode_NE (fz 1) (fz 1))) in *. clearbody z. clear C1 C2.
  destruct (mul_unit _ _ P1 (if_unit us s S)) as [Q1 Q2]. rewrite P2, Rmult_0_l, rnd32_0 in Q2.
  destruct (mul_unit _ _ P1 (if_unit ud d D)) as [R1 R2]. rewrite P2, Rmult_0_l, rnd32_0 in R2.
  destruct (zero_plus _ _ (proj1 Q1) Q2 (proj1 R1)) as [T1 T2]. rewrite R2 in T2.
  match goal with |- context [Bplus mode_NE (Bplus mode_NE ?p ?q) _] => set (t := Bplus mode_NE p q) in * end.
  assert (T1' : is_finite t = true) by exact T1. assert (T2' : fval t = 0) by exact T2. clearbody t. clear - T1' T2' F1 V1. rename T1' into T1, T2' into T2.
  destruct (mult_one (fz 1) F1) as [O1 O2]. rewrite V1 in O2. pose proof (is_one _ (conj O1 O2)) as O. rewrite O.
  destruct (is_finite b) eqn:Fb.
  - destruct (mult_one b Fb) as [B1 B2]. destruct (zero_plus t _ T1 T2 B1) as [K1 K2]. split; [|intros _; rewrite K2; exact B2].
    rewrite !unit_clamp_fin by assumption. rewrite K2, B2. reflexivity.
  - split; [|discriminate]. destruct t as [st|st| |st mt et Ht]; try discriminate T1.
    + destruct b as [sb|sb| |sb mb eb Hb]; try discriminate Fb; [|reflexivity]. destruct sb; reflexivity.
    + exfalso. revert T2. simpl. intros T2. assert (F2R (Float radix2 (cond_Zopp st (Zpos mt)) et) <> 0); [|contradiction].
      apply F2R_neq_0. destruct st; discriminate.
Qed.

Lemma Ok_inj {A} (a b : A) : Ok a = Ok b -> a = b.
Proof. congruence. Qed.

Lemma opaque_blend_f us ud f (c1 c2 r : color f32) : @wf_color f32 (F32 o) RGB_DEEP c1 -> @wf_color f32 (F32 o) RGB_DEEP c2 -> is_value (m_alpha c1) 1 -> is_value (m_alpha c2) 1 ->
  @blend_f f32 (F32 o) us ud true f c1 c2 = Ok r ->
  is_value (m_alpha r) 1 /\ forall i s d, nth_error (comps c1) i = Some s -> nth_error (comps c2) i = Some d ->
    comp_sat r i (fun v => is_value v (unit_clamp (f i s d))).
Proof.
  intros W1 W2 A1 A2 E.
  destruct (comps3 _ c1 W1 eq_refl) as [s0 [s1 [s2 E1]]]. destruct (comps3 _ c2 W2 eq_refl) as [d0 [d1 [d2 E2]]].
  pose proof (fun i x => unit_comp c1 i x W1) as R1. pose proof (fun i x => unit_comp c2 i x W2) as R2.
  rewrite E1 in R1. rewrite E2 in R2.
  rewrite (blend_f_nf us ud true f c1 c2 _ _ _ _ _ _ E1 E2) in E.
  assert (K1 : @alpha f32 (F32 o) c1 = fz 1) by (unfold alpha; rewrite (wf_cls _ _ W1); apply is_one, A1).
  assert (K2 : @alpha f32 (F32 o) c2 = fz 1) by (unfold alpha; rewrite (wf_cls _ _ W2); apply is_one, A2).
  rewrite K1, K2 in E. clear K1 K2.
  destruct one32 as [F1 V1]. assert (U1 : unit32 (fz 1)) by (split; [exact F1|lra]).
  assert (Al : @blend_alpha f32 (F32 o) us ud true (fz 1) (fz 1) = fz 1).
  { apply is_one. destruct (opaque_sum us ud (fz 1) (fz 1) (fz 1) U1 U1) as [_ V]. specialize (V F1). rewrite V1 in V.
    destruct (blend_sum_le us ud true (fz 1) (fz 1) (fz 1) (fz 1) (fz 1) U1 U1 U1 U1 U1) as [_ [Fa _]]; [rewrite V1; lra|]. split; [exact Fa|exact V]. }
  rewrite Al in E. unfold alpha_divide in E. cbn [m_alpha] in E.
  assert (Q : @feq f32 (F32 o) (fz 1) (fz 0) = false).
  { cbn [feq F32]. destruct zero32 as [F0 V0]. rewrite Beqb_fin by assumption. rewrite V1, V0. apply Req_bool_false. lra. }
  rewrite Q in E. cbn [map comps with_comps] in E.
  assert (Dv : forall i s d, unit32 s -> unit32 d ->
    is_value (@fdiv f32 (F32 o) (@c01 f32 (F32 o) (@blend_sum f32 (F32 o) us ud (fz 1) (fz 1) s d (f i s d))) (fz 1)) (unit_clamp (f i s d))).
  { intros i s d S D. destruct (opaque_sum us ud s d (f i s d) S D) as [V _].
    destruct (clamp_unit (@blend_sum f32 (F32 o) us ud (fz 1) (fz 1) s d (f i s d))) as [G1 G2]. rewrite V in G2.
    assert (Rg : 0 <= unit_clamp (f i s d) <= 1).
    { unfold unit_clamp. destruct (f i s d) as [?|[]| |? ? ? ?]; try lra; (split; [apply Rmax_l|apply Rmax_lub; [lra|apply Rmin_l]]). }
    set (w := @c01 f32 (F32 o) (@blend_sum f32 (F32 o) us ud (fz 1) (fz 1) s d (f i s d))) in *. clearbody w. cbn [fdiv F32].
    destruct (Bdiv_ok w (fz 1) 0 1 G1 F1) as [H1 H2]; try sm; [rewrite V1; lra|rewrite G2, V1; lra|].
    split; [exact H1|]. change (fval (Bdiv mode_NE w (fz 1)) = unit_clamp (f i s d)). rewrite H2, V1. unfold Rdiv. rewrite Rinv_1, Rmult_1_r, rnd32_id. exact G2. }
  apply Ok_inj in E. split.
  { rewrite <- E. split; [exact F1|exact V1]. }
  intros i s d. rewrite E1, E2. unfold comp_sat. rewrite <- E. cbn [comps with_comps]. clear E.
  destruct i as [|[|[|i]]]; cbn [nth_error]; [| | |destruct i; discriminate]; intros [= <-] [= <-]; eexists; (split; [reflexivity|]); apply Dv;
    first [apply (R1 0%nat _ eq_refl)|apply (R1 1%nat _ eq_refl)|apply (R1 2%nat _ eq_refl)|apply (R2 0%nat _ eq_refl)|apply (R2 1%nat _ eq_refl)|apply (R2 2%nat _ eq_refl)].
Qed.

Lemma opaque_blend m us ud (h : heap f32) p1 c1 p2 c2 : at_addr h p1 c1 -> at_addr h p2 c2 ->
  @wf_color f32 (F32 o) RGB_DEEP c1 -> @wf_color f32 (F32 o) RGB_DEEP c2 -> is_value (m_alpha c1) 1 -> is_value (m_alpha c2) 1 ->
  rgb_space c1 = rgb_space c2 ->
  returns (@blend f32 (F32 o) m (Some p1) (Some p2) us ud) h (fun r => is_value (m_alpha r) 1 /\
    forall i s d, nth_error (comps c1) i = Some s -> nth_error (comps c2) i = Some d ->
      comp_sat r i (fun v => is_value v (unit_clamp (@blend_function f32 (F32 o) m c1 c2 i s d)))).
Proof.
  intros H1 H2 W1 W2 A1 A2 SP. rewrite blend_checked.
  destruct (checked_deep_run (AF := F32 o) us ud true (@blend_function f32 (F32 o) m) h p1 c1 p2 c2 H1 H2 W1 W2 SP) as [q [r [h' [E [Q B]]]]].
  exists q, r, h'. split; [exact E|]. split; [exact Q|]. apply (opaque_blend_f us ud _ c1 c2 r W1 W2 A1 A2 B).
Qed.

End F.
