(** * CIE76 separates 8-bit sRGB colours in binary32 (C171) *)
From Coq Require Import ZArith QArith Qreals Qabs Reals Lra Lia List Bool.
From Flocq Require Import Core IEEE754.BinarySingleNaN.
From Verif Require Import Arith Outcome ColorModel GammaModel MatrixModel SpaceModel Heap Converter Calculation Distance F32 F32Facts RArith
  Spec Spec32 Laws NormalForms Alpha8 Core_Proofs Core2_Proofs Core3_Proofs Core4_Proofs Hue32 Spec_Matrix Spec_Conv Spec_Calc Spec_Round
  Conv_Proofs Conv2_Proofs Conv3_Proofs Run_Proofs HueR_Proofs Round_Proofs Round2_Proofs Spec_Error Error_Proofs Error2_Proofs Error3_Proofs Error4_Proofs Error5_Proofs
  Error7_Proofs Error8_Proofs Calc_Proofs Byte3_Proofs Spec_Distance Distance_Proofs Spec_Rank Rank_Proofs
  Linear_Proofs Linear2_Proofs Pow_Proofs Curve_Proofs Wide_Proofs Xyz8_Proofs PowRef_Proofs Lab8_Proofs Xyy8_Proofs Detour_Proofs Detour2_Proofs.
Import ListNotations.
Local Open Scope R_scope.
Local Notation fin x := (is_finite x = true).
Local Notation fval := (@B2R 24 128).

(** ** The inverse of the Lab function has slope at most 3 *)
Lemma cubes a b : 0 <= b <= a -> a <= 1 + 14 * u -> a * a * a - b * b * b <= 3001 / 1000 * (a - b).
Proof.
  intros H B. replace (a * a * a - b * b * b) with ((a * a + a * b + b * b) * (a - b)) by ring. apply Rmult_le_compat_r; [lra|].
  assert (a * a <= (1 + 14 * u) * (1 + 14 * u)) by (apply Rmult_le_compat; lra).
  assert (a * b <= (1 + 14 * u) * (1 + 14 * u)) by (apply Rmult_le_compat; lra).
  assert (b * b <= (1 + 14 * u) * (1 + 14 * u)) by (apply Rmult_le_compat; lra). num.
Qed.
Lemma fl_slope x y : 0 <= x <= 1 + 40 * u -> 0 <= y <= 1 + 40 * u -> x - y <= 3001 / 1000 * Rabs (fl x - fl y).
Proof.
  intros Bx By. pose proof (fl_bounds x Bx) as RX. pose proof (fl_bounds y By) as RY. pose proof (Rle_abs (fl x - fl y)) as AB.
  destruct (Rle_lt_dec x y) as [K|K]; [pose proof (Rabs_pos (fl x - fl y)); lra|].
  apply Rle_trans with (3001 / 1000 * (fl x - fl y)); [|lra].
  destruct (fl_cases x ltac:(lra)) as [[L E]|[L [P E]]]; destruct (fl_cases y ltac:(lra)) as [[L2 E2]|[L2 [P2 E2]]].
  - rewrite E, E2. unfold k0. lra.
  - lra.
  - pose proof (fl_high x ltac:(lra)) as H. pose proof (fl_low y ltac:(lra)) as H2.
    pose proof (cubes (fl x) (6 / 29) ltac:(lra) ltac:(lra)) as C. rewrite E in C.
    assert (e0 - y <= 6 / 29 - fl y) by (rewrite E2; unfold e0, k0; unfold e0 in L2; lra). unfold e0 in * . lra.
  - assert (fl y <= fl x) by (apply cube_le; lra). pose proof (cubes (fl x) (fl y) ltac:(lra) ltac:(lra)). lra.
Qed.

Section Sep.
Context (o : oracle) (AP : accurate_pow o).
Local Notation "x +. y" := (@fadd f32 (F32 o) x y) (at level 50, left associativity).
Local Notation "x -. y" := (@fsub f32 (F32 o) x y) (at level 50, left associativity).
Local Notation "x *. y" := (@fmul f32 (F32 o) x y) (at level 40, left associativity).
Local Notation "x /. y" := (@fdiv f32 (F32 o) x y) (at level 40, left associativity).
Local Notation "$ n" := (@fz f32 (F32 o) n) (at level 0).
Local Notation c01 := (@c01 f32 (F32 o)).
Local Notation c100 := (@c100 f32 (F32 o)).

(** ** The Lab coordinates of tristimulus values *)
Definition lab_l (y : f32) : f32 := @clamp f32 (F32 o) ($116 *. @xyz_to_lab_helper f32 (F32 o) y -. $16) $100 $0.
Definition lab_a (x y : f32) : f32 := @clamp f32 (F32 o) ($500 *. (@xyz_to_lab_helper f32 (F32 o) x -. @xyz_to_lab_helper f32 (F32 o) y)) $128 $(-128).
Definition lab_b (y z : f32) : f32 := @clamp f32 (F32 o) ($200 *. (@xyz_to_lab_helper f32 (F32 o) y -. @xyz_to_lab_helper f32 (F32 o) z)) $128 $(-128).

Lemma lab_near (x y z : f32) : fin x -> fin y -> fin z -> 0 <= fval x <= 1 + 40 * u -> 0 <= fval y <= 1 + 40 * u -> 0 <= fval z <= 1 + 40 * u ->
  fl (fval x) - fl (fval y) <= 2559 / 10000 -> fl (fval y) - fl (fval x) <= 2559 / 10000 -> fl (fval y) - fl (fval z) <= 6399 / 10000 -> fl (fval z) - fl (fval y) <= 6399 / 10000 ->
  near (lab_l y) (116 * fl (fval y) - 16) (2700 * u) /\ near (lab_a x y) (500 * (fl (fval x) - fl (fval y))) (21300 * u) /\ near (lab_b y z) (200 * (fl (fval y) - fl (fval z))) (8700 * u).
Proof.
  intros Fx Fy Fz Bx By Bz Cxy Cyx Cyz Czy. unfold lab_l, lab_a, lab_b.
  pose proof (helper_forth o AP x Fx Bx) as NX. pose proof (helper_forth o AP y Fy By) as NY. pose proof (helper_forth o AP z Fz Bz) as NZ.
  pose proof (fl_bounds _ Bx) as RX. pose proof (fl_bounds _ By) as RY. pose proof (fl_bounds _ Bz) as RZ.
  set (X := fl (fval x)) in * . set (Y := fl (fval y)) in * . set (V := fl (fval z)) in * . split; [|split].
  { pose proof (near_mul o _ _ _ _ _ _ 116 (11 / 10) 117 (near_fz o 116 ltac:(sm)) NY ltac:(apply Rabs_le; lra) ltac:(apply Rabs_le; num) ltac:(apply Rabs_le; num) ltac:(num)) as N1.
    pose proof (near_sub o _ _ _ _ _ _ 101 N1 (near_fz o 16 ltac:(sm)) ltac:(apply Rabs_le; num) ltac:(num)) as N2.
    apply near_clamp; [eapply near_weaken; [exact N2|num]|sm|sm|lia|num]. }
  { pose proof (near_sub o _ _ _ _ _ _ (26 / 100) NX NY ltac:(apply Rabs_le; lra) ltac:(num)) as N1.
    pose proof (near_mul o _ _ _ _ _ _ 500 (26 / 100) 128 (near_fz o 500 ltac:(sm)) N1 ltac:(apply Rabs_le; lra) ltac:(apply Rabs_le; num) ltac:(apply Rabs_le; num) ltac:(num)) as N2.
    apply near_clamp; [eapply near_weaken; [exact N2|num]|sm|sm|lia|num]. }
  { pose proof (near_sub o _ _ _ _ _ _ (64 / 100) NY NZ ltac:(apply Rabs_le; lra) ltac:(num)) as N1.
    pose proof (near_mul o _ _ _ _ _ _ 200 (64 / 100) 128 (near_fz o 200 ltac:(sm)) N1 ltac:(apply Rabs_le; lra) ltac:(apply Rabs_le; num) ltac:(apply Rabs_le; num) ltac:(num)) as N2.
    apply near_clamp; [eapply near_weaken; [exact N2|num]|sm|sm|lia|num]. }
Qed.

Section Space.
Variables (gm : gamma f32) (s : space_def f32) (nm : nat) (w : white_point f32).
Hypothesis (Gg : gm = @gamma_sRGB f32 (F32 o)) (Gm : s_gamma s = Some gm) (OK : detour_ok s = true) (Hw : s_white s = Some (nm, w)).
Local Notation thr := (@inverse_gamma_correction f32 (F32 o) gm).
Local Notation bck := (@gamma_correction f32 (F32 o) gm).

(** What is known of a colour with the bytes t: channels, tristimulus values. *)
Definition seen (t : bytes3) (X Y V : f32) : Prop := let '(r, g, b) := t in exists x y z, unitf x /\ unitf y /\ unitf z /\
  fval x = q255 r /\ fval y = q255 g /\ fval z = q255 b /\ linear_facts o s w (c01 (thr x)) (c01 (thr y)) (c01 (thr z)) X Y V.

(** Close tristimulus values come from the same bytes: go back from a point between them. *)
Lemma between (a b : f32) k lo hi : fin a -> fin b -> 0 <= fval a <= 11 / 10 -> 0 <= fval b <= 11 / 10 -> Rabs (fval a - fval b) <= k -> k / 2 + 3 * u <= lo -> k / 2 + 3 * u <= hi ->
  exists m, near m (fval a) lo /\ near m (fval b) hi.
Proof.
  intros Fa Fb Ba Bb D Hlo Hhi. destruct (Bplus_ok a b 0 3 Fa Fb ltac:(sm) ltac:(sm)) as [F1 V1]; [lra|].
  destruct (fz_val o 2) as [F2 V2]; [sm|].
  pose proof (rnd_err (fval a + fval b)) as E1. rewrite <- V1 in E1. set (c := Bplus mode_NE a b) in * . rewrite (Rabs_pos_eq (fval a + fval b)) in E1 by lra. apply Rabs_le_inv in E1.
  destruct (Bdiv_ok c $2 0 3 F1 F2 ltac:(rewrite V2; lra) ltac:(sm) ltac:(sm)) as [F3 V3]; [rewrite V2; unfold u, tiny in *; rewrite V1; assert (0 <= rnd32 (fval a + fval b) <= 3) by (apply (rnd32_bounds _ 0 3); try sm; lra); lra|].
  pose proof (rnd_err (fval c / fval $2)) as E3. rewrite <- V3 in E3. rewrite V2 in E3. apply Rabs_le_inv in D.
  assert (P : 0 <= fval c <= 3) by (rewrite V1; apply (rnd32_bounds _ 0 3); try sm; lra).
  rewrite (Rabs_pos_eq (fval c / 2)) in E3 by lra. apply Rabs_le_inv in E3. exists (Bdiv mode_NE c $2). split; (split; [exact F3|]; apply Rabs_le; num).
Qed.
Lemma same_origin t1 t2 X1 Y1 V1 X2 Y2 V2 : is_bytes t1 -> is_bytes t2 -> seen t1 X1 Y1 V1 -> seen t2 X2 Y2 V2 ->
  Rabs (fval X1 - fval X2) <= 446 * u -> Rabs (fval Y1 - fval Y2) <= 194 * u -> Rabs (fval V1 - fval V2) <= 510 * u -> t1 = t2.
Proof.
  destruct t1 as [[r1 g1] b1]. destruct t2 as [[r2 g2] b2]. intros [Hr1 [Hg1 Hb1]] [Hr2 [Hg2 Hb2]].
  intros [x1 [y1 [z1 [Ux1 [Uy1 [Uz1 [Ex1 [Ey1 [Ez1 LF1]]]]]]]]] [x2 [y2 [z2 [Ux2 [Uy2 [Uz2 [Ex2 [Ey2 [Ez2 LF2]]]]]]]]] DX DY DV.
  pose proof (lf_x _ _ _ _ _ _ _ _ _ LF1) as [FX1 BX1]. pose proof (lf_y _ _ _ _ _ _ _ _ _ LF1) as [FY1 BY1]. pose proof (lf_z _ _ _ _ _ _ _ _ _ LF1) as [FV1 BV1].
  pose proof (lf_x _ _ _ _ _ _ _ _ _ LF2) as [FX2 BX2]. pose proof (lf_y _ _ _ _ _ _ _ _ _ LF2) as [FY2 BY2]. pose proof (lf_z _ _ _ _ _ _ _ _ _ LF2) as [FV2 BV2].
  destruct (between X1 X2 _ (226 * u) (226 * u) FX1 FX2 BX1 BX2 DX ltac:(num) ltac:(num)) as [X [NX1 NX2]].
  destruct (between Y1 Y2 _ (100 * u) (100 * u) FY1 FY2 BY1 BY2 DY ltac:(num) ltac:(num)) as [Y [NY1 NY2]].
  destruct (between V1 V2 _ (258 * u) (258 * u) FV1 FV2 BV1 BV2 DV ltac:(num) ltac:(num)) as [V [NV1 NV2]].
  destruct (lf_back _ _ _ _ _ _ _ _ _ LF1 _ _ _ NX1 NY1 NV1) as [p [q [r [M1 [P1 [Q1 R1]]]]]].
  destruct (lf_back _ _ _ _ _ _ _ _ _ LF2 _ _ _ NX2 NY2 NV2) as [p' [q' [r' [M2 [P2 [Q2 R2]]]]]].
  rewrite M1 in M2. injection M2 as <- <- <-.
  assert (K : forall v1 v2 n1 n2 L, is_byte n1 -> is_byte n2 -> unitf v1 -> unitf v2 -> fval v1 = q255 n1 -> fval v2 = q255 n2 ->
    near (@c01x f32 (F32 o) L) (fval (c01 (thr v1))) (1100 * u) -> near (@c01x f32 (F32 o) L) (fval (c01 (thr v2))) (1100 * u) -> n1 = n2).
  { intros v1 v2 n1 n2 L H1 H2 U1 U2 E1 E2 N1 N2. apply (wide o AP gm Gg v1 _ U1 (c01x_unit o L)) in N1. apply (wide o AP gm Gg v2 _ U2 (c01x_unit o L)) in N2.
    apply (fun K => to8_keeps o v1 n1 _ K H1 E1) in N1. apply (fun K => to8_keeps o v2 n2 _ K H2 E2) in N2. destruct N1 as [_ N1]. destruct N2 as [_ N2]. apply eq_IZR. congruence. }
  rewrite (K x1 x2 r1 r2 p), (K y1 y2 g1 g2 q), (K z1 z2 b1 b2 r) by assumption. reflexivity.
Qed.

(** Two colours whose Lab coordinates differ by at most 1500 u have the same bytes. *)
Lemma scaled x1 x2 X1 X2 t d top : 0 <= x1 <= 1 + 40 * u -> 0 <= x2 <= 1 + 40 * u -> Rabs (x1 * t - X1) <= 2 * u -> Rabs (x2 * t - X2) <= 2 * u -> 0 <= t <= top -> 
  Rabs (fl x1 - fl x2) <= d -> Rabs (X1 - X2) <= 3001 / 1000 * d * top + 4 * u.
Proof.
  intros B1 B2 E1 E2 Bt D. pose proof (fl_slope x1 x2 B1 B2) as S1. pose proof (fl_slope x2 x1 B2 B1) as S2. rewrite (Rabs_minus_sym (fl x2)) in S2.
  assert (0 <= d) by (eapply Rle_trans; [apply Rabs_pos|exact D]).
  assert (DX : Rabs (x1 - x2) <= 3001 / 1000 * d) by (apply Rabs_le; lra).
  assert (P : Rabs ((x1 - x2) * t) <= 3001 / 1000 * d * top) by (rewrite Rabs_mult; apply Rmult_le_compat; try apply Rabs_pos; [exact DX|rewrite Rabs_pos_eq; lra]).
  replace ((x1 - x2) * t) with (x1 * t - x2 * t) in P by ring. apply Rabs_le_inv in P, E1, E2. apply Rabs_le. lra.
Qed.
Lemma lab_apart t1 t2 X1 Y1 V1 X2 Y2 V2 : is_bytes t1 -> is_bytes t2 -> seen t1 X1 Y1 V1 -> seen t2 X2 Y2 V2 ->
  Rabs (fval (lab_l (Y1 /. ty_ w)) - fval (lab_l (Y2 /. ty_ w))) <= 1500 * u ->
  Rabs (fval (lab_a (X1 /. tx w) (Y1 /. ty_ w)) - fval (lab_a (X2 /. tx w) (Y2 /. ty_ w))) <= 1500 * u ->
  Rabs (fval (lab_b (Y1 /. ty_ w) (V1 /. tz w)) - fval (lab_b (Y2 /. ty_ w) (V2 /. tz w))) <= 1500 * u -> t1 = t2.
Proof.
  intros B1 B2 S1 S2 DL DA DB. apply (same_origin t1 t2 X1 Y1 V1 X2 Y2 V2 B1 B2 S1 S2).
  all: destruct t1 as [[r1 g1] b1]; destruct t2 as [[r2 g2] b2];
    destruct S1 as [x1 [y1 [z1 [_ [_ [_ [_ [_ [_ LF1]]]]]]]]]; destruct S2 as [x2 [y2 [z2 [_ [_ [_ [_ [_ [_ LF2]]]]]]]]];
    pose proof (lf_wx _ _ _ _ _ _ _ _ _ LF1) as [FX1 [BX1 QX1]]; pose proof (lf_wy _ _ _ _ _ _ _ _ _ LF1) as [FY1 [BY1 QY1]]; pose proof (lf_wz _ _ _ _ _ _ _ _ _ LF1) as [FV1 [BV1 QV1]];
    pose proof (lf_wx _ _ _ _ _ _ _ _ _ LF2) as [FX2 [BX2 QX2]]; pose proof (lf_wy _ _ _ _ _ _ _ _ _ LF2) as [FY2 [BY2 QY2]]; pose proof (lf_wz _ _ _ _ _ _ _ _ _ LF2) as [FV2 [BV2 QV2]];
    pose proof (lf_diff _ _ _ _ _ _ _ _ _ LF1) as [D1 [D2 [D3 D4]]]; pose proof (lf_diff _ _ _ _ _ _ _ _ _ LF2) as [D5 [D6 [D7 D8]]];
    pose proof (lf_white _ _ _ _ _ _ _ _ _ LF1) as [G1 [W1 [G2 [W2 [G3 W3]]]]];
    destruct (lab_near _ _ _ FX1 FY1 FV1 BX1 BY1 BV1 D1 D2 D3 D4) as [[_ NL1] [[_ NA1] [_ NB1]]];
    destruct (lab_near _ _ _ FX2 FY2 FV2 BX2 BY2 BV2 D5 D6 D7 D8) as [[_ NL2] [[_ NA2] [_ NB2]]];
    apply Rabs_le_inv in NL1, NL2, NA1, NA2, NB1, NB2, DL, DA, DB; change (@B2R 24 128) with fval in *; clear LF1 LF2 OK Gm Gg.
  - eapply Rle_trans; [eapply (scaled (fval (X1 /. tx w)) (fval (X2 /. tx w)) _ _ (fval (tx w)) (1538 / 10 * u) (951 / 1000)); try assumption; [lra|]|num].
    apply Rabs_le. num.
  - eapply Rle_trans; [eapply (scaled (fval (Y1 /. ty_ w)) (fval (Y2 /. ty_ w)) _ _ (fval (ty_ w)) (60 * u) (10001 / 10000)); try assumption; [lra|]|num].
    apply Rabs_le. num.
  - eapply Rle_trans; [eapply (scaled (fval (V1 /. tz w)) (fval (V2 /. tz w)) _ _ (fval (tz w)) (1545 / 10 * u) (1089 / 1000)); try assumption; [lra|]|num].
    apply Rabs_le. num.
Qed.

(** ** The Lab colour of an 8-bit colour *)
Lemma lab_values (h : heap f32) p c i t : at_addr h p c -> @wf_color f32 (F32 o) RGB_TRUE c -> rgb_space c = Some i -> nth_error (spaces h) i = Some s -> is_bytes t -> holds_bytes t c ->
  exists a h1 ml X Y V, @to_lab f32 (F32 o) (Some p) h = (Ok (Some a), h1) /\ at_addr h1 a ml /\ comps ml = [lab_l (Y /. ty_ w); lab_a (X /. tx w) (Y /. ty_ w); lab_b (Y /. ty_ w) (V /. tz w)] /\ seen t X Y V.
Proof.
  destruct t as [[r g] b]. intros Hp W Es Hs [Hr [Hg Hb]] HB.
  destruct (forth o gm h p c i s nm w Hp W Es Hs Gm OK Hw r g b Hr Hg Hb HB) as [x [y [z [Ux [Uy [Uz [Vx [Vy [Vz [q [h1 [m [GD K]]]]]]]]]]]]].
  pose proof (good_wf o gm h c s w _ _ _ _ _ _ GD) as Wm. destruct GD as [Hm [SP [X0 [Y0 [V0 [Em LF]]]]]].
  set (X := c100 X0) in * . set (Y := c100 Y0) in * . set (V := c100 V0) in * .
  assert (E1 : exists ml, @xyz_to_lab_f f32 (F32 o) m w = Ok ml /\ comps ml = [lab_l (Y /. ty_ w); lab_a (X /. tx w) (Y /. ty_ w); lab_b (Y /. ty_ w) (V /. tz w)]).
  { unfold xyz_to_lab_f, with3. rewrite Em. cbn [comps m_alpha rgb_space]. cbv zeta.
    rewrite lab_nf. cbn [obind]. unfold alpha_set. cbn [cls]. unfold base_alpha_set, with_alpha. cbn [cls ty comps m_max m_min rgb_space]. eexists. split; reflexivity. }
  destruct E1 as [ml [E1 C1]].
  assert (Hs1 : nth_error (spaces h1) i = Some s) by (rewrite SP; exact Hs).
  assert (Lw : @load_white f32 m h1 = (Ok w, h1)) by (apply (white_run i s nm w Hw); [rewrite Em; exact Es|exact Hs1]).
  pose proof (leaf_white_run (AF := F32 o) XYZ _ h1 q m w ml Hm Wm Lw E1) as R1.
  assert (D1 : dispatches (@to_lab f32 (F32 o)) RGB_TRUE (@rgb_true_to_lab f32 (F32 o))) by disp.
  exists (length (colors h1)), (pushed h1 ml), ml, X, Y, V.
  split; [rewrite (D1 h p c Hp (wf_ty _ _ W)); unfold rgb_true_to_lab, rgb_deep_to_lab; rewrite K; exact R1|]. split; [apply at_new|]. split; [exact C1|].
  exists x, y, z. auto 12.
Qed.

(** ** The distance *)
Context (AS : accurate_square o).
Local Notation sq d := (@fpow f32 (F32 o) d $2).
Lemma add_low (x y : f32) m : fin x -> fin y -> -1 <= fval x <= 400000 -> -1 <= fval y <= 400000 -> -1 <= m <= 1 -> m <= fval x + fval y ->
  fin (x +. y) /\ fval (x +. y) <= fval x + fval y + 1 /\ (m <= 0 -> (1 + u) * m - tiny <= fval (x +. y)) /\ (0 <= m -> (1 - u) * m - tiny <= fval (x +. y)).
Proof.
  intros Fx Fy Bx By Bm L. destruct (Bplus_ok x y (-2) 1000000 Fx Fy ltac:(sm) ltac:(sm)) as [F1 V1]; [lra|]. change (@fadd f32 (F32 o) x y) with (Bplus mode_NE x y). split; [exact F1|].
  rewrite V1. pose proof (rnd_err (fval x + fval y)) as E. apply Rabs_le_inv in E. unfold Rabs in * .
  destruct (Rcase_abs (fval x + fval y)); split; [num| |num|]; split; intros; num.
Qed.
Lemma sq_low d : fin d -> Rabs (fval d) <= 300 -> fin (sq d) /\ - (2 * tiny) <= fval (sq d) <= 100000 /\ (1400 * u < Rabs (fval d) -> 1380 * 1380 * u * u <= fval (sq d)).
Proof.
  intros Fd B. destruct (AS d Fd) as [Fs [_ E]]; [change (B2R d) with (fval d); lra|]. change (o_pow o d $2) with (sq d) in * . change (@B2R 24 128) with fval in * .
  split; [exact Fs|]. pose proof (Rle_0_sqr (fval d)) as P. unfold Rsqr in P. assert (Q : fval d * fval d = Rabs (fval d) * Rabs (fval d)) by (rewrite <- Rabs_mult, Rabs_pos_eq; [reflexivity|exact P]).
  rewrite Q in * . pose proof (Rabs_pos (fval d)) as PA. set (a := Rabs (fval d)) in * . assert (a * a <= 300 * 300) by (apply Rmult_le_compat; lra).
  apply Rabs_le_inv in E. split; [num|]. intros G. assert (1400 * u * (1400 * u) <= a * a) by (apply Rmult_le_compat; num). num.
Qed.
Lemma sum_low (x y z : f32) q : fin x -> fin y -> fin z -> - (2 * tiny) <= fval x <= 100000 -> - (2 * tiny) <= fval y <= 100000 -> - (2 * tiny) <= fval z <= 100000 -> 0 <= q <= / 1000000 ->
  q <= fval x \/ q <= fval y \/ q <= fval z -> fin ($0 +. x +. y +. z) /\ (1 - 4 * u) * q - 20 * tiny <= fval ($0 +. x +. y +. z).
Proof.
  intros Fx Fy Fz Bx By Bz Bq G. destruct (fz_val o 0) as [F0 V0]; [sm|].
  destruct (Rle_lt_dec q (fval x)) as [Cx|Cx].
  - destruct (add_low $0 x q F0 Fx) as [F1 [H1 [_ L1]]]; try (rewrite V0; num); try num. specialize (L1 ltac:(lra)). rewrite V0 in H1.
    destruct (add_low _ y ((1 - u) * q - 3 * tiny) F1 Fy) as [F2 [H2 [N2 P2]]]; try num.
    destruct (add_low _ z ((1 - 2 * u) * q - 7 * tiny) F2 Fz) as [F3 [H3 [N3 P3]]]; try (destruct (Rle_lt_dec ((1 - u) * q - 3 * tiny) 0); num); try num.
    split; [exact F3|]. destruct (Rle_lt_dec ((1 - 2 * u) * q - 7 * tiny) 0); num.
  - destruct (add_low $0 x (- (2 * tiny)) F0 Fx) as [F1 [H1 [L1 _]]]; try (rewrite V0; num); try num. specialize (L1 ltac:(num)). rewrite V0 in H1. destruct (Rle_lt_dec q (fval y)) as [Cy|Cy].
    + destruct (add_low _ y (q - 4 * tiny) F1 Fy) as [F2 [H2 [N2 P2]]]; try num.
      destruct (add_low _ z ((1 - u) * q - 8 * tiny) F2 Fz) as [F3 [H3 [N3 P3]]]; try (destruct (Rle_lt_dec (q - 4 * tiny) 0); num); try num.
      split; [exact F3|]. destruct (Rle_lt_dec ((1 - u) * q - 8 * tiny) 0); num.
    + destruct G as [G|[G|G]]; [lra|lra|]. destruct (add_low _ y (- (6 * tiny)) F1 Fy) as [F2 [H2 [N2 _]]]; try num. specialize (N2 ltac:(num)).
      destruct (add_low _ z (q - 8 * tiny) F2 Fz) as [F3 [H3 [N3 P3]]]; try num.
      split; [exact F3|]. destruct (Rle_lt_dec (q - 8 * tiny) 0); num.
Qed.
Lemma root_low (d1 d2 d3 : f32) : fin d1 -> fin d2 -> fin d3 -> Rabs (fval d1) <= 300 -> Rabs (fval d2) <= 300 -> Rabs (fval d3) <= 300 ->
  1400 * u < Rabs (fval d1) \/ 1400 * u < Rabs (fval d2) \/ 1400 * u < Rabs (fval d3) ->
  fin (@fsqrt f32 (F32 o) ($0 +. sq d1 +. sq d2 +. sq d3)) /\ 1024 * u <= fval (@fsqrt f32 (F32 o) ($0 +. sq d1 +. sq d2 +. sq d3)).
Proof.
  intros F1 F2 F3 B1 B2 B3 G. destruct (sq_low d1 F1 B1) as [S1 [R1 T1]]. destruct (sq_low d2 F2 B2) as [S2 [R2 T2]]. destruct (sq_low d3 F3 B3) as [S3 [R3 T3]].
  destruct (sum_low _ _ _ (1380 * 1380 * u * u) S1 S2 S3 R1 R2 R3) as [Fv Lv]; [num|destruct G as [G|[G|G]]; auto|].
  set (v := $0 +. sq d1 +. sq d2 +. sq d3) in * . assert (Gv : (1370 * u) * (1370 * u) <= fval v) by num. destruct (Bsqrt_ok v Fv) as [Fs Vs]; [num|].
  change (@fsqrt f32 (F32 o) v) with (Bsqrt mode_NE v). split; [exact Fs|]. rewrite Vs.
  assert (Q : 1370 * u <= sqrt (fval v)) by (rewrite <- (sqrt_square (1370 * u)) by num; apply sqrt_le_1_alt; exact Gv).
  pose proof (rnd_err (sqrt (fval v))) as E. rewrite (Rabs_pos_eq (sqrt (fval v))) in E by apply sqrt_pos. apply Rabs_le_inv in E. num.
Qed.

(** Coordinates more than 1500 u apart have a difference above 1400 u. *)
Lemma sub_low (x y : f32) : fin x -> fin y -> -140 <= fval x <= 140 -> -140 <= fval y <= 140 -> fin (x -. y) /\ Rabs (fval (x -. y)) <= 300 /\ (1500 * u < Rabs (fval x - fval y) -> 1400 * u < Rabs (fval (x -. y))).
Proof.
  intros Fx Fy Bx By. destruct (Bminus_ok x y (-280) 280 Fx Fy ltac:(sm) ltac:(sm)) as [F1 V1]; [lra|]. change (@fsub f32 (F32 o) x y) with (Bminus mode_NE x y). split; [exact F1|].
  rewrite V1. pose proof (rnd_err (fval x - fval y)) as E. apply Rabs_le_inv in E. assert (A : Rabs (fval x - fval y) <= 280) by (apply Rabs_le; lra).
  unfold Rabs in * . destruct (Rcase_abs (fval x - fval y)); destruct (Rcase_abs (rnd32 (fval x - fval y))); split; intros; num.
Qed.
Lemma lab_range t X Y V : seen t X Y V -> 
  (fin (lab_l (Y /. ty_ w)) /\ -140 <= fval (lab_l (Y /. ty_ w)) <= 140) /\ (fin (lab_a (X /. tx w) (Y /. ty_ w)) /\ -140 <= fval (lab_a (X /. tx w) (Y /. ty_ w)) <= 140) /\
  (fin (lab_b (Y /. ty_ w) (V /. tz w)) /\ -140 <= fval (lab_b (Y /. ty_ w) (V /. tz w)) <= 140).
Proof.
  destruct t as [[r g] b]. intros [x [y [z [_ [_ [_ [_ [_ [_ LF]]]]]]]]].
  pose proof (lf_wx _ _ _ _ _ _ _ _ _ LF) as [FX [BX _]]. pose proof (lf_wy _ _ _ _ _ _ _ _ _ LF) as [FY [BY _]]. pose proof (lf_wz _ _ _ _ _ _ _ _ _ LF) as [FV [BV _]].
  pose proof (lf_diff _ _ _ _ _ _ _ _ _ LF) as [D1 [D2 [D3 D4]]]. pose proof (fl_bounds _ BY) as RY.
  destruct (lab_near _ _ _ FX FY FV BX BY BV D1 D2 D3 D4) as [[FL NL] [[FA NA] [FB NB]]]. change (@B2R 24 128) with fval in * .
  apply Rabs_le_inv in NL, NA, NB. split; [|split]; (split; [assumption|num]).
Qed.

Lemma separated (h : heap f32) p1 c1 t1 p2 c2 t2 i1 i2 : at_addr h p1 c1 -> at_addr h p2 c2 -> @wf_color f32 (F32 o) RGB_TRUE c1 -> @wf_color f32 (F32 o) RGB_TRUE c2 ->
  rgb_space c1 = Some i1 -> nth_error (spaces h) i1 = Some s -> rgb_space c2 = Some i2 -> nth_error (spaces h) i2 = Some s ->
  usable_space s -> is_bytes t1 -> is_bytes t2 -> holds_bytes t1 c1 -> holds_bytes t2 c2 -> t1 <> t2 ->
  exists x h', @distance f32 (F32 o) Cie76 (Some p1) (Some p2) h = (Ok x, h') /\ fin x /\ 1024 * u <= fval x.
Proof.
  intros H1 H2 W1 W2 Es1 Hs1 Es2 Hs2 US B1 B2 K1 K2 NT.
  assert (NP : p1 <> p2).
  { intros E. apply NT. assert (c1 = c2) by (rewrite <- E in H2; unfold at_addr in H1, H2; congruence). subst c2. apply (same_bytes _ _ c1); assumption. }
  assert (HS1 : has_space h c1) by (exists i1, s; auto). assert (HS2 : has_space h c2) by (exists i2, s; auto).
  destruct (@distance_run f32 (F32 o) (F32Laws o) _ Cie76 RGB_TRUE RGB_TRUE h p1 c1 p2 c2 NP H1 H2 W1 W2) as [h' [d1 [d2 [[a1 [h1 [a2 [R1 [R2 [A1 A2]]]]]] [_ [_ [E _]]]]]]]; auto.
  cbn [compared_in to_type] in R1, R2.
  destruct (lab_values h p1 c1 i1 t1 H1 W1 Es1 Hs1 B1 K1) as [a1' [h1' [m1 [X1 [Y1 [V1 [R1' [M1 [C1 S1]]]]]]]]].
  rewrite R1 in R1'. injection R1' as <- <-.
  destruct (@to_step f32 (F32 o) (F32Laws o) _ RGB_TRUE LAB h p1 c1) as [q [r [h1' [R1' [_ [_ [_ [_ [_ [_ U1]]]]]]]]]]; auto; try discriminate. cbn [to_type] in R1'. rewrite R1 in R1'. injection R1' as <- <-.
  destruct (U1 ltac:(left; discriminate)) as [SP1 UN1]. assert (H2' : at_addr h1 p2 c2) by (apply UN1; exact H2). assert (Hs2' : nth_error (spaces h1) i2 = Some s) by (rewrite SP1; exact Hs2).
  assert (HS2' : has_space h1 c2) by (exists i2, s; auto).
  destruct (lab_values h1 p2 c2 i2 t2 H2' W2 Es2 Hs2' B2 K2) as [a2' [h2' [m2 [X2 [Y2 [V2 [R2' [M2 [C2 S2]]]]]]]]].
  rewrite R2 in R2'. injection R2' as <- <-.
  destruct (@to_step f32 (F32 o) (F32Laws o) _ RGB_TRUE LAB h1 p2 c2) as [q' [r' [h2' [R2' [_ [_ [_ [_ [_ [_ U2]]]]]]]]]]; auto; try discriminate. cbn [to_type] in R2'. rewrite R2 in R2'. injection R2' as <- <-.
  destruct (U2 ltac:(left; discriminate)) as [_ UN2]. pose proof (UN2 _ _ M1) as M1'.
  assert (Q1 : Some d1 = Some m1) by (rewrite <- A1; exact M1'). assert (Q2 : Some d2 = Some m2) by (rewrite <- A2; exact M2). injection Q1 as ->. injection Q2 as ->.
  destruct (lab_range _ _ _ _ S1) as [[FL1 BL1] [[FA1 BA1] [FB1 BB1]]]. destruct (lab_range _ _ _ _ S2) as [[FL2 BL2] [[FA2 BA2] [FB2 BB2]]].
  pose proof (fun P Q R => NT (lab_apart _ _ _ _ _ _ _ _ B1 B2 S1 S2 P Q R)) as AP'. 
  exists (@fsqrt f32 (F32 o) ($0 +. sq (lab_l (Y1 /. ty_ w) -. lab_l (Y2 /. ty_ w)) +. sq (lab_a (X1 /. tx w) (Y1 /. ty_ w) -. lab_a (X2 /. tx w) (Y2 /. ty_ w)) +. sq (lab_b (Y1 /. ty_ w) (V1 /. tz w) -. lab_b (Y2 /. ty_ w) (V2 /. tz w)))), h'.
  split.
  { rewrite E. cbn [on_components]. unfold cie76_f, squared_f. rewrite C1, C2. cbn [sum_squares obind]. reflexivity. }
  clear E R1 R2 C1 C2 M1 M2 M1'.
  destruct (sub_low _ _ FL1 FL2 BL1 BL2) as [G1 [T1 L1]]. destruct (sub_low _ _ FA1 FA2 BA1 BA2) as [G2 [T2 L2]]. destruct (sub_low _ _ FB1 FB2 BB1 BB2) as [G3 [T3 L3]].
  apply root_low; try assumption.
  destruct (Rlt_le_dec (1500 * u) (Rabs (fval (lab_l (Y1 /. ty_ w)) - fval (lab_l (Y2 /. ty_ w))))) as [D1|D1]; [auto|].
  destruct (Rlt_le_dec (1500 * u) (Rabs (fval (lab_a (X1 /. tx w) (Y1 /. ty_ w)) - fval (lab_a (X2 /. tx w) (Y2 /. ty_ w))))) as [D2|D2]; [auto|].
  destruct (Rlt_le_dec (1500 * u) (Rabs (fval (lab_b (Y1 /. ty_ w) (V1 /. tz w)) - fval (lab_b (Y2 /. ty_ w) (V2 /. tz w))))) as [D3|D3]; [auto|].
  exfalso. exact (AP' D1 D2 D3).
Qed.
End Space.
End Sep.

Lemma cie76_separates : forall o, accurate_pow o -> accurate_square o -> forall addr s, Ok s = @space_sRGB f32 (F32 o) addr ->
  forall (h : heap f32) p1 c1 t1 i1 p2 c2 t2 i2, at_addr h p1 c1 -> at_addr h p2 c2 -> @wf_color f32 (F32 o) RGB_TRUE c1 -> @wf_color f32 (F32 o) RGB_TRUE c2 ->
  rgb_space c1 = Some i1 -> nth_error (spaces h) i1 = Some s -> rgb_space c2 = Some i2 -> nth_error (spaces h) i2 = Some s ->
  is_bytes t1 -> is_bytes t2 -> holds_bytes t1 c1 -> holds_bytes t2 c2 -> t1 <> t2 ->
  exists x h', @distance f32 (F32 o) Cie76 (Some p1) (Some p2) h = (Ok x, h') /\ is_finite x = true /\ / 16384 <= B2R x.
Proof.
  intros o AP AS addr s Es h p1 c1 t1 i1 p2 c2 t2 i2 H1 H2 W1 W2 E1 N1 E2 N2 B1 B2 K1 K2 NT. destruct (srgb_parts o s addr Es) as [G [OK [nm [w Hw]]]].
  destruct (presets_usable32 o addr (@space_sRGB f32 (F32 o) addr)) as [s' [Es' US]]; [left; reflexivity|]. rewrite <- Es in Es'. apply Ok_inj in Es'. subst s'.
  destruct (separated o AP _ s nm w eq_refl G OK Hw AS h p1 c1 t1 p2 c2 t2 i1 i2 H1 H2 W1 W2 E1 N1 E2 N2 US B1 B2 K1 K2 NT) as [x [h' [R [F L]]]].
  exists x, h'. split; [exact R|]. split; [exact F|]. eapply Rle_trans; [|exact L]. num.
Qed.

(** An oracle that satisfies both hypotheses: the rounded power, and x * x for other squares. *)
Definition both_pow (x y : f32) : f32 := if Rle_dec 0 (fval x) then if Rle_dec (fval x) 2 then ref_pow x y else Bmult mode_NE x x else Bmult mode_NE x x.
Definition both_oracle : oracle := Oracle both_pow (o_cos nan_oracle) (o_sin nan_oracle) (o_atan2 nan_oracle) (o_exp nan_oracle) (o_log10 nan_oracle).
Lemma both_exist : accurate_pow both_oracle /\ accurate_square both_oracle.
Proof.
  assert (AP : accurate_pow both_oracle).
  { intros x y Fx Fy Bx By. cbn [both_oracle o_pow]. unfold both_pow. change (@B2R 24 128) with fval in * . destruct (Rle_dec 0 (fval x)); [|lra]. destruct (Rle_dec (fval x) 2); [|lra]. exact (ref_accurate x y Fx Fy Bx By). }
  split; [exact AP|]. intros x Fx B. change (@B2R 24 128) with fval in * . destruct (fz_val both_oracle 2) as [F2 V2]; [sm|]. pose proof (Rle_0_sqr (fval x)) as Q. unfold Rsqr in Q.
  assert (K : 0 <= fval x <= 2 \/ o_pow both_oracle x (@fz f32 (F32 both_oracle) 2) = Bmult mode_NE x x).
  { cbn [both_oracle o_pow]. unfold both_pow. destruct (Rle_dec 0 (fval x)); [|right; reflexivity]. destruct (Rle_dec (fval x) 2); [left; lra|right; reflexivity]. }
  destruct K as [K|K].
  - destruct (AP x (@fz f32 (F32 both_oracle) 2) Fx F2 K) as [Fp [Z0 Ep]]; [change (@B2R 24 128) with fval; rewrite V2; lra|]. change (@B2R 24 128) with fval in * .
    split; [exact Fp|]. split; [exact Z0|]. destruct (Rle_lt_or_eq_dec 0 (fval x) (proj1 K)) as [P|P].
    + specialize (Ep P). rewrite V2 in Ep. replace 2 with (INR 2) in Ep at 1 2 by (simpl; lra). rewrite !Rpower_pow in Ep by exact P. cbn [pow] in Ep. rewrite Rmult_1_r in Ep. lra.
    + rewrite (Z0 (eq_sym P)), <- P. rewrite Rmult_0_l, Rminus_0_r, Rabs_R0. lra.
  - rewrite K. destruct (Bmult_ok x x (- 2 ^ 20) (2 ^ 20) Fx Fx) as [Fm Vm]; try sm.
    { apply Rabs_le_inv in B. change (IZR (- 2 ^ 20)) with (-1048576). change (IZR (2 ^ 20)) with 1048576. split; [lra|].
      rewrite <- (Rabs_pos_eq (fval x * fval x)) by exact Q. rewrite Rabs_mult. apply Rle_trans with (1024 * 1024); [|lra]. apply Rmult_le_compat; try apply Rabs_pos; apply Rabs_le; exact B. }
    split; [exact Fm|]. rewrite Vm. split; [intros ->; rewrite Rmult_0_l; apply rnd32_0|]. eapply Rle_trans; [apply rnd_err|].
    rewrite (Rabs_pos_eq (fval x * fval x)) by exact Q.
    assert (u * (fval x * fval x) <= / 1048576 * (fval x * fval x)) by (apply Rmult_le_compat_r; [exact Q|num]). unfold tiny. lra.
Qed.
Definition placed (c : color f32) : color f32 := Color (cls c) (ty c) (comps c) (m_alpha c) (m_max c) (m_min c) (Some 0%nat).
Lemma pair_exists o s t1 t2 : is_bytes t1 -> is_bytes t2 -> exists (h : heap f32) c1 c2, at_addr h 0%nat c1 /\ at_addr h 1%nat c2 /\ @wf_color f32 (F32 o) RGB_TRUE c1 /\ @wf_color f32 (F32 o) RGB_TRUE c2 /\
  rgb_space c1 = Some 0%nat /\ rgb_space c2 = Some 0%nat /\ nth_error (spaces h) 0 = Some s /\ holds_bytes t1 c1 /\ holds_bytes t2 c2.
Proof.
  destruct t1 as [[r1 g1] b1]. destruct t2 as [[r2 g2] b2]. intros [Hr1 [Hg1 Hb1]] [Hr2 [Hg2 Hb2]].
  destruct (opaque_exists o r1 g1 b1 Hr1 Hg1 Hb1) as [c1 [W1 [B1 A1]]]. destruct (opaque_exists o r2 g2 b2 Hr2 Hg2 Hb2) as [c2 [W2 [B2 A2]]].
  exists (Heap [placed c1; placed c2] [s]), (placed c1), (placed c2). split; [reflexivity|]. split; [reflexivity|].
  split; [destruct W1; constructor; assumption|]. split; [destruct W2; constructor; assumption|]. do 3 (split; [reflexivity|]). split; assumption.
Qed.
