(** * Brighter 8-bit sRGB colours are brighter in XYZ and Lab (C172) *)
From Coq Require Import ZArith QArith Qreals Qabs Reals Lra Lia List Bool.
From Flocq Require Import Core IEEE754.BinarySingleNaN.
From Verif Require Import Arith Outcome ColorModel GammaModel MatrixModel SpaceModel Heap Converter Calculation Distance F32 F32Facts RArith
  Spec Spec32 Laws NormalForms Alpha8 Core_Proofs Core2_Proofs Core3_Proofs Core4_Proofs Hue32 Spec_Matrix Spec_Conv Spec_Calc Spec_Round
  Conv_Proofs Conv2_Proofs Conv3_Proofs Run_Proofs HueR_Proofs Round_Proofs Round2_Proofs Spec_Error Error_Proofs Error2_Proofs Error3_Proofs Error4_Proofs Error5_Proofs
  Error7_Proofs Error8_Proofs Calc_Proofs Spec_Distance Spec_Rank
  Linear_Proofs Linear2_Proofs Pow_Proofs Curve_Proofs Wide_Proofs Xyz8_Proofs Lab8_Proofs Detour_Proofs Detour2_Proofs Rank_Proofs Sep_Proofs.
Import ListNotations.
Local Open Scope R_scope.
Local Notation fin x := (is_finite x = true).
Local Notation fval := (@B2R 24 128).

(** ** The Lab function rises *)
Lemma fl_rise x y : 0 <= y <= x -> x <= 1 + 40 * u -> x - y <= 3001 / 1000 * (fl x - fl y).
Proof.
  intros H B. pose proof (fl_bounds x ltac:(lra)) as RX. pose proof (fl_bounds y ltac:(lra)) as RY.
  destruct (fl_cases x ltac:(lra)) as [[L E]|[L [P E]]]; destruct (fl_cases y ltac:(lra)) as [[L2 E2]|[L2 [P2 E2]]].
  - rewrite E, E2. unfold k0. lra.
  - lra.
  - pose proof (fl_high x ltac:(lra)) as H1. pose proof (fl_low y ltac:(lra)) as H2.
    pose proof (cubes (fl x) (6 / 29) ltac:(lra) ltac:(lra)) as C. rewrite E in C.
    assert (e0 - y <= 6 / 29 - fl y) by (rewrite E2; unfold e0, k0; unfold e0 in L2; lra). unfold e0 in * . lra.
  - assert (fl y <= fl x) by (apply cube_le; lra). pose proof (cubes (fl x) (fl y) ltac:(lra) ltac:(lra)). lra.
Qed.

Section Mono.
Context (o : oracle) (AP : accurate_pow o).
Local Notation "x +. y" := (@fadd f32 (F32 o) x y) (at level 50, left associativity).
Local Notation "x -. y" := (@fsub f32 (F32 o) x y) (at level 50, left associativity).
Local Notation "x *. y" := (@fmul f32 (F32 o) x y) (at level 40, left associativity).
Local Notation "x /. y" := (@fdiv f32 (F32 o) x y) (at level 40, left associativity).
Local Notation "$ n" := (@fz f32 (F32 o) n) (at level 0).
Local Notation c01 := (@c01 f32 (F32 o)).
Local Notation c100 := (@c100 f32 (F32 o)).
Local Notation there g := (@inverse_gamma_correction f32 (F32 o) g).
Local Notation l q := (lit32 q).
Tactic Notation "lits" ident(HH) ident(FF) constr(c) constr(lo) constr(hi) := let E := fresh in
  pose proof (within_R lo c hi ltac:(vm_compute; reflexivity)) as E; destruct E as [FF HH]; unfold Q2R in HH; cbn [Qnum Qden] in HH.

(** ** The sRGB curve rises *)
Lemma srgb_there v : unitf v -> exists k, 24 / 10 <= k <= 24000001 / 10000000 /\ k = fval (l (24 # 10)) /\
  ((fval v <= 404501 / 10000000 /\ Rabs (fval (c01 (there (@gamma_sRGB f32 (F32 o)) v)) - fval v / (1292 / 100)) <= 5 * u) \/
   (404499 / 10000000 <= fval v /\ exists r, 9 / 100 <= r <= 1 /\ Rabs (r - (fval v + 55 / 1000) / (1055 / 1000)) <= 16 * u /\ Rabs (fval (c01 (there (@gamma_sRGB f32 (F32 o)) v)) - Rpower r k) <= 17 * u)).
Proof.
  intros Uv. rewrite (proj1 (srgb_runs o v Uv)).
  lits B1 F1 (l (4045 # 100000)) (404499 # 10000000)%Q (404501 # 10000000)%Q. set (t1 := l (4045 # 100000)) in * .
  lits B3 F3 (l (1292 # 100)) (129199999 # 10000000)%Q (129200001 # 10000000)%Q. set (m := l (1292 # 100)) in * .
  lits B4 F4 (l (55 # 1000)) (5499999 # 100000000)%Q (5500001 # 100000000)%Q. set (a := l (55 # 1000)) in * .
  lits B5 F5 (l (1055 # 1000)) (10549999 # 10000000)%Q (10550001 # 10000000)%Q. set (b := l (1055 # 1000)) in * .
  lits B6 F6 (l (24 # 10)) (12 # 5)%Q (24000001 # 10000000)%Q. set (e := l (24 # 10)) in * .
  clearbody t1 m a b e. exists (fval e). split; [lra|]. split; [reflexivity|].
  destruct Uv as [Fv Bv]. set (x := fval v) in * .
  destruct (leb_cases v t1 Fv F1) as [[Q1 C1]|[Q1 C1]]; rewrite Q1; clear Q1; fold x in C1.
  - left. split; [lra|].
    assert (N1 : near (v /. m) (x / fval m) (4 * u)).
    { apply near_weaken with (0 + 4 * u); [|lra]. apply (near_quotf o); try assumption; try lra; [apply near_self; assumption|rewrite Rabs_pos_eq; lra]. }
    assert (X1 : x / fval m * fval m = x) by (field; lra). set (w := x / fval m) in * . assert (W0 : 0 <= w <= 4 / 1000) by (split; nra).
    destruct (c01_near_unit o _ _ _ N1 ltac:(lra)) as [_ N2]. apply Rabs_le_inv in N2.
    assert (w * (129199999 / 10000000) <= x <= w * (129200001 / 10000000)) by (rewrite <- X1; split; apply Rmult_le_compat_l; lra).
    change (@B2R 24 128) with fval in * . apply Rabs_le. num.
  - right. split; [lra|]. set (wf := (v +. a) /. b) in * .
    assert (N1 : near wf ((x + fval a) / fval b) (8 * u)).
    { apply near_weaken with (0 + 0 + u * (2 + (0 + 0)) + tiny + 4 * u); [|num]. apply (near_quotf o); try assumption; try lra; [|rewrite Rabs_pos_eq; lra|num].
      apply near_add; try (apply near_self; assumption); [rewrite Rabs_pos_eq; lra|lra]. }
    assert (X1 : (x + fval a) / fval b * fval b = x + fval a) by (field; lra). set (w := (x + fval a) / fval b) in * .
    assert (W0 : 90471 / 1000000 <= w <= 1 + 3 * u) by (split; unfold u in *; nra).
    destruct N1 as [Fw Ew]. apply Rabs_le_inv in Ew. exists (Rmin (fval wf) 1). set (r := Rmin (fval wf) 1).
    assert (Rr : w - 12 * u <= r <= w + 12 * u) by (unfold r, Rmin; destruct (Rle_dec (fval wf) 1); num).
    assert (R1 : r <= 1) by apply Rmin_r. assert (R0 : 9 / 100 <= r) by num. split; [lra|]. split.
    + assert (w * (10549999 / 10000000) <= x + fval a <= w * (10550001 / 10000000)) by (rewrite <- X1; split; apply Rmult_le_compat_l; lra). apply Rabs_le. num.
    + destruct (pow_unit o AP wf e Fw ltac:(num) F6 ltac:(lra)) as [_ NP]. exact NP.
Qed.
(** the pieces rise, and meet *)
Lemma piece_low k : 24 / 10 <= k <= 24000001 / 10000000 -> 3128 / 1000000 <= Rpower (9047 / 100000) k.
Proof.
  intros K. apply Rle_trans with (Rpower (9047 / 100000) (INR 12 / INR 5) * (1 - 40 * u)); [|apply Rp_tight; [lra|simpl INR; num]].
  assert (T : 3129 / 1000000 <= Rpower (9047 / 100000) (INR 12 / INR 5)) by (apply Rp_ge_q; [lra|lra|lia|lra]). num.
Qed.
Lemma piece_rise k a b : 24 / 10 <= k <= 24000001 / 10000000 -> 9 / 100 <= a <= b -> b <= 1 -> 685 / 10000 * (b - a) <= Rpower b k - Rpower a k.
Proof.
  intros K H B. eapply Rle_trans; [|apply (Rp_step2 a b k); lra].
  assert (P : 381 / 1000 <= Rpower b (k - 2)).
  { apply Rle_trans with (Rpower (9 / 100) (k - 2)); [|apply Rp_le_base; lra]. apply Rle_trans with (Rpower (9 / 100) (INR 2 / INR 5) * (1 - 40 * u)); [|apply Rp_tight; [lra|simpl INR; num]].
    assert (T : 38101 / 100000 <= Rpower (9 / 100) (INR 2 / INR 5)) by (apply Rp_ge_q; [lra|lra|lia|lra]). num. }
  replace (b * b - a * a) with ((b + a) * (b - a)) by ring. rewrite <- Rmult_assoc. apply Rmult_le_compat_r; [lra|].
  apply Rle_trans with (381 / 1000 * (18 / 100)); [lra|]. apply Rmult_le_compat; lra.
Qed.
Lemma srgb_rises v w : unitf v -> unitf w -> fval v + / 256 <= fval w -> 
  fval (c01 (there (@gamma_sRGB f32 (F32 o)) v)) + 4000 * u <= fval (c01 (there (@gamma_sRGB f32 (F32 o)) w)).
Proof.
  intros Uv Uw H. destruct (srgb_there v Uv) as [k [K [Ek Cv]]]. destruct (srgb_there w Uw) as [k' [_ [Ek' Cw]]]. rewrite <- Ek in Ek'. subst k'. clear Ek.
  destruct Uv as [_ Bv]. destruct Uw as [_ Bw]. change (@B2R 24 128) with fval in * . set (x := fval v) in * . set (y := fval w) in * .
  pose proof (piece_low k K) as PL.
  destruct Cv as [[Lv Ev]|[Lv [r [Rr [Er Ev]]]]]; destruct Cw as [[Lw Ew]|[Lw [q [Rq [Eq Ew]]]]]; apply Rabs_le_inv in Ev; apply Rabs_le_inv in Ew; try apply Rabs_le_inv in Er; try apply Rabs_le_inv in Eq.
  - num.
  - pose proof (piece_rise k (9047 / 100000) q K) as PR. assert (9047 / 100000 <= q) by num. specialize (PR ltac:(lra) ltac:(lra)). num.
  - num.
  - pose proof (piece_rise k r q K) as PR. assert (r <= q) by num. specialize (PR ltac:(lra) ltac:(lra)). num.
Qed.
Lemma srgb_same v w : unitf v -> unitf w -> fval v = fval w -> fval (c01 (there (@gamma_sRGB f32 (F32 o)) v)) = fval (c01 (there (@gamma_sRGB f32 (F32 o)) w)).
Proof.
  intros Uv Uw E. destruct (Req_dec (fval v) 0) as [Z0|NZ].
  - rewrite (linear_zero o v Uv Z0), (linear_zero o w Uw); [reflexivity|lra].
  - assert (v = w); [|subst; reflexivity]. destruct Uv as [Fv _]. destruct Uw as [Fw _]. apply B2R_inj; [| |exact E].
    + destruct v as [s|s| |s k e B]; try discriminate Fv; [exfalso; apply NZ; reflexivity|reflexivity].
    + destruct w as [s|s| |s k e B]; try discriminate Fw; [exfalso; apply NZ; rewrite E; reflexivity|reflexivity].
Qed.
Lemma byte_rises v w m n : unitf v -> unitf w -> is_byte m -> is_byte n -> fval v = q255 m -> fval w = q255 n -> (m <= n)%Z ->
  let d := fval (c01 (there (@gamma_sRGB f32 (F32 o)) w)) - fval (c01 (there (@gamma_sRGB f32 (F32 o)) v)) in 0 <= d /\ ((m < n)%Z -> 4000 * u <= d).
Proof.
  intros Uv Uw Hm Hn Ev Ew L. destruct (Z.eq_dec m n) as [E|N].
  - rewrite (srgb_same v w Uv Uw); [cbv zeta; split; [lra|lia]|congruence].
  - assert (G : fval v + / 256 <= fval w).
    { rewrite Ev, Ew. destruct (q255_near m Hm) as [Km _]. destruct (q255_near n Hn) as [Kn _]. apply Rabs_le_inv in Km, Kn. assert (IZR m + 1 <= IZR n) by (rewrite <- plus_IZR; apply IZR_le; lia). num. }
    pose proof (srgb_rises v w Uv Uw G). cbv zeta. split; [num|intros _; lra].
Qed.

(** ** Tristimulus values rise *)
Lemma dot_rise a b c A k x1 y1 z1 x2 y2 z2 : in3 a b c A = true -> (k <= a)%Z -> (k <= b)%Z -> (k <= c)%Z -> (1 <= k)%Z -> x1 <= x2 -> y1 <= y2 -> z1 <= z2 ->
  (4000 * u <= x2 - x1 \/ 4000 * u <= y2 - y1 \/ 4000 * u <= z2 - z1) -> (IZR k - 1) / 100000 * (4000 * u) <= lin (r3 A) (x2, y2, z2) - lin (r3 A) (x1, y1, z1).
Proof.
  destruct A as [[p q] r]. unfold in3. rewrite !andb_true_iff. intros [[Q0 Q1] Q2] Ha Hb Hc Hk Lx Ly Lz G. apply inq_R in Q0, Q1, Q2. cbn [r3 lin]. rewrite minus_IZR in Q0, Q1, Q2.
  assert (1 <= IZR k) by (apply IZR_le; lia). assert (IZR k <= IZR a) by (apply IZR_le; lia). assert (IZR k <= IZR b) by (apply IZR_le; lia). assert (IZR k <= IZR c) by (apply IZR_le; lia).
  destruct Q0 as [_ [Q0 _]]. destruct Q1 as [_ [Q1 _]]. destruct Q2 as [_ [Q2 _]].
  set (K := (IZR k - 1) / 100000) in * . assert (0 <= K) by (unfold K; lra).
  assert (M : forall t d, K <= t -> 0 <= d -> K * d <= t * d) by (intros; apply Rmult_le_compat_r; lra).
  pose proof (M (fval p) (x2 - x1) ltac:(unfold K; lra) ltac:(lra)). pose proof (M (fval q) (y2 - y1) ltac:(unfold K; lra) ltac:(lra)). pose proof (M (fval r) (z2 - z1) ltac:(unfold K; lra) ltac:(lra)).
  apply Rle_trans with (K * ((x2 - x1) + (y2 - y1) + (z2 - z1))); [|lra]. apply Rmult_le_compat_l; [assumption|]. lra.
Qed.

Section Space.
Variables (gm : gamma f32) (s : space_def f32) (nm : nat) (w : white_point f32).
Hypothesis (Gg : gm = @gamma_sRGB f32 (F32 o)) (Gm : s_gamma s = Some gm) (OK : detour_ok s = true) (Hw : s_white s = Some (nm, w)).
Lemma seen_rises t1 t2 X1 Y1 V1 X2 Y2 V2 : is_bytes t1 -> is_bytes t2 -> seen o gm s w t1 X1 Y1 V1 -> seen o gm s w t2 X2 Y2 V2 -> bytes_le t1 t2 -> t1 <> t2 ->
  fval X1 < fval X2 /\ fval Y1 + 280 * u <= fval Y2 /\ fval V1 < fval V2.
Proof.
  destruct t1 as [[r1 g1] b1]. destruct t2 as [[r2 g2] b2]. intros [Hr1 [Hg1 Hb1]] [Hr2 [Hg2 Hb2]].
  intros [x1 [y1 [z1 [Ux1 [Uy1 [Uz1 [Ex1 [Ey1 [Ez1 LF1]]]]]]]]] [x2 [y2 [z2 [Ux2 [Uy2 [Uz2 [Ex2 [Ey2 [Ez2 LF2]]]]]]]]] [Lr [Lg Lb]] NT.
  rewrite Gg in LF1, LF2.
  pose proof (byte_rises x1 x2 r1 r2 Ux1 Ux2 Hr1 Hr2 Ex1 Ex2 Lr) as [Pr Sr]. pose proof (byte_rises y1 y2 g1 g2 Uy1 Uy2 Hg1 Hg2 Ey1 Ey2 Lg) as [Pg Sg]. pose proof (byte_rises z1 z2 b1 b2 Uz1 Uz2 Hb1 Hb2 Ez1 Ez2 Lb) as [Pb Sb].
  destruct (lf_lin _ _ _ _ _ _ _ _ _ LF1) as [A0 [A1 [A2 [EA [I0 [I1 [I2 [[_ N0] [[_ N1] [_ N2]]]]]]]]]].
  destruct (lf_lin _ _ _ _ _ _ _ _ _ LF2) as [A0' [A1' [A2' [EA' [_ [_ [_ [[_ M0] [[_ M1] [_ M2]]]]]]]]]]. rewrite EA in EA'. injection EA' as <- <- <-.
  unfold r3 in N0, N1, N2, M0, M1, M2. fold (r3 A0) (r3 A1) (r3 A2) in * . change (@B2R 24 128) with fval in * .
  match type of Pr with 0 <= ?p - ?q => set (a2 := p) in *; set (a1 := q) in * end. match type of Pg with 0 <= ?p - ?q => set (c2 := p) in *; set (c1 := q) in * end. match type of Pb with 0 <= ?p - ?q => set (d2 := p) in *; set (d1 := q) in * end.
  assert (G : 4000 * u <= a2 - a1 \/ 4000 * u <= c2 - c1 \/ 4000 * u <= d2 - d1).
  { destruct (Z.eq_dec r1 r2) as [->|E1]; [|left; apply Sr; lia]. destruct (Z.eq_dec g1 g2) as [->|E2]; [|right; left; apply Sg; lia]. destruct (Z.eq_dec b1 b2) as [->|E3]; [congruence|right; right; apply Sb; lia]. }
  pose proof (dot_rise _ _ _ _ 18043 a1 c1 d1 a2 c2 d2 I0 ltac:(lia) ltac:(lia) ltac:(lia) ltac:(lia) ltac:(lra) ltac:(lra) ltac:(lra) G) as D0.
  pose proof (dot_rise _ _ _ _ 7217 a1 c1 d1 a2 c2 d2 I1 ltac:(lia) ltac:(lia) ltac:(lia) ltac:(lia) ltac:(lra) ltac:(lra) ltac:(lra) G) as D1.
  pose proof (dot_rise _ _ _ _ 1933 a1 c1 d1 a2 c2 d2 I2 ltac:(lia) ltac:(lia) ltac:(lia) ltac:(lia) ltac:(lra) ltac:(lra) ltac:(lra) G) as D2.
  apply Rabs_le_inv in N0, N1, N2, M0, M1, M2. num.
Qed.

Lemma xyz_values (h : heap f32) p c i t : at_addr h p c -> @wf_color f32 (F32 o) RGB_TRUE c -> rgb_space c = Some i -> nth_error (spaces h) i = Some s -> is_bytes t -> holds_bytes t c ->
  exists a h1 m X Y V, @to_xyz f32 (F32 o) (Some p) h = (Ok (Some a), h1) /\ at_addr h1 a m /\ comps m = [X; Y; V] /\ seen o gm s w t X Y V.
Proof.
  destruct t as [[r g] b]. intros Hp W Es Hs [Hr [Hg Hb]] HB.
  destruct (forth o gm h p c i s nm w Hp W Es Hs Gm OK Hw r g b Hr Hg Hb HB) as [x [y [z [Ux [Uy [Uz [Vx [Vy [Vz [q [h1 [m [GD K]]]]]]]]]]]]].
  destruct GD as [Hm [SP [X0 [Y0 [V0 [Em LF]]]]]].
  assert (D1 : dispatches (@to_xyz f32 (F32 o)) RGB_TRUE (@rgb_true_to_xyz f32 (F32 o))) by disp.
  exists q, h1, m, (c100 X0), (c100 Y0), (c100 V0). split.
  { rewrite (D1 h p c Hp (wf_ty _ _ W)). specialize (K (fun q => ret q)). unfold rgb_true_to_xyz. unfold bind, ret in * . revert K.
    destruct (@rgb_true_to_rgb_deep f32 (F32 o) (Some p) h) as [[v| | |] h']; try discriminate.
    destruct (@rgb_deep_to_xyz f32 (F32 o) v h') as [[v'| | |] h'']; try discriminate. auto. }
  split; [exact Hm|]. split; [rewrite Em; reflexivity|]. exists x, y, z. auto 12.
Qed.

Section Two.
Variables (h1 h2 : heap f32) (p1 p2 i1 i2 : nat) (c1 c2 : color f32) (t1 t2 : bytes3).
Hypothesis (H1 : at_addr h1 p1 c1) (H2 : at_addr h2 p2 c2) (W1 : @wf_color f32 (F32 o) RGB_TRUE c1) (W2 : @wf_color f32 (F32 o) RGB_TRUE c2)
  (E1 : rgb_space c1 = Some i1) (S1 : nth_error (spaces h1) i1 = Some s) (E2 : rgb_space c2 = Some i2) (S2 : nth_error (spaces h2) i2 = Some s)
  (B1 : is_bytes t1) (B2 : is_bytes t2) (K1 : holds_bytes t1 c1) (K2 : holds_bytes t2 c2) (LE : bytes_le t1 t2) (NE : t1 <> t2).
Lemma xyz_rises : yields (@to_xyz f32 (F32 o)) h1 p1 (fun m1 => yields (@to_xyz f32 (F32 o)) h2 p2 (fun m2 =>
  exists x1 y1 z1 x2 y2 z2, comps m1 = [x1; y1; z1] /\ comps m2 = [x2; y2; z2] /\ rising x1 x2 /\ rising y1 y2 /\ rising z1 z2)).
Proof.
  destruct (xyz_values h1 p1 c1 i1 t1 H1 W1 E1 S1 B1 K1) as [a1 [k1 [m1 [X1 [Y1 [V1 [R1 [A1 [C1 N1]]]]]]]]].
  destruct (xyz_values h2 p2 c2 i2 t2 H2 W2 E2 S2 B2 K2) as [a2 [k2 [m2 [X2 [Y2 [V2 [R2 [A2 [C2 N2]]]]]]]]].
  exists a1, m1, k1. split; [exact R1|]. split; [exact A1|]. exists a2, m2, k2. split; [exact R2|]. split; [exact A2|].
  exists X1, Y1, V1, X2, Y2, V2. split; [exact C1|]. split; [exact C2|].
  destruct (seen_rises t1 t2 X1 Y1 V1 X2 Y2 V2 B1 B2 N1 N2 LE NE) as [RX [RY RV]].
  destruct t1 as [[r1 g1] b1]. destruct t2 as [[r2 g2] b2]. destruct N1 as [x1 [y1 [z1 [_ [_ [_ [_ [_ [_ LF1]]]]]]]]]. destruct N2 as [x2 [y2 [z2 [_ [_ [_ [_ [_ [_ LF2]]]]]]]]].
  destruct (lf_x _ _ _ _ _ _ _ _ _ LF1) as [FX1 _]. destruct (lf_y _ _ _ _ _ _ _ _ _ LF1) as [FY1 _]. destruct (lf_z _ _ _ _ _ _ _ _ _ LF1) as [FV1 _].
  destruct (lf_x _ _ _ _ _ _ _ _ _ LF2) as [FX2 _]. destruct (lf_y _ _ _ _ _ _ _ _ _ LF2) as [FY2 _]. destruct (lf_z _ _ _ _ _ _ _ _ _ LF2) as [FV2 _].
  unfold rising. change (@B2R 24 128) with fval. repeat split; try assumption. num.
Qed.
Lemma lab_rises : yields (@to_lab f32 (F32 o)) h1 p1 (fun m1 => yields (@to_lab f32 (F32 o)) h2 p2 (fun m2 =>
  exists l1 l2, nth_error (comps m1) 0 = Some l1 /\ nth_error (comps m2) 0 = Some l2 /\ rising l1 l2)).
Proof.
  destruct (lab_values o gm s nm w Gm OK Hw h1 p1 c1 i1 t1 H1 W1 E1 S1 B1 K1) as [a1 [k1 [m1 [X1 [Y1 [V1 [R1 [A1 [C1 N1]]]]]]]]].
  destruct (lab_values o gm s nm w Gm OK Hw h2 p2 c2 i2 t2 H2 W2 E2 S2 B2 K2) as [a2 [k2 [m2 [X2 [Y2 [V2 [R2 [A2 [C2 N2]]]]]]]]].
  exists a1, m1, k1. split; [exact R1|]. split; [exact A1|]. exists a2, m2, k2. split; [exact R2|]. split; [exact A2|].
  exists (lab_l o (Y1 /. ty_ w)), (lab_l o (Y2 /. ty_ w)). rewrite C1, C2. split; [reflexivity|]. split; [reflexivity|].
  destruct (seen_rises t1 t2 X1 Y1 V1 X2 Y2 V2 B1 B2 N1 N2 LE NE) as [_ [RY _]].
  destruct t1 as [[r1 g1] b1]. destruct t2 as [[r2 g2] b2]. destruct N1 as [x1 [y1 [z1 [_ [_ [_ [_ [_ [_ LF1]]]]]]]]]. destruct N2 as [x2 [y2 [z2 [_ [_ [_ [_ [_ [_ LF2]]]]]]]]].
  pose proof (lf_wx _ _ _ _ _ _ _ _ _ LF1) as [FX1 [BX1 QX1]]; pose proof (lf_wy _ _ _ _ _ _ _ _ _ LF1) as [FY1 [BY1 QY1]]; pose proof (lf_wz _ _ _ _ _ _ _ _ _ LF1) as [FV1 [BV1 QV1]].
  pose proof (lf_wx _ _ _ _ _ _ _ _ _ LF2) as [FX2 [BX2 QX2]]; pose proof (lf_wy _ _ _ _ _ _ _ _ _ LF2) as [FY2 [BY2 QY2]]; pose proof (lf_wz _ _ _ _ _ _ _ _ _ LF2) as [FV2 [BV2 QV2]].
  pose proof (lf_diff _ _ _ _ _ _ _ _ _ LF1) as [D1 [D2 [D3 D4]]]; pose proof (lf_diff _ _ _ _ _ _ _ _ _ LF2) as [D5 [D6 [D7 D8]]].
  pose proof (lf_white _ _ _ _ _ _ _ _ _ LF1) as [_ [_ [_ [W3 _]]]].
  destruct (lab_near o AP _ _ _ FX1 FY1 FV1 BX1 BY1 BV1 D1 D2 D3 D4) as [[FL1 NL1] _].
  destruct (lab_near o AP _ _ _ FX2 FY2 FV2 BX2 BY2 BV2 D5 D6 D7 D8) as [[FL2 NL2] _].
  split; [exact FL1|]. split; [exact FL2|]. change (@B2R 24 128) with fval in * . clear - RY QY1 QY2 BY1 BY2 W3 NL1 NL2.
  set (q1 := fval (Y1 /. ty_ w)) in * . set (q2 := fval (Y2 /. ty_ w)) in * . set (T := fval (ty_ w)) in * .
  apply Rabs_le_inv in QY1, QY2, NL1, NL2.
  assert (G : 275 * u <= q2 - q1).
  { apply Rnot_lt_le. intros C. assert ((q2 - q1) * T <= 275 * u * (10001 / 10000)); [|assert (E : (q2 - q1) * T = q2 * T - q1 * T) by ring; num].
    apply Rle_trans with (275 * u * T); [apply Rmult_le_compat_r; lra|apply Rmult_le_compat_l; num]. }
  pose proof (fl_rise q2 q1 ltac:(num) ltac:(lra)) as FR. num.
Qed.
End Two.
End Space.
End Mono.

Lemma srgb_xyz_rises : forall o, accurate_pow o -> forall addr s, Ok s = @space_sRGB f32 (F32 o) addr ->
  forall (h1 h2 : heap f32) p1 c1 t1 i1 p2 c2 t2 i2, at_addr h1 p1 c1 -> at_addr h2 p2 c2 -> @wf_color f32 (F32 o) RGB_TRUE c1 -> @wf_color f32 (F32 o) RGB_TRUE c2 ->
  rgb_space c1 = Some i1 -> nth_error (spaces h1) i1 = Some s -> rgb_space c2 = Some i2 -> nth_error (spaces h2) i2 = Some s ->
  is_bytes t1 -> is_bytes t2 -> holds_bytes t1 c1 -> holds_bytes t2 c2 -> bytes_le t1 t2 -> t1 <> t2 ->
  yields (@to_xyz f32 (F32 o)) h1 p1 (fun m1 => yields (@to_xyz f32 (F32 o)) h2 p2 (fun m2 =>
    exists x1 y1 z1 x2 y2 z2, comps m1 = [x1; y1; z1] /\ comps m2 = [x2; y2; z2] /\ rising x1 x2 /\ rising y1 y2 /\ rising z1 z2)).
Proof.
  intros o AP addr s Es h1 h2 p1 c1 t1 i1 p2 c2 t2 i2. intros. destruct (srgb_parts o s addr Es) as [G [OK [nm [w Hw]]]].
  apply (xyz_rises o AP _ s nm w eq_refl G OK Hw h1 h2 p1 p2 i1 i2 c1 c2 t1 t2); assumption.
Qed.
Lemma srgb_lab_rises : forall o, accurate_pow o -> forall addr s, Ok s = @space_sRGB f32 (F32 o) addr ->
  forall (h1 h2 : heap f32) p1 c1 t1 i1 p2 c2 t2 i2, at_addr h1 p1 c1 -> at_addr h2 p2 c2 -> @wf_color f32 (F32 o) RGB_TRUE c1 -> @wf_color f32 (F32 o) RGB_TRUE c2 ->
  rgb_space c1 = Some i1 -> nth_error (spaces h1) i1 = Some s -> rgb_space c2 = Some i2 -> nth_error (spaces h2) i2 = Some s ->
  is_bytes t1 -> is_bytes t2 -> holds_bytes t1 c1 -> holds_bytes t2 c2 -> bytes_le t1 t2 -> t1 <> t2 ->
  yields (@to_lab f32 (F32 o)) h1 p1 (fun m1 => yields (@to_lab f32 (F32 o)) h2 p2 (fun m2 =>
    exists l1 l2, nth_error (comps m1) 0 = Some l1 /\ nth_error (comps m2) 0 = Some l2 /\ rising l1 l2)).
Proof.
  intros o AP addr s Es h1 h2 p1 c1 t1 i1 p2 c2 t2 i2. intros. destruct (srgb_parts o s addr Es) as [G [OK [nm [w Hw]]]].
  apply (lab_rises o AP _ s nm w eq_refl G OK Hw h1 h2 p1 p2 i1 i2 c1 c2 t1 t2); assumption.
Qed.
