(** * 8-bit sRGB colours to xyY or Lab and back in binary32 (C157, C158) *)
From Coq Require Import ZArith QArith Qreals Qabs Reals Lra Lia List Bool.
From Flocq Require Import Core IEEE754.BinarySingleNaN.
From Verif Require Import Arith Outcome ColorModel GammaModel MatrixModel SpaceModel Heap Converter F32 F32Facts RArith
  Spec Spec32 Laws NormalForms Alpha8 Core_Proofs Core2_Proofs Core3_Proofs Core4_Proofs Hue32 Spec_Matrix Spec_Conv Spec_Round
  Conv_Proofs Conv2_Proofs Run_Proofs HueR_Proofs Round_Proofs Round2_Proofs Spec_Error Error_Proofs Error2_Proofs Error3_Proofs Error4_Proofs
  Error7_Proofs Error8_Proofs Linear_Proofs Linear2_Proofs Pow_Proofs Curve_Proofs Wide_Proofs Xyz8_Proofs PowRef_Proofs Lab8_Proofs Xyy8_Proofs Detour_Proofs.
Import ListNotations.
Local Open Scope R_scope.
Local Notation fin x := (is_finite x = true).

Section Run.
Context (o : oracle) (AP : accurate_pow o).
Local Notation "x +. y" := (@fadd f32 (F32 o) x y) (at level 50, left associativity).
Local Notation "x -. y" := (@fsub f32 (F32 o) x y) (at level 50, left associativity).
Local Notation "x *. y" := (@fmul f32 (F32 o) x y) (at level 40, left associativity).
Local Notation "x /. y" := (@fdiv f32 (F32 o) x y) (at level 40, left associativity).
Local Notation "$ n" := (@fz f32 (F32 o) n) (at level 0).
Local Notation c01 := (@c01 f32 (F32 o)).
Local Notation c100 := (@c100 f32 (F32 o)).
Local Notation there := (@inverse_gamma_correction f32 (F32 o) (@gamma_sRGB f32 (F32 o))).
Local Notation back := (@gamma_correction f32 (F32 o) (@gamma_sRGB f32 (F32 o))).
Local Notation l q := (lit32 q).
Tactic Notation "lits" ident(HH) ident(FF) constr(c) constr(lo) constr(hi) := let E := fresh in
  pose proof (within_R lo c hi ltac:(vm_compute; reflexivity)) as E; destruct E as [FF HH]; unfold Q2R in HH; cbn [Qnum Qden] in HH.

(** ** The linear values of the bytes *)
Lemma linear_zero v : unitf v -> fval v = 0 -> fval (c01 (there v)) = 0.
Proof.
  intros U E. rewrite (proj1 (srgb_runs o v U)). lits B1 F1 (l (4045 # 100000)) (404499 # 10000000)%Q (404501 # 10000000)%Q.
  lits B3 F3 (l (1292 # 100)) (129199999 # 10000000)%Q (129200001 # 10000000)%Q.
  destruct (leb_cases v (l (4045 # 100000)) (proj1 U) F1) as [[-> C]|[_ C]]; [|lra].
  destruct (Bdiv_ok v (l (1292 # 100)) 0 0 (proj1 U) F3 ltac:(lra) ltac:(sm) ltac:(sm)) as [F V]; [rewrite E; unfold Rdiv; rewrite Rmult_0_l; lra|].
  rewrite E in V. unfold Rdiv in V. rewrite Rmult_0_l, rnd32_0 in V.
  assert (N : near (v /. l (1292 # 100)) 0 0) by (split; [exact F|change (fval (v /. l (1292 # 100))) with (fval (Bdiv mode_NE v (l (1292 # 100)))); rewrite V, Rminus_0_r, Rabs_R0; lra]).
  pose proof (near_range _ _ _ (c01_near_unit o _ _ _ N ltac:(lra))). lra.
Qed.
Lemma linear_pos v : unitf v -> 39 / 10000 <= fval v -> 1 / 10000 <= fval (c01 (there v)).
Proof.
  intros U P. destruct (Rle_lt_dec (1 / 10000) (fval (c01 (there v)))) as [K|K]; [exact K|exfalso].
  pose proof (c01_unit o (there v)) as UL. set (L := c01 (there v)) in * .
  assert (N : near L (fval L) (1100 * u)) by (eapply near_weaken; [apply near_self, UL|num]).
  pose proof (near_range _ _ _ (srgb_wide o AP v L U UL N)) as R. revert R. rewrite (proj2 (srgb_runs o L UL)).
  lits B2 F2 (l (31308 # 10000000)) (31307999 # 10000000000)%Q (31308001 # 10000000000)%Q.
  lits B3 F3 (l (1292 # 100)) (129199999 # 10000000)%Q (129200001 # 10000000)%Q.
  destruct (leb_cases L (l (31308 # 10000000)) (proj1 UL) F2) as [[-> C]|[_ C]]; [|lra].
  set (m := l (1292 # 100)) in * . destruct UL as [FL BL].
  assert (NM : near (m *. L) (fval m * fval L) (20 * u)).
  { eapply near_weaken; [apply (near_mul o m L (fval m) (fval L) 0 0 (fval m) 1 (fval m * 1)); try (apply near_self; assumption); try (rewrite Rabs_pos_eq; nra); lra|num]. }
  assert (MB : 0 <= fval m * fval L <= 1293 / 1000000) by (split; [apply Rmult_le_pos; lra|]; apply Rle_trans with (1293 / 100 * (1 / 10000)); [apply Rmult_le_compat; lra|lra]).
  pose proof (near_range _ _ _ (c01_near_unit o _ _ _ NM ltac:(lra))) as Q. intros R. unfold keep_err, step in R. num.
Qed.
Lemma linear_byte v n : unitf v -> (0 <= n <= 255)%Z -> fval v = q255 n -> (n = 0%Z /\ fval (c01 (there v)) = 0) \/ 1 / 10000 <= fval (c01 (there v)).
Proof.
  intros U Hn E. destruct (Z.eq_dec n 0) as [->|NZ].
  - left. split; [reflexivity|]. apply linear_zero; [exact U|]. rewrite E. unfold q255. replace (0 / 255) with 0 by lra. apply rnd32_0.
  - right. apply linear_pos; [exact U|]. rewrite E. destruct (q255_near n Hn) as [K _]. apply Rabs_le_inv in K. assert (1 <= IZR n) by (apply IZR_le; lia). num.
Qed.

(** ** Library calls *)
Section Call.
Variable (gm : gamma f32).
Hypothesis (Gg : gm = @gamma_sRGB f32 (F32 o)).
Local Notation thr := (@inverse_gamma_correction f32 (F32 o) gm).
Local Notation bck := (@gamma_correction f32 (F32 o) gm).
Lemma wide v L : unitf v -> unitf L -> near L (fval (c01 (thr v))) (1100 * u) -> near (c01 (bck L)) (fval v) keep_err.
Proof. rewrite Gg. exact (srgb_wide o AP v L). Qed.
Variables (h : heap f32) (p : nat) (c : color f32) (i : nat) (s : space_def f32) (nm : nat) (w : white_point f32).
Hypothesis (Hp : at_addr h p c) (W : @wf_color f32 (F32 o) RGB_TRUE c) (Es : rgb_space c = Some i) (Hs : nth_error (spaces h) i = Some s)
  (Gm : s_gamma s = Some gm) (OK : detour_ok s = true) (Hw : s_white s = Some (nm, w)).
Variables (r g b a : Z).
Hypothesis (Hr : (0 <= r <= 255)%Z) (Hg : (0 <= g <= 255)%Z) (Hb : (0 <= b <= 255)%Z) (Ha : (0 <= a <= 255)%Z).
Hypothesis (HB : has_bytes r g b c) (Ca : is_value (@alpha f32 (F32 o) c) (IZR a)).

Lemma white_run (h' : heap f32) c' : rgb_space c' = Some i -> nth_error (spaces h') i = Some s -> @load_white f32 c' h' = (Ok w, h').
Proof. intros E H. unfold load_white, bind, load_space. rewrite E, H, Hw. reflexivity. Qed.

(** the XYZ colour of c, and what is known about it *)
Definition good (x y z : f32) (m : color f32) (h1 : heap f32) (q : nat) : Prop :=
  at_addr h1 q m /\ spaces h1 = spaces h /\ exists X Y V, m = Color XYZ XYZ [c100 X; c100 Y; c100 V] (@alpha f32 (F32 o) c /. $255) $100 $0 (rgb_space c) /\
    linear_facts o s w (c01 (thr x)) (c01 (thr y)) (c01 (thr z)) (c100 X) (c100 Y) (c100 V).
Lemma good_wf x y z m h1 q : good x y z m h1 q -> @wf_color f32 (F32 o) XYZ m.
Proof.
  intros [_ [_ [X [Y [V [-> _]]]]]]. destruct (xyz_made (AF := F32 o) X Y V (@alpha f32 (F32 o) c /. $255) (rgb_space c)) as [m' [E [Wm _]]].
  rewrite xyz_nf in E. apply Ok_inj in E. rewrite E. exact Wm.
Qed.
Lemma forth : exists x y z, unitf x /\ unitf y /\ unitf z /\ fval x = q255 r /\ fval y = q255 g /\ fval z = q255 b /\
  exists q h1 m, good x y z m h1 q /\
    forall (k : ptr -> M f32 ptr), bind (@rgb_true_to_rgb_deep f32 (F32 o) (Some p)) (fun q => bind (@rgb_deep_to_xyz f32 (F32 o) q) k) h = k (Some q) h1.
Proof.
  destruct HB as [_ [Cr [Cg Cb]]]. destruct (comps3 c (wf_len _ _ W)) as [x [y [z Ec]]].
  destruct Cr as [x' [Ex Vx]]. destruct Cg as [y' [Ey Vy]]. destruct Cb as [z' [Ez Vz]].
  rewrite Ec in Ex, Ey, Ez. cbn [nth_error] in Ex, Ey, Ez. injection Ex as <-. injection Ey as <-. injection Ez as <-.
  pose proof (@rgb_true_to_rgb_deep_ok f32 (F32 o) _ _) as L1.
  assert (E1 : exists c1, @rgb_true_to_rgb_deep_f f32 (F32 o) c = Ok c1 /\ comps c1 = [c01 (x /. $255); c01 (y /. $255); c01 (z /. $255)] /\
    m_alpha c1 = @alpha f32 (F32 o) c /. $255 /\ rgb_space c1 = rgb_space c).
  { unfold rgb_true_to_rgb_deep_f, with3. rewrite Ec, rgb_deepcolor_nf. eexists. repeat split; reflexivity. }
  destruct E1 as [c1 [E1 [C1 [A1 S1]]]].
  assert (W1 : @wf_color f32 (F32 o) RGB_DEEP c1) by (destruct (L1 c W) as [m' [E [Wm _]]]; congruence).
  destruct (byte_q o x r Hr Vx) as [_ Qx]. destruct (byte_q o y g Hg Vy) as [_ Qy]. destruct (byte_q o z b Hb Vz) as [_ Qz].
  exists (c01 (x /. $255)), (c01 (y /. $255)), (c01 (z /. $255)). do 3 (split; [apply c01_unit|]). split; [exact Qx|]. split; [exact Qy|]. split; [exact Qz|].
  set (x0 := c01 (x /. $255)) in * . set (y0 := c01 (y /. $255)) in * . set (z0 := c01 (z /. $255)) in * .
  assert (H1 : at_addr (pushed h c1) (length (colors h)) c1) by apply at_new. assert (Es1 : rgb_space c1 = Some i) by congruence.
  destruct (detour_facts o s nm w OK Hw (c01 (thr x0)) (c01 (thr y0)) (c01 (thr z0)) (c01_unit o _) (c01_unit o _) (c01_unit o _)) as [X [Y [V [M LF]]]].
  assert (Cc : comps (@corrected f32 (F32 o) thr c1) = [c01 (thr x0); c01 (thr y0); c01 (thr z0)]).
  { unfold corrected, with_comps. cbn [comps]. rewrite C1. cbn [map]. rewrite (wf_max _ _ W1), (wf_min _ _ W1). reflexivity. }
  pose (h1 := Heap (upd (length (colors h)) (@corrected f32 (F32 o) thr c1) (colors (pushed h c1)) ++ [Color XYZ XYZ [c100 X; c100 Y; c100 V] (m_alpha c1) $100 $0 (rgb_space c1)]) (spaces h)).
  exists (length (colors (pushed h c1))), h1. eexists. split.
  - split; [|split; [reflexivity|exists X, Y, V; split; [reflexivity|exact LF]]].
    unfold h1, at_addr. cbn [colors]. rewrite nth_error_app2 by (rewrite upd_length; lia). rewrite upd_length, Nat.sub_diag. cbn [nth_error]. rewrite A1, S1. reflexivity.
  - intros k. unfold bind.
    change (@rgb_true_to_rgb_deep f32 (F32 o) (Some p) h) with (@leaf f32 RGB_TRUE (@rgb_true_to_rgb_deep_f f32 (F32 o)) (Some p) h).
    rewrite (leaf_run RGB_TRUE _ h p c c1 Hp W E1).
    rewrite (rgb_deep_to_xyz_run (AF := F32 o) (pushed h c1) _ c1 i s _ X Y V H1 W1 Es1 Hs Gm); [reflexivity|rewrite Cc; exact M].
Qed.

(** the way back from an XYZ colour close to it *)
Lemma home x y z X Y V X' Y' V' h1 q : unitf x -> unitf y -> unitf z -> fval x = q255 r -> fval y = q255 g -> fval z = q255 b ->
  linear_facts o s w (c01 (thr x)) (c01 (thr y)) (c01 (thr z)) X Y V ->
  near X' (fval X) (226 * u) -> near Y' (fval Y) (100 * u) -> near V' (fval V) (258 * u) -> spaces h1 = spaces h ->
  let m := Color XYZ XYZ [c100 X'; c100 Y'; c100 V'] (@alpha f32 (F32 o) c /. $255) $100 $0 (rgb_space c) in at_addr h1 q m ->
  exists j d h2, @xyz_to_rgb_true f32 (F32 o) (Some q) h1 = (Ok (Some j), h2) /\ at_addr h2 j d /\ has_bytes r g b d /\
    is_value (@alpha f32 (F32 o) d) (IZR a) /\ rgb_space d = rgb_space c.
Proof.
  intros Ux Uy Uz Vx Vy Vz LF NX NY NV SP m Hm.
  assert (Wm : @wf_color f32 (F32 o) XYZ m).
  { destruct (xyz_made (AF := F32 o) X' Y' V' (@alpha f32 (F32 o) c /. $255) (rgb_space c)) as [m' [E [Wm _]]].
    rewrite xyz_nf in E. apply Ok_inj in E. unfold m. rewrite E. exact Wm. }
  assert (CL : forall t T e, near t T e -> 0 <= T <= 11 / 10 -> 0 <= e -> near (c100 t) T e).
  { intros t T e N B He. apply near_clamp; [exact N|sm|sm|lia|]. lra. }
  pose proof (lf_x _ _ _ _ _ _ _ _ _ LF) as [_ BX]. pose proof (lf_y _ _ _ _ _ _ _ _ _ LF) as [_ BY]. pose proof (lf_z _ _ _ _ _ _ _ _ _ LF) as [_ BV].
  destruct (lf_back _ _ _ _ _ _ _ _ _ LF _ _ _ (CL _ _ _ NX BX ltac:(num)) (CL _ _ _ NY BY ltac:(num)) (CL _ _ _ NV BV ltac:(num))) as [x1 [y1 [z1 [M [N1 [N2 N3]]]]]].
  assert (Hs1 : nth_error (spaces h1) i = Some s) by (rewrite SP; exact Hs).
  pose proof (xyz_to_rgb_deep_run (AF := F32 o) h1 q m i s _ x1 y1 z1 Hm Wm Es Hs1 Gm M) as RD.
  set (d0 := @corrected f32 (F32 o) bck (Color RGB_DEEP RGB_DEEP [@c01x f32 (F32 o) x1; @c01x f32 (F32 o) y1; @c01x f32 (F32 o) z1] (m_alpha m) $1 $0 (rgb_space m))) in * .
  assert (Cd : d0 = Color RGB_DEEP RGB_DEEP [c01 (bck (@c01x f32 (F32 o) x1)); c01 (bck (@c01x f32 (F32 o) y1)); c01 (bck (@c01x f32 (F32 o) z1))] (@alpha f32 (F32 o) c /. $255) $1 $0 (rgb_space c)) by reflexivity.
  assert (Wd : @wf_color f32 (F32 o) RGB_DEEP d0).
  { destruct (rgb_deepcolor_made (AF := F32 o) (bck (@c01x f32 (F32 o) x1)) (bck (@c01x f32 (F32 o) y1)) (bck (@c01x f32 (F32 o) z1)) (@alpha f32 (F32 o) c /. $255) (rgb_space c)) as [d' [E [Wd _]]].
    rewrite rgb_deepcolor_nf in E. apply Ok_inj in E. rewrite Cd, E. exact Wd. }
  pose proof (wide x _ Ux (c01x_unit o x1) N1) as K1. pose proof (wide y _ Uy (c01x_unit o y1) N2) as K2. pose proof (wide z _ Uz (c01x_unit o z1) N3) as K3.
  apply (fun K => to8_keeps o x r _ K Hr Vx) in K1. apply (fun K => to8_keeps o y g _ K Hg Vy) in K2. apply (fun K => to8_keeps o z b _ K Hb Vz) in K3.
  assert (E4 : @rgb_deep_to_rgb_true_f f32 (F32 o) d0 = Ok (Color RGB_TRUE RGB_TRUE [to8 o (c01 (bck (@c01x f32 (F32 o) x1))); to8 o (c01 (bck (@c01x f32 (F32 o) y1))); to8 o (c01 (bck (@c01x f32 (F32 o) z1)))]
     (c01 (@fround f32 (F32 o) (@alpha f32 (F32 o) c /. $255 *. $255) /. $255)) $255 $0 (rgb_space c))).
  { unfold rgb_deep_to_rgb_true_f, with3. rewrite (alpha_std (AF := F32 o) d0 _ Wd eq_refl). rewrite Cd. cbn [comps m_alpha rgb_space]. rewrite rgb_truecolor_nf. reflexivity. }
  do 3 eexists. split. { unfold xyz_to_rgb_true, bind. rewrite RD. exact (leaf_run RGB_DEEP _ _ _ d0 _ (at_new _ _ _) Wd E4). }
  split; [apply at_new|]. split; [|split; [exact (byte_alpha o _ a Ha Ca)|reflexivity]].
  split; [reflexivity|]. unfold comp_sat. cbn [comps]. split; [|split]; eexists; (split; [reflexivity|assumption]).
Qed.

(** ** Lab *)
Notation al := (@alpha f32 (F32 o) c /. $255).
Lemma alpha_kept : @clamp f32 (F32 o) al $1 $0 = al.
Proof. exact (byte_quot o _ a Ha Ca). Qed.
Lemma back_white t X e k : near (X : f32) (fval (t : f32)) e -> forall wt : f32, fin wt -> forall top, 9 / 10 <= fval wt <= top -> top <= 109 / 100 -> 0 <= fval t <= 1 + 40 * u -> fin t -> 0 <= e <= 1 / 100 ->
  top * e + (top + 21 / 10) * u <= k -> forall T, Rabs (fval t * fval wt - T) <= 2 * u -> near (X *. wt) T k.
Proof.
  intros N wt Fw top Bw Btop Bt Ft Be Hk T HT.
  assert (P : 0 <= fval t * fval wt <= top * (1 + 40 * u)) by (split; [apply Rmult_le_pos; lra|]; rewrite (Rmult_comm top); apply Rmult_le_compat; num).
  pose proof (near_mul o X wt (fval t) (fval wt) e 0 (11 / 10) top (top * (1 + 40 * u)) N (near_self _ Fw)) as M. cbv zeta in M.
  rewrite !Rmult_0_r, Rplus_0_l, Rplus_0_r in M.
  assert (0 <= top * e <= 2 / 100) by (split; [apply Rmult_le_pos; lra|]; apply Rle_trans with (109 / 100 * (1 / 100)); [apply Rmult_le_compat; lra|lra]).
  assert (M' : near (X *. wt) (fval t * fval wt) (top * e + u * (top * (1 + 40 * u) + top * e) + tiny)) by (apply M; try (apply Rabs_le; num); num).
  eapply near_weaken; [exact (near_move _ _ _ _ _ M' HT)|]. clear M M' P. set (E := top * e) in * . clearbody E. clear - H Hk Bw Btop. num.
Qed.
Lemma lab_mid x y z m h1 q : good x y z m h1 q -> unitf x -> unitf y -> unitf z -> fval x = q255 r -> fval y = q255 g -> fval z = q255 b ->
  exists ml, @xyz_to_lab f32 (F32 o) (Some q) h1 = (Ok (Some (length (colors h1))), pushed h1 ml) /\ @wf_color f32 (F32 o) LAB ml /\
    exists j d h2, @lab_to_rgb_true f32 (F32 o) (Some (length (colors h1))) (pushed h1 ml) = (Ok (Some j), h2) /\ at_addr h2 j d /\ has_bytes r g b d /\
    is_value (@alpha f32 (F32 o) d) (IZR a) /\ rgb_space d = rgb_space c.
Proof.
  intros GD Ux Uy Uz Vx Vy Vz. pose proof (good_wf _ _ _ _ _ _ GD) as Wm. destruct GD as [Hm [SP [X0 [Y0 [V0 [Em LF]]]]]].
  set (X := c100 X0) in * . set (Y := c100 Y0) in * . set (V := c100 V0) in * .
  pose proof (lf_wx _ _ _ _ _ _ _ _ _ LF) as [FX [BX QX]]. pose proof (lf_wy _ _ _ _ _ _ _ _ _ LF) as [FY [BY QY]]. pose proof (lf_wz _ _ _ _ _ _ _ _ _ LF) as [FV [BV QV]].
  pose proof (lf_diff _ _ _ _ _ _ _ _ _ LF) as [D1 [D2 [D3 D4]]].
  pose proof (lf_white _ _ _ _ _ _ _ _ _ LF) as [F1 [W1 [F2 [W2 [F3 W3]]]]].
  pose proof (lab_trip o AP _ _ _ FX FY FV BX BY BV D1 D2 D3 D4) as [T1 [T2 T3]].
  set (fx := @xyz_to_lab_helper f32 (F32 o) (X /. tx w)) in * . set (fy := @xyz_to_lab_helper f32 (F32 o) (Y /. ty_ w)) in * . set (fz_ := @xyz_to_lab_helper f32 (F32 o) (V /. tz w)) in * .
  set (L := @clamp f32 (F32 o) ($116 *. fy -. $16) $100 $0) in * . set (A := @clamp f32 (F32 o) ($500 *. (fx -. fy)) $128 $(-128)) in * .
  set (B := @clamp f32 (F32 o) ($200 *. (fy -. fz_)) $128 $(-128)) in * .
  assert (E1 : @xyz_to_lab_f f32 (F32 o) m w = Ok (Color LAB LAB [L; A; B] al $128 $(-128) (rgb_space c))).
  { unfold xyz_to_lab_f, with3. rewrite (alpha_std (AF := F32 o) m _ Wm eq_refl). rewrite Em. cbn [comps m_alpha rgb_space]. cbv zeta. fold fx fy fz_.
    rewrite lab_nf. cbn [obind]. unfold alpha_set. cbn [cls]. unfold base_alpha_set, with_alpha. cbn [cls ty comps m_max m_min rgb_space]. rewrite alpha_kept. reflexivity. }
  set (ml := Color LAB LAB [L; A; B] al $128 $(-128) (rgb_space c)) in * .
  assert (Wl : @wf_color f32 (F32 o) LAB ml).
  { destruct (lab_made (AF := F32 o) ($116 *. fy -. $16) ($500 *. (fx -. fy)) ($200 *. (fy -. fz_)) al (rgb_space c)) as [m' [E [W' _]]].
    rewrite lab_nf in E. apply Ok_inj in E. fold L A B in E. unfold NormalForms.c100 in E. fold L in E. unfold ml. rewrite E. exact W'. }
  exists ml.
  assert (Hs1 : nth_error (spaces h1) i = Some s) by (rewrite SP; exact Hs).
  assert (Lw : @load_white f32 m h1 = (Ok w, h1)) by (apply white_run; [rewrite Em; exact Es|exact Hs1]).
  split; [apply (leaf_white_run (AF := F32 o) XYZ _ h1 q m w ml Hm Wm Lw E1)|]. split; [exact Wl|].
  set (xt := @lab_to_xyz_helper f32 (F32 o) (A /. $500 +. (L +. $16) /. $116) false) in * .
  set (yt := @lab_to_xyz_helper f32 (F32 o) L true) in * .
  set (zt := @lab_to_xyz_helper f32 (F32 o) ((L +. $16) /. $116 -. B /. $200) false) in * .
  assert (E2 : @lab_to_xyz_f f32 (F32 o) ml w = Ok (Color XYZ XYZ [c100 (xt *. tx w); c100 (yt *. ty_ w); c100 (zt *. tz w)] al $100 $0 (rgb_space c))).
  { unfold lab_to_xyz_f, with3. rewrite (alpha_std (AF := F32 o) ml _ Wl eq_refl). unfold ml. cbn [comps m_alpha rgb_space]. cbv zeta. fold xt yt zt.
    rewrite xyz_nf. cbn [obind]. unfold alpha_set. cbn [cls]. unfold base_alpha_set, with_alpha. cbn [cls ty comps m_max m_min rgb_space]. rewrite alpha_kept. reflexivity. }
  assert (Lw2 : @load_white f32 ml (pushed h1 ml) = (Ok w, pushed h1 ml)) by (apply white_run; [exact Es|exact Hs1]).
  assert (Hl : at_addr (pushed h1 ml) (length (colors h1)) ml) by apply at_new.
  pose proof (leaf_white_run (AF := F32 o) LAB _ _ _ ml w _ Hl Wl Lw2 E2) as R2.
  unfold lab_to_rgb_true, bind, lab_to_xyz. rewrite R2.
  eapply (home x y z X Y V (xt *. tx w) (yt *. ty_ w) (zt *. tz w)); try assumption; [| | |apply at_new].
  - apply (back_white _ _ _ _ T1 _ F1 (951 / 1000)); try assumption; num.
  - apply (back_white _ _ _ _ T2 _ F2 (10001 / 10000)); try assumption; num.
  - apply (back_white _ _ _ _ T3 _ F3 (1089 / 1000)); try assumption; num.
Qed.

(** ** xyY *)
Lemma c100_id t : fin t -> 0 <= fval t <= 100 -> c100 t = t.
Proof.
  intros F B. destruct (fz_val o 0) as [F0 V0]; [sm|]. destruct (fz_val o 100) as [F1 V1]; [sm|].
  unfold NormalForms.c100. rewrite clamp_F32. apply clamp32_id; auto. rewrite V0, V1. exact B.
Qed.
Lemma zero_mul (p0 q0 : f32) : fin p0 -> fin q0 -> fval q0 = 0 -> fin (p0 *. q0) /\ fval (p0 *. q0) = 0.
Proof. intros Fp Fq Vq. destruct (Bmult_ok p0 q0 0 0 Fp Fq ltac:(sm) ltac:(sm)) as [F V]; [rewrite Vq, Rmult_0_r; lra|]. rewrite Vq, Rmult_0_r, rnd32_0 in V. auto. Qed.
Lemma zero_div (p0 q0 : f32) : fin p0 -> fin q0 -> fval p0 = 0 -> fval q0 <> 0 -> near (p0 /. q0) 0 0.
Proof.
  intros Fp Fq Vp Nq. destruct (Bdiv_ok p0 q0 0 0 Fp Fq Nq ltac:(sm) ltac:(sm)) as [F V]; [rewrite Vp; unfold Rdiv; rewrite Rmult_0_l; lra|].
  rewrite Vp in V. unfold Rdiv in V. rewrite Rmult_0_l, rnd32_0 in V. split; [exact F|]. change (fval (p0 /. q0)) with (fval (Bdiv mode_NE p0 q0)). rewrite V, Rminus_0_r, Rabs_R0. lra.
Qed.
Lemma xyy_mid x y z m h1 q : good x y z m h1 q -> unitf x -> unitf y -> unitf z -> fval x = q255 r -> fval y = q255 g -> fval z = q255 b ->
  exists ml, @xyz_to_xyy f32 (F32 o) (Some q) h1 = (Ok (Some (length (colors h1))), pushed h1 ml) /\ @wf_color f32 (F32 o) XYY ml /\
    exists j d h2, @xyy_to_rgb_true f32 (F32 o) (Some (length (colors h1))) (pushed h1 ml) = (Ok (Some j), h2) /\ at_addr h2 j d /\ has_bytes r g b d /\
    is_value (@alpha f32 (F32 o) d) (IZR a) /\ rgb_space d = rgb_space c.
Proof.
  intros GD Ux Uy Uz Vx Vy Vz. pose proof (good_wf _ _ _ _ _ _ GD) as Wm. destruct GD as [Hm [SP [X0 [Y0 [V0 [Em LF]]]]]].
  set (X := c100 X0) in * . set (Y := c100 Y0) in * . set (V := c100 V0) in * .
  pose proof (lf_x _ _ _ _ _ _ _ _ _ LF) as [FX BX]. pose proof (lf_y _ _ _ _ _ _ _ _ _ LF) as [FY BY]. pose proof (lf_z _ _ _ _ _ _ _ _ _ LF) as [FV BV].
  pose proof (lf_chrom _ _ _ _ _ _ _ _ _ LF) as [F1 [C1 [F2 C2]]].
  assert (Hs1 : nth_error (spaces h1) i = Some s) by (rewrite SP; exact Hs).
  destruct (fz_val o 0) as [G0 Z0]; [sm|].
  assert (MID : exists X1 Y1, (let ml := Color XYY XYY [c100 X1; c100 Y1; c100 Y] al $100 $0 (rgb_space c) in
      @xyz_to_xyy f32 (F32 o) (Some q) h1 = (Ok (Some (length (colors h1))), pushed h1 ml)) /\ @feq f32 (F32 o) (c100 Y1) $0 = false /\
      near ((c100 X1 *. Y) /. c100 Y1) (fval X) (7 * u) /\ near (((($1 -. c100 X1) -. c100 Y1) *. Y) /. c100 Y1) (fval V) (22 * u)).
  { assert (RUN : forall k, @xyz_to_xyy f32 (F32 o) (Some q) h1 = k -> True) by trivial. clear RUN.
    assert (CASES : (fval X = 0 /\ fval Y = 0 /\ fval V = 0) \/ (/ 1000000 <= fval X /\ / 1000000 <= fval Y /\ / 1000000 <= fval V)).
    { pose proof (lf_pos _ _ _ _ _ _ _ _ _ LF) as PP. pose proof (lf_zero _ _ _ _ _ _ _ _ _ LF) as PZ.
      assert (LB : forall v n, unitf v -> (0 <= n <= 255)%Z -> fval v = q255 n -> fval (c01 (thr v)) = 0 \/ 1 / 10000 <= fval (c01 (thr v))).
      { intros v n U Hn E. rewrite Gg. destruct (linear_byte v n U Hn E) as [[_ K]|K]; [left|right]; exact K. }
      destruct (LB x r Ux Hr Vx) as [K1|K1]; [|right; auto]. destruct (LB y g Uy Hg Vy) as [K2|K2]; [|right; auto].
      destruct (LB z b Uz Hb Vz) as [K3|K3]; [|right; auto]. left. auto. }
    destruct CASES as [[ZX [ZY ZV]]|[PX [PY PV]]].
    - exists (cx w), (cy w). destruct (c100_same o (cx w) F1 ltac:(lra)) as [F3 V3]. destruct (c100_same o (cy w) F2 ltac:(lra)) as [F4 V4].
      split; [|split; [|split]].
      + cbv zeta. unfold xyz_to_xyy, bind. rewrite (load_as_ok (AF := F32 o) h1 q m XYZ Hm Wm). rewrite (alpha_std (AF := F32 o) m _ Wm eq_refl). rewrite Em. cbn [comps m_alpha rgb_space].
        rewrite (eq_val o X $0 FX G0), (eq_val o Y $0 FY G0), (eq_val o V $0 FV G0) by (rewrite Z0; assumption). cbn [andb].
        rewrite (white_run h1) by (assumption || exact Hs1). rewrite xyy_nf. reflexivity.
      + apply ne_val; [exact F4|exact G0|]. rewrite V4, Z0. lra.
      + rewrite ZX. destruct (zero_mul (c100 (cx w)) Y F3 FY ZY) as [F5 V5]. eapply near_weaken; [apply zero_div; try assumption; rewrite V4; lra|num].
      + rewrite ZV. destruct (fz_val o 1) as [G1 Z1]; [sm|].
        assert (F5 : fin ($1 -. c100 (cx w) -. c100 (cy w))).
        { destruct (Bminus_ok $1 (c100 (cx w)) 0 1 G1 F3 ltac:(sm) ltac:(sm)) as [F5 V5]; [rewrite Z1, V3; lra|].
          destruct (Bminus_ok (Bminus mode_NE $1 (c100 (cx w))) (c100 (cy w)) (-1) 1 F5 F4 ltac:(sm) ltac:(sm)) as [F6 _]; [|exact F6].
          assert (0 <= rnd32 (fval $1 - fval (c100 (cx w))) <= 1) by (apply (rnd32_bounds _ 0 1); try sm; rewrite Z1, V3; lra). rewrite V5, V4. lra. }
        destruct (zero_mul _ Y F5 FY ZY) as [F6 V6]. eapply near_weaken; [apply zero_div; try assumption; rewrite V4; lra|num].
    - exists (X /. (X +. Y +. V)), (Y /. (X +. Y +. V)). split; [|apply xyy_trip; try assumption; tauto].
      cbv zeta. unfold xyz_to_xyy, bind. rewrite (load_as_ok (AF := F32 o) h1 q m XYZ Hm Wm). rewrite (alpha_std (AF := F32 o) m _ Wm eq_refl). rewrite Em. cbn [comps m_alpha rgb_space].
      rewrite (ne_val o X $0 FX G0) by (rewrite Z0; lra). cbn [andb]. rewrite xyy_nf. reflexivity. }
  destruct MID as [X1 [Y1 [R1 [NZ [T1 T2]]]]]. cbv zeta in R1.
  set (ml := Color XYY XYY [c100 X1; c100 Y1; c100 Y] al $100 $0 (rgb_space c)) in * . exists ml. split; [exact R1|].
  assert (Wl : @wf_color f32 (F32 o) XYY ml).
  { destruct (xyy_made (AF := F32 o) X1 Y1 Y al (rgb_space c)) as [m' [E [W' _]]]. rewrite xyy_nf in E. apply Ok_inj in E. unfold ml. rewrite E. exact W'. }
  split; [exact Wl|].
  assert (E2 : @xyy_to_xyz_f f32 (F32 o) ml = Ok (Color XYZ XYZ [c100 ((c100 X1 *. Y) /. c100 Y1); c100 Y; c100 (((($1 -. c100 X1) -. c100 Y1) *. Y) /. c100 Y1)] al $100 $0 (rgb_space c))).
  { unfold xyy_to_xyz_f, with3. rewrite (alpha_std (AF := F32 o) ml _ Wl eq_refl). unfold ml. cbn [comps m_alpha rgb_space]. rewrite NZ. cbv zeta. rewrite xyz_nf.
    rewrite !(c100_id Y FY) by lra. reflexivity. }
  assert (Hl : at_addr (pushed h1 ml) (length (colors h1)) ml) by apply at_new.
  pose proof (leaf_run (AF := F32 o) XYY _ _ _ ml _ Hl Wl E2) as R2.
  unfold xyy_to_rgb_true, bind, xyy_to_xyz. rewrite R2.
  eapply (home x y z X Y V _ Y _); try assumption; [| | |apply at_new].
  - eapply near_weaken; [exact T1|num].
  - eapply near_weaken; [apply near_self, FY|num].
  - eapply near_weaken; [exact T2|num].
Qed.

(** ** The round trips *)
Lemma lab_bytes : via (@to_lab f32 (F32 o)) (@to_rgb_true f32 (F32 o)) h p (fun m d => ty m = LAB /\ has_bytes r g b d /\ is_value (@alpha f32 (F32 o) d) (IZR a) /\ rgb_space d = rgb_space c).
Proof.
  destruct forth as [x [y [z [Ux [Uy [Uz [Vx [Vy [Vz [q [h1 [m [GD K]]]]]]]]]]]]].
  destruct (lab_mid x y z m h1 q GD Ux Uy Uz Vx Vy Vz) as [ml [R1 [Wl [j [d [h2 [R2 [Hd [HB2 [Al SP]]]]]]]]]].
  assert (D1 : dispatches (@to_lab f32 (F32 o)) RGB_TRUE (@rgb_true_to_lab f32 (F32 o))) by disp.
  assert (D2 : dispatches (@to_rgb_true f32 (F32 o)) LAB (@lab_to_rgb_true f32 (F32 o))) by disp.
  exists (length (colors h1)), j, ml, d, (pushed h1 ml), h2.
  split; [rewrite (D1 h p c Hp (wf_ty _ _ W)); unfold rgb_true_to_lab, rgb_deep_to_lab; rewrite K; exact R1|]. split; [apply at_new|].
  split; [rewrite (D2 (pushed h1 ml) _ ml (at_new _ _ _) (wf_ty _ _ Wl)); exact R2|]. split; [exact Hd|]. split; [exact (wf_ty _ _ Wl)|]. auto.
Qed.
Lemma xyy_bytes : via (@to_xyy f32 (F32 o)) (@to_rgb_true f32 (F32 o)) h p (fun m d => ty m = XYY /\ has_bytes r g b d /\ is_value (@alpha f32 (F32 o) d) (IZR a) /\ rgb_space d = rgb_space c).
Proof.
  destruct forth as [x [y [z [Ux [Uy [Uz [Vx [Vy [Vz [q [h1 [m [GD K]]]]]]]]]]]]].
  destruct (xyy_mid x y z m h1 q GD Ux Uy Uz Vx Vy Vz) as [ml [R1 [Wl [j [d [h2 [R2 [Hd [HB2 [Al SP]]]]]]]]]].
  assert (D1 : dispatches (@to_xyy f32 (F32 o)) RGB_TRUE (@rgb_true_to_xyy f32 (F32 o))) by disp.
  assert (D2 : dispatches (@to_rgb_true f32 (F32 o)) XYY (@xyy_to_rgb_true f32 (F32 o))) by disp.
  exists (length (colors h1)), j, ml, d, (pushed h1 ml), h2.
  assert (K' : @rgb_true_to_xyy f32 (F32 o) (Some p) h = @xyz_to_xyy f32 (F32 o) (Some q) h1).
  { rewrite <- (K (@xyz_to_xyy f32 (F32 o))). unfold rgb_true_to_xyy, rgb_true_to_xyz, bind. destruct (@rgb_true_to_rgb_deep f32 (F32 o) (Some p) h) as [[v| | |] h']; reflexivity. }
  split; [rewrite (D1 h p c Hp (wf_ty _ _ W)), K'; exact R1|]. split; [apply at_new|].
  split; [rewrite (D2 (pushed h1 ml) _ ml (at_new _ _ _) (wf_ty _ _ Wl)); exact R2|]. split; [exact Hd|]. split; [exact (wf_ty _ _ Wl)|]. auto.
Qed.
End Call.
End Run.

Section Final.
Variables (o : oracle) (h : heap f32) (p : nat) (c : color f32) (i : nat) (s : space_def f32) (addr : nat) (r g b a : Z).
Hypothesis (AP : accurate_pow o) (E : Ok s = @space_sRGB f32 (F32 o) addr).
Lemma srgb_parts : s_gamma s = Some (@gamma_sRGB f32 (F32 o)) /\ detour_ok s = true /\ exists nm w, s_white s = Some (nm, w).
Proof.
  assert (OK : detour_ok s = true) by (pose proof (srgb_detour o addr) as D; rewrite <- E in D; exact D).
  split; [symmetry in E; exact (ctor_gamma o _ _ _ _ _ _ _ _ _ E)|]. split; [exact OK|]. revert OK. unfold detour_ok.
  destruct (rows3 (s_matrix s)) as [[[A0 A1] A2]|]; [|discriminate]. destruct (rows3 (s_inverse s)) as [[[B0 B1] B2]|]; [|discriminate].
  destruct (s_white s) as [[nm w]|]; [|discriminate]. intros _. exists nm, w. reflexivity.
Qed.
Lemma srgb_lab : at_addr h p c -> @wf_color f32 (F32 o) RGB_TRUE c -> rgb_space c = Some i -> nth_error (spaces h) i = Some s ->
  is_byte r -> is_byte g -> is_byte b -> is_byte a -> has_bytes r g b c -> is_value (@alpha f32 (F32 o) c) (IZR a) ->
  via (@to_lab f32 (F32 o)) (@to_rgb_true f32 (F32 o)) h p (fun m d => ty m = LAB /\ has_bytes r g b d /\ is_value (@alpha f32 (F32 o) d) (IZR a) /\ rgb_space d = rgb_space c).
Proof.
  intros Hp W Es Hs Hr Hg Hb Ha HB Ca. destruct srgb_parts as [G [OK [nm [w Hw]]]].
  exact (lab_bytes o AP _ eq_refl h p c i s nm w Hp W Es Hs G OK Hw r g b a Hr Hg Hb Ha HB Ca).
Qed.
Lemma srgb_xyy : at_addr h p c -> @wf_color f32 (F32 o) RGB_TRUE c -> rgb_space c = Some i -> nth_error (spaces h) i = Some s ->
  is_byte r -> is_byte g -> is_byte b -> is_byte a -> has_bytes r g b c -> is_value (@alpha f32 (F32 o) c) (IZR a) ->
  via (@to_xyy f32 (F32 o)) (@to_rgb_true f32 (F32 o)) h p (fun m d => ty m = XYY /\ has_bytes r g b d /\ is_value (@alpha f32 (F32 o) d) (IZR a) /\ rgb_space d = rgb_space c).
Proof.
  intros Hp W Es Hs Hr Hg Hb Ha HB Ca. destruct srgb_parts as [G [OK [nm [w Hw]]]].
  exact (xyy_bytes o AP _ eq_refl h p c i s nm w Hp W Es Hs G OK Hw r g b a Hr Hg Hb Ha HB Ca).
Qed.
End Final.
Lemma srgb_example o addr : accurate_pow ref_oracle /\ exists s, Ok s = @space_sRGB f32 (F32 o) addr.
Proof.
  split; [exact ref_accurate|]. pose proof (srgb_detour o addr) as D. destruct (@space_sRGB f32 (F32 o) addr) as [s| | |]; try discriminate D. exists s. reflexivity.
Qed.
