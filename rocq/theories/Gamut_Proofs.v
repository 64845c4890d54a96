(** * Pure green of Adobe RGB does not survive Lab (C163) *)
From Coq Require Import ZArith QArith Qreals Qabs Reals Lra Lia List Bool.
From Flocq Require Import Core IEEE754.BinarySingleNaN.
From Verif Require Import Arith Outcome ColorModel GammaModel MatrixModel SpaceModel Heap Converter F32 F32Facts RArith
  Spec Spec32 Laws NormalForms Alpha8 Core_Proofs Core2_Proofs Core3_Proofs Core4_Proofs Hue32 Spec_Matrix Spec_Conv Spec_Round
  Conv_Proofs Conv2_Proofs Run_Proofs HueR_Proofs Round_Proofs Round2_Proofs Spec_Error Error_Proofs Error2_Proofs Error3_Proofs Error4_Proofs
  Error7_Proofs Error8_Proofs Linear_Proofs Linear2_Proofs Pow_Proofs Curve_Proofs Wide_Proofs Xyz8_Proofs PowRef_Proofs Lab8_Proofs Xyy8_Proofs Detour_Proofs Detour2_Proofs.
Import ListNotations.
Local Open Scope R_scope.
Local Notation fin x := (is_finite x = true).

Section Run.
Context (o : oracle) (AP : accurate_pow o).
Local Notation "x +. y" := (@fadd f32 (F32 o) x y) (at level 50, left associativity).
Local Notation "x -. y" := (@fsub f32 (F32 o) x y) (at level 50, left associativity).
Local Notation "x *. y" := (@fmul f32 (F32 o) x y) (at level 40, left associativity).
Local Notation "x /. y" := (@fdiv f32 (F32 o) x y) (at level 40, left associativity).
Local Notation "$ n" := (@fz f32 (F32 o) n) (at level 0).
Local Notation c01 := (@c01 f32 (F32 o)).
Local Notation c01x := (@c01x f32 (F32 o)).
Local Notation c100 := (@c100 f32 (F32 o)).

(** ** Intervals *)
Definition box (x : f32) (lo hi : R) : Prop := fin x /\ lo <= fval x <= hi.
Definition slack (m : R) : R := m / 1000000.
Lemma rnd_slack v m : 1 <= m -> - m <= v <= m -> v - slack m <= rnd32 v <= v + slack m.
Proof.
  intros Hm B. pose proof (rnd_err v) as E. apply Rabs_le_inv in E. assert (Rabs v <= m) by (apply Rabs_le; lra).
  assert (u * Rabs v <= u * m) by (apply Rmult_le_compat_l; num). unfold slack. num.
Qed.
Lemma box_weaken x a b c d : box x a b -> c <= a -> b <= d -> box x c d.
Proof. intros [F B] H1 H2. split; [exact F|lra]. Qed.
Lemma box_num n : small n -> box $n (IZR n) (IZR n).
Proof. intros H. destruct (fz_val o n H) as [F V]. split; [exact F|lra]. Qed.
Lemma box_add m x y a b c d : box x a b -> box y c d -> 1 <= m <= 1000 -> - m <= a + c -> b + d <= m -> box (x +. y) (a + c - slack m) (b + d + slack m).
Proof.
  intros [Fx Bx] [Fy By] Hm L H. destruct (Bplus_ok x y (-1000) 1000 Fx Fy ltac:(sm) ltac:(sm) ltac:(lra)) as [F V].
  split; [exact F|]. change (fval (x +. y)) with (fval (Bplus mode_NE x y)). rewrite V. pose proof (rnd_slack (fval x + fval y) m ltac:(lra) ltac:(lra)). lra.
Qed.
Lemma box_sub m x y a b c d : box x a b -> box y c d -> 1 <= m <= 1000 -> - m <= a - d -> b - c <= m -> box (x -. y) (a - d - slack m) (b - c + slack m).
Proof.
  intros [Fx Bx] [Fy By] Hm L H. destruct (Bminus_ok x y (-1000) 1000 Fx Fy ltac:(sm) ltac:(sm) ltac:(lra)) as [F V].
  split; [exact F|]. change (fval (x -. y)) with (fval (Bminus mode_NE x y)). rewrite V. pose proof (rnd_slack (fval x - fval y) m ltac:(lra) ltac:(lra)). lra.
Qed.
Lemma box_prod m x y lo hi : fin x -> fin y -> lo <= fval x * fval y <= hi -> 1 <= m <= 1000 -> - m <= lo -> hi <= m -> box (x *. y) (lo - slack m) (hi + slack m).
Proof.
  intros Fx Fy B Hm L H. destruct (Bmult_ok x y (-1000) 1000 Fx Fy ltac:(sm) ltac:(sm) ltac:(lra)) as [F V].
  split; [exact F|]. change (fval (x *. y)) with (fval (Bmult mode_NE x y)). rewrite V. pose proof (rnd_slack (fval x * fval y) m ltac:(lra) ltac:(lra)). lra.
Qed.
Lemma box_mul m x y a b c d : box x a b -> box y c d -> 0 <= a -> 0 <= c -> 1 <= m <= 1000 -> b * d <= m -> box (x *. y) (a * c - slack m) (b * d + slack m).
Proof.
  intros [Fx Bx] [Fy By] Ha Hc Hm H. apply box_prod; try assumption.
  - split; apply Rmult_le_compat; lra.
  - pose proof (Rmult_le_pos a c Ha Hc). lra.
Qed.
Lemma box_mul_neg m x y a b c d : box x (- b) (- a) -> box y c d -> 0 <= a -> 0 <= c -> 1 <= m <= 1000 -> b * d <= m -> box (x *. y) (- (b * d) - slack m) (- (a * c) + slack m).
Proof.
  intros [Fx Bx] [Fy By] Ha Hc Hm H. apply box_prod; try assumption.
  - assert (a * c <= - fval x * fval y <= b * d) by (split; apply Rmult_le_compat; lra). lra.
  - lra.
  - pose proof (Rmult_le_pos a c Ha Hc). lra.
Qed.
Lemma box_div m x y a b c d : box x a b -> box y c d -> 0 <= a -> 0 < c -> 1 <= m <= 1000 -> b / c <= m -> box (x /. y) (a / d - slack m) (b / c + slack m).
Proof.
  intros [Fx Bx] [Fy By] Ha Hc Hm H. assert (Q : a / d <= fval x / fval y <= b / c).
  { split; (apply Rmult_le_compat; [lra|left; apply Rinv_0_lt_compat; lra|lra|apply Rinv_le_contravar; lra]). }
  assert (0 <= a / d) by (apply Rmult_le_pos; [lra|left; apply Rinv_0_lt_compat; lra]).
  destruct (Bdiv_ok x y (-1000) 1000 Fx Fy ltac:(lra) ltac:(sm) ltac:(sm) ltac:(lra)) as [F V].
  split; [exact F|]. change (fval (x /. y)) with (fval (Bdiv mode_NE x y)). rewrite V. pose proof (rnd_slack (fval x / fval y) m ltac:(lra) ltac:(lra)). lra.
Qed.
Lemma box_clamp x lo hi a b : box x a b -> small lo -> small hi -> (lo <= hi)%Z -> IZR lo <= a -> b <= IZR hi -> box (@clamp f32 (F32 o) x $hi $lo) a b.
Proof.
  intros [Fx B] Sl Sh LH HL HH. destruct (clamp_val o x lo hi Sl Sh LH Fx) as [F V]. split; [exact F|].
  change (fval (@clamp f32 (F32 o) x $hi $lo)) with (B2R (@clamp f32 (F32 o) x $hi $lo)). rewrite V. change (@B2R 24 128 x) with (fval x). rewrite Rmin_left, Rmax_left; lra.
Qed.
Lemma box_inq n x : inq n x = true -> box x (IZR (n - 1) / 100000) (IZR (n + 1) / 100000).
Proof. intros H. destruct (inq_R n x H) as [F B]. split; assumption. Qed.
(** the curve of Lab and its inverse away from the straight part *)
Lemma box_curve t a b c d : box t a b -> 1 / 100 <= a -> b <= 1 -> 0 <= c -> 0 <= d -> c * c * c <= a -> b <= d * d * d ->
  box (@xyz_to_lab_helper f32 (F32 o) t) (c - slack 2) (d + slack 2).
Proof.
  intros [Ft B] Ha Hb Hc Hd H1 H2. pose proof (helper_forth o AP t Ft ltac:(num)) as N. destruct N as [F E]. split; [exact F|].
  destruct (fl_cases (fval t) ltac:(lra)) as [[L _]|[_ [P C]]]; [unfold e0 in L; lra|].
  assert (c <= fl (fval t)) by (apply cube_le; lra). assert (fl (fval t) <= d) by (apply cube_le; lra). apply Rabs_le_inv in E. unfold slack. num.
Qed.
Lemma box_cube t a b : box t a b -> 0 < a -> b <= 1 -> box (o_pow o t $3) (a * a * a - slack 2) (b * b * b + slack 2).
Proof.
  intros [Ft B] Ha Hb. destruct (pow3 o AP t Ft ltac:(lra)) as [F E]. split; [exact F|]. apply Rabs_le_inv in E.
  set (v := fval t) in * . assert (a * a <= v * v <= b * b) by (split; apply Rmult_le_compat; lra).
  assert (0 <= a * a) by (apply Rmult_le_pos; lra). assert (a * a * a <= v * v * v <= b * b * b) by (split; apply Rmult_le_compat; lra).
  assert (b * b <= 1) by (rewrite <- (Rmult_1_l 1); apply Rmult_le_compat; lra). assert (b * b * b <= 1) by (rewrite <- (Rmult_1_l 1); apply Rmult_le_compat; lra).
  assert (0 <= a * a * a) by (apply Rmult_le_pos; lra). unfold slack. num.
Qed.
Lemma box_x t a b : box t a b -> 3 / 10 <= a -> b <= 1 -> box (@lab_to_xyz_helper f32 (F32 o) t false) (a * a * a - slack 2) (b * b * b + slack 2).
Proof.
  intros B Ha Hb. unfold lab_to_xyz_helper. cbv zeta. cbn [flt fpow F32]. pose proof (box_cube t a b B ltac:(lra) Hb) as C.
  destruct (eps_val o) as [Fe Ve]. assert (9 / 100 <= a * a) by (replace (9 / 100) with (3 / 10 * (3 / 10)) by lra; apply Rmult_le_compat; lra).
  assert (27 / 1000 <= a * a * a) by (replace (27 / 1000) with (9 / 100 * (3 / 10)) by lra; apply Rmult_le_compat; lra).
  destruct (ltb_cases (@lab_epsilon f32 (F32 o)) (o_pow o t $3) Fe (proj1 C)) as [[-> K]|[_ K]]; [exact C|].
  exfalso. destruct C as [_ C]. unfold slack in C. lra.
Qed.
Lemma box_y t a b : box t a b -> 20 <= a -> b <= 99 ->
  box (@lab_to_xyz_helper f32 (F32 o) t true) (((a + 16) / 116 - slack 2) * ((a + 16) / 116 - slack 2) * ((a + 16) / 116 - slack 2) - slack 2)
    (((b + 16) / 116 + slack 2) * ((b + 16) / 116 + slack 2) * ((b + 16) / 116 + slack 2) + slack 2).
Proof.
  intros B Ha Hb. assert (AB : a <= b) by (destruct B; lra).
  assert (EK : box (@lab_epsilon f32 (F32 o) *. @lab_kappa f32 (F32 o)) 7 9).
  { destruct (within_R 7 (@lab_epsilon f32 (F32 o) *. @lab_kappa f32 (F32 o)) 9 ltac:(vm_compute; reflexivity)) as [Fa Ba]. unfold Q2R in Ba. cbn [Qnum Qden] in Ba. split; [exact Fa|lra]. }
  unfold lab_to_xyz_helper. cbv zeta. cbn [flt F32].
  destruct (ltb_cases (@lab_epsilon f32 (F32 o) *. @lab_kappa f32 (F32 o)) t (proj1 EK) (proj1 B)) as [[-> K]|[_ K]]; [|exfalso; destruct EK, B; lra].
  cbn [fpow F32]. apply box_cube; try (unfold slack; lra).
  pose proof (box_add 115 t $16 _ _ _ _ B (box_num 16 ltac:(sm)) ltac:(lra) ltac:(lra) ltac:(lra)) as S1.
  pose proof (box_div 1 _ $116 _ _ _ _ S1 (box_num 116 ltac:(sm)) ltac:(unfold slack; lra) ltac:(lra) ltac:(lra) ltac:(unfold slack; lra)) as S2.
  apply (box_weaken _ _ _ _ _ S2); unfold slack; lra.
Qed.

(** ** The route of a colour through XYZ and Lab and back, in explicit form *)
Section Call.
Variables (gm : gamma f32) (h : heap f32) (p : nat) (c : color f32) (i : nat) (s : space_def f32) (nm : nat) (w : white_point f32).
Local Notation thr := (@inverse_gamma_correction f32 (F32 o) gm).
Local Notation bck := (@gamma_correction f32 (F32 o) gm).
Variables (A0 A1 A2 B0 B1 B2 : f32 * f32 * f32).
Hypothesis (Hp : at_addr h p c) (W : @wf_color f32 (F32 o) RGB_TRUE c) (Es : rgb_space c = Some i) (Hs : nth_error (spaces h) i = Some s)
  (Gm : s_gamma s = Some gm) (Hw : s_white s = Some (nm, w)) (EA : rows3 (s_matrix s) = Some (A0, A1, A2)) (EB : rows3 (s_inverse s) = Some (B0, B1, B2)).
Variables (a : Z) (x y z : f32).
Hypothesis (Ha : (0 <= a <= 255)%Z) (Ca : is_value (@alpha f32 (F32 o) c) (IZR a)) (Ec : comps c = [x; y; z]).
Let l := (c01 (thr (c01 (x /. $255))), c01 (thr (c01 (y /. $255))), c01 (thr (c01 (z /. $255)))).
Let X := c100 (dot3 o A0 l).
Let Y := c100 (dot3 o A1 l).
Let V := c100 (dot3 o A2 l).
Let fx := @xyz_to_lab_helper f32 (F32 o) (X /. tx w).
Let fy := @xyz_to_lab_helper f32 (F32 o) (Y /. ty_ w).
Let fz_ := @xyz_to_lab_helper f32 (F32 o) (V /. tz w).
Definition Lc := @clamp f32 (F32 o) ($116 *. fy -. $16) $100 $0.
Definition Ac := @clamp f32 (F32 o) ($500 *. (fx -. fy)) $128 $(-128).
Definition Bc := @clamp f32 (F32 o) ($200 *. (fy -. fz_)) $128 $(-128).
Let xt := @lab_to_xyz_helper f32 (F32 o) (Ac /. $500 +. (Lc +. $16) /. $116) false.
Let yt := @lab_to_xyz_helper f32 (F32 o) Lc true.
Let zt := @lab_to_xyz_helper f32 (F32 o) ((Lc +. $16) /. $116 -. Bc /. $200) false.
Definition back_xyz := (c100 (xt *. tx w), c100 (yt *. ty_ w), c100 (zt *. tz w)).
Local Notation home B := (to8 o (c01 (bck (c01x (dot3 o B back_xyz))))).
Local Notation al := (@alpha f32 (F32 o) c /. $255).

Lemma lab_route : via (@to_lab f32 (F32 o)) (@to_rgb_true f32 (F32 o)) h p (fun m d => ty m = LAB /\ comps m = [Lc; Ac; Bc] /\ ty d = RGB_TRUE /\ comps d = [home B0; home B1; home B2]).
Proof.
  pose proof (@rgb_true_to_rgb_deep_ok f32 (F32 o) _ _) as L1.
  set (x0 := c01 (x /. $255)) in * . set (y0 := c01 (y /. $255)) in * . set (z0 := c01 (z /. $255)) in * .
  assert (E1 : exists c1, @rgb_true_to_rgb_deep_f f32 (F32 o) c = Ok c1 /\ comps c1 = [x0; y0; z0] /\ m_alpha c1 = al /\ rgb_space c1 = rgb_space c).
  { unfold rgb_true_to_rgb_deep_f, with3. rewrite Ec, rgb_deepcolor_nf. eexists. repeat split; reflexivity. }
  destruct E1 as [c1 [E1 [C1 [A1' S1]]]].
  assert (W1 : @wf_color f32 (F32 o) RGB_DEEP c1) by (destruct (L1 c W) as [m' [E [Wm _]]]; congruence).
  assert (H1 : at_addr (pushed h c1) (length (colors h)) c1) by apply at_new. assert (Es1 : rgb_space c1 = Some i) by congruence.
  assert (Cc : comps (@corrected f32 (F32 o) thr c1) = [c01 (thr x0); c01 (thr y0); c01 (thr z0)]).
  { unfold corrected, with_comps. cbn [comps]. rewrite C1. cbn [map]. rewrite (wf_max _ _ W1), (wf_min _ _ W1). reflexivity. }
  set (m := Color XYZ XYZ [X; Y; V] al $100 $0 (rgb_space c)).
  set (h1 := Heap (upd (length (colors h)) (@corrected f32 (F32 o) thr c1) (colors (pushed h c1)) ++ [m]) (spaces h)).
  set (q := length (colors (pushed h c1))).
  assert (K : @rgb_true_to_lab f32 (F32 o) (Some p) h = @xyz_to_lab f32 (F32 o) (Some q) h1).
  { unfold rgb_true_to_lab, rgb_deep_to_lab, bind.
    change (@rgb_true_to_rgb_deep f32 (F32 o) (Some p) h) with (@leaf f32 RGB_TRUE (@rgb_true_to_rgb_deep_f f32 (F32 o)) (Some p) h).
    rewrite (leaf_run RGB_TRUE _ h p c c1 Hp W E1).
    rewrite (rgb_deep_to_xyz_run (AF := F32 o) (pushed h c1) _ c1 i s gm (dot3 o A0 l) (dot3 o A1 l) (dot3 o A2 l) H1 W1 Es1 Hs Gm); [|rewrite Cc; apply (rows3_ok o _ _ _ _ _ _ _ EA)].
    unfold h1, m, X, Y, V. rewrite A1', S1. reflexivity. }
  assert (Hm : at_addr h1 q m).
  { unfold h1, at_addr, q. cbn [colors]. rewrite nth_error_app2 by (rewrite upd_length; lia). rewrite upd_length, Nat.sub_diag. reflexivity. }
  assert (Wm : @wf_color f32 (F32 o) XYZ m).
  { destruct (xyz_made (AF := F32 o) (dot3 o A0 l) (dot3 o A1 l) (dot3 o A2 l) al (rgb_space c)) as [m' [E [Wm _]]]. rewrite xyz_nf in E. apply Ok_inj in E. unfold m, X, Y, V. rewrite E. exact Wm. }
  assert (AK : @clamp f32 (F32 o) al $1 $0 = al) by exact (byte_quot o _ a Ha Ca).
  set (ml := Color LAB LAB [Lc; Ac; Bc] al $128 $(-128) (rgb_space c)) in * .
  assert (E2 : @xyz_to_lab_f f32 (F32 o) m w = Ok ml).
  { unfold xyz_to_lab_f, with3. rewrite (alpha_std (AF := F32 o) m _ Wm eq_refl). unfold m. cbn [comps m_alpha rgb_space]. cbv zeta. fold fx fy fz_.
    rewrite lab_nf. cbn [obind]. unfold alpha_set. cbn [cls]. unfold base_alpha_set, with_alpha. cbn [cls ty comps m_max m_min rgb_space]. rewrite AK. reflexivity. }
  assert (Wl : @wf_color f32 (F32 o) LAB ml).
  { destruct (lab_made (AF := F32 o) ($116 *. fy -. $16) ($500 *. (fx -. fy)) ($200 *. (fy -. fz_)) al (rgb_space c)) as [m' [E [W' _]]].
    rewrite lab_nf in E. apply Ok_inj in E. fold Lc Ac Bc in E. unfold NormalForms.c100 in E. fold Lc in E. unfold ml. rewrite E. exact W'. }
  assert (Hs1 : nth_error (spaces h1) i = Some s) by exact Hs.
  assert (Lw : @load_white f32 m h1 = (Ok w, h1)) by (apply (white_run i s nm w Hw); [exact Es|exact Hs1]).
  pose proof (leaf_white_run (AF := F32 o) XYZ _ h1 q m w ml Hm Wm Lw E2) as R1.
  assert (Lw2 : @load_white f32 ml (pushed h1 ml) = (Ok w, pushed h1 ml)) by (apply (white_run i s nm w Hw); [exact Es|exact Hs1]).
  assert (Hl : at_addr (pushed h1 ml) (length (colors h1)) ml) by apply at_new.
  set (n := Color XYZ XYZ [c100 (xt *. tx w); c100 (yt *. ty_ w); c100 (zt *. tz w)] al $100 $0 (rgb_space c)).
  assert (E3 : @lab_to_xyz_f f32 (F32 o) ml w = Ok n).
  { unfold lab_to_xyz_f, with3. rewrite (alpha_std (AF := F32 o) ml _ Wl eq_refl). unfold ml. cbn [comps m_alpha rgb_space]. cbv zeta. fold xt yt zt.
    rewrite xyz_nf. cbn [obind]. unfold alpha_set. cbn [cls]. unfold base_alpha_set, with_alpha. cbn [cls ty comps m_max m_min rgb_space]. rewrite AK. reflexivity. }
  pose proof (leaf_white_run (AF := F32 o) LAB _ _ _ ml w _ Hl Wl Lw2 E3) as R2.
  set (h2 := pushed (pushed h1 ml) n) in * . set (q2 := length (colors (pushed h1 ml))) in * .
  assert (Hn : at_addr h2 q2 n) by apply at_new.
  assert (Wn : @wf_color f32 (F32 o) XYZ n).
  { destruct (xyz_made (AF := F32 o) (xt *. tx w) (yt *. ty_ w) (zt *. tz w) al (rgb_space c)) as [m' [E [Wm' _]]]. rewrite xyz_nf in E. apply Ok_inj in E. unfold n. rewrite E. exact Wm'. }
  pose proof (xyz_to_rgb_deep_run (AF := F32 o) h2 q2 n i s gm (dot3 o B0 back_xyz) (dot3 o B1 back_xyz) (dot3 o B2 back_xyz) Hn Wn Es Hs Gm (rows3_ok o _ _ _ _ _ _ _ EB)) as RD.
  set (d0 := @corrected f32 (F32 o) bck (Color RGB_DEEP RGB_DEEP [c01x (dot3 o B0 back_xyz); c01x (dot3 o B1 back_xyz); c01x (dot3 o B2 back_xyz)] (m_alpha n) $1 $0 (rgb_space n))) in * .
  assert (Cd : d0 = Color RGB_DEEP RGB_DEEP [c01 (bck (c01x (dot3 o B0 back_xyz))); c01 (bck (c01x (dot3 o B1 back_xyz))); c01 (bck (c01x (dot3 o B2 back_xyz)))] al $1 $0 (rgb_space c)) by reflexivity.
  assert (Wd : @wf_color f32 (F32 o) RGB_DEEP d0).
  { destruct (rgb_deepcolor_made (AF := F32 o) (bck (c01x (dot3 o B0 back_xyz))) (bck (c01x (dot3 o B1 back_xyz))) (bck (c01x (dot3 o B2 back_xyz))) al (rgb_space c)) as [d' [E [Wd _]]].
    rewrite rgb_deepcolor_nf in E. apply Ok_inj in E. rewrite Cd, E. exact Wd. }
  assert (E4 : @rgb_deep_to_rgb_true_f f32 (F32 o) d0 = Ok (Color RGB_TRUE RGB_TRUE [home B0; home B1; home B2] (c01 (@fround f32 (F32 o) (al *. $255) /. $255)) $255 $0 (rgb_space c))).
  { unfold rgb_deep_to_rgb_true_f, with3. rewrite (alpha_std (AF := F32 o) d0 _ Wd eq_refl). rewrite Cd. cbn [comps m_alpha rgb_space]. rewrite rgb_truecolor_nf. reflexivity. }
  assert (D1 : dispatches (@to_lab f32 (F32 o)) RGB_TRUE (@rgb_true_to_lab f32 (F32 o))) by disp.
  assert (D2 : dispatches (@to_rgb_true f32 (F32 o)) LAB (@lab_to_rgb_true f32 (F32 o))) by disp.
  exists (length (colors h1)). do 2 eexists. eexists. exists (pushed h1 ml). eexists.
  split; [rewrite (D1 h p c Hp (wf_ty _ _ W)), K; exact R1|]. split; [exact Hl|].
  split. { rewrite (D2 (pushed h1 ml) _ ml Hl (wf_ty _ _ Wl)). unfold lab_to_rgb_true, bind, lab_to_xyz. rewrite R2. unfold xyz_to_rgb_true, bind. rewrite RD. exact (leaf_run RGB_DEEP _ _ _ d0 _ (at_new _ _ _) Wd E4). }
  split; [apply at_new|]. repeat split; reflexivity.
Qed.
End Call.
End Run.
