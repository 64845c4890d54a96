(** * One-way accuracy of the device conversions in binary32 (C208, C209) *)
From Coq Require Import ZArith QArith Reals Lra Lia List Bool.
From Flocq Require Import Core IEEE754.BinarySingleNaN.
From Verif Require Import Arith Outcome ColorModel GammaModel MatrixModel SpaceModel Heap Converter F32 F32Facts RArith
  Spec Spec32 Laws NormalForms Alpha8 Core_Proofs Core2_Proofs Core3_Proofs Core4_Proofs Hue32 Spec_Matrix Spec_Conv Spec_Round
  Conv_Proofs Conv2_Proofs Run_Proofs HueR_Proofs Round_Proofs Round2_Proofs Error_Proofs Error2_Proofs Error3_Proofs Error4_Proofs Error5_Proofs Error6_Proofs Spec_Error Spec_Formula Formula_Proofs.
Import ListNotations.
Local Open Scope R_scope.
Local Notation fin x := (is_finite x = true).
Local Notation fval := (@B2R 24 128).

Section E.
Context (o : oracle).
Local Notation "x +. y" := (@fadd f32 (F32 o) x y) (at level 50, left associativity).
Local Notation "x -. y" := (@fsub f32 (F32 o) x y) (at level 50, left associativity).
Local Notation "x *. y" := (@fmul f32 (F32 o) x y) (at level 40, left associativity).
Local Notation "x /. y" := (@fdiv f32 (F32 o) x y) (at level 40, left associativity).
Local Notation "$ n" := (fz (H := F32 o) n) (at level 2).
Local Notation c1 := (@c01 f32 (F32 o)).

Lemma near_approx x a e e' : near x a e -> e <= e' -> approx a e' x.
Proof. intros [F B] L. split; [exact F|]. change (@B2R 24 128) with fval. lra. Qed.

Section FromRgb.
Variables (h : heap f32) (p : nat) (c : color f32) (r g b : f32).
Hypothesis (Hp : at_addr h p c) (W : @wf_color f32 (F32 o) RGB_DEEP c) (Ec : comps c = [r; g; b]).
Let R := fval r. Let G := fval g. Let B := fval b.
Let mx := @fmax f32 (F32 o) (@fmax f32 (F32 o) r g) b.
Let mn := @fmin f32 (F32 o) (@fmin f32 (F32 o) r g) b.
Let hue := @hue_norm f32 (F32 o) (@hue_from_rgb_helper f32 (F32 o) r g b mx mn (mx -. mn)).

Lemma hue_ok : mx3 R G B <> mn3 R G B -> approx (Rmin (hexagon_hue R G B) 359) (/ 16384) hue.
Proof.
  intros E. destruct (chan_hue o c r g b W Ec E) as [NH _]. fold R G B in NH. unfold hueR in NH. cbv zeta in NH. rewrite (hue_published _ _ _ E) in NH. eapply near_approx; [exact NH|num].
Qed.
Lemma hue_zero : mx3 R G B = mn3 R G B -> approx (Rmin (hexagon_hue R G B) 359) (/ 16384) (@hue_norm f32 (F32 o) $0).
Proof.
  intros E. rewrite (hue_grey _ _ _ E), Rmin_left by lra. assert (N0 : near $0 0 0) by (apply near_fz; sm).
  destruct (fz_val o 0) as [_ V0]; [sm|]. destruct (hue_norm_up o $0 0 0 N0) as [NH _]; rewrite ?V0; try lra. eapply near_approx; [exact NH|num].
Qed.
Lemma zero_unit : near (c1 $0) 0 0.
Proof. apply near_01; [apply near_fz; sm|lra|lra]. Qed.

Lemma hsv_oneway : yields (@to_hsv f32 (F32 o)) h p (fun m => ty m = HSV /\ comp_sat m 0 (approx (Rmin (hexagon_hue R G B) 359) (/ 16384)) /\
  comp_sat m 1 (approx (if Req_EM_T (largest R G B) 0 then 0 else (largest R G B - smallest R G B) / largest R G B) (/ 4194304)) /\
  comp_sat m 2 (fun x => is_value x (largest R G B)) /\ m_alpha m = m_alpha c /\ rgb_space m = rgb_space c).
Proof.
  destruct (chan_mx o c r g b W Ec) as [Fx Vx]. destruct (chan_mn o c r g b W Ec) as [Fn Vn]. destruct (chan_range o c r g b W Ec) as [B0 [B1 BD]].
  fold mx in Fx, Vx. fold mn in Fn, Vn. fold R G B in Vx, Vn, B0, B1, BD. rewrite largest_mx, smallest_mn.
  destruct (Req_dec (mx3 R G B) (mn3 R G B)) as [E|E].
  - destruct (c01_val o mn Fn) as [Fc Vc]; [lra|].
    eapply (yields_leaf (@to_hsv f32 (F32 o)) RGB_DEEP (@rgb_deep_to_hsv_f f32 (F32 o)) h p c); [disp|exact Hp|exact W| |].
    + unfold rgb_deep_to_hsv_f, with3. rewrite Ec. cbv zeta. fold mx mn. rewrite (eq_val o mx mn) by (auto; rewrite Vx, Vn; exact E). rewrite hsv_nf. rewrite (alpha_std c _ W eq_refl). reflexivity.
    + split; [reflexivity|]. split; [eexists; split; [reflexivity|apply hue_zero, E]|]. split; [|split; [|split; reflexivity]].
      * eexists. split; [reflexivity|]. rewrite E. replace (if Req_EM_T (mn3 R G B) 0 then 0 else (mn3 R G B - mn3 R G B) / mn3 R G B) with 0 by (destruct (Req_EM_T (mn3 R G B) 0); [reflexivity|unfold Rdiv; ring]).
        eapply near_approx; [apply zero_unit|lra].
      * eexists. split; [reflexivity|]. split; [exact Fc|]. change (@B2R 24 128) with fval. lra.
  - assert (D : 0 < mx3 R G B - mn3 R G B) by lra. destruct (c01_val o mx Fx) as [Fc Vc]; [lra|].
    assert (S0 : 0 <= (mx3 R G B - mn3 R G B) / mx3 R G B <= 1) by (apply div_bounds; lra).
    assert (NS : near ((mx -. mn) /. mx) ((mx3 R G B - mn3 R G B) / mx3 R G B) (4 * u)).
    { rewrite <- Vx, <- Vn in * . apply (near_div o (mx -. mn) mx (fval mx - fval mn) (fval mx) u 0).
      - apply rel_sub; auto; apply Rabs_le; lra.
      - apply rel_self, Fx.
      - lra.
      - apply Rabs_le; lra.
      - num.
      - num. }
    eapply (yields_leaf (@to_hsv f32 (F32 o)) RGB_DEEP (@rgb_deep_to_hsv_f f32 (F32 o)) h p c); [disp|exact Hp|exact W| |].
    + unfold rgb_deep_to_hsv_f, with3. rewrite Ec. cbv zeta. fold mx mn. rewrite (ne_val o mx mn) by (auto; rewrite Vx, Vn; exact E). rewrite hsv_nf. rewrite (alpha_std c _ W eq_refl). reflexivity.
    + split; [reflexivity|]. split; [eexists; split; [reflexivity|apply hue_ok, E]|]. split; [|split; [|split; reflexivity]].
      * eexists. split; [reflexivity|]. destruct (Req_EM_T (mx3 R G B) 0) as [Z|_]; [lra|]. eapply near_approx; [apply near_01; [exact NS|num|exact S0]|num].
      * eexists. split; [reflexivity|]. split; [exact Fc|]. change (@B2R 24 128) with fval. lra.
Qed.

Lemma hcy_oneway : yields (@to_hcy f32 (F32 o)) h p (fun m => ty m = HCY /\ comp_sat m 0 (approx (Rmin (hexagon_hue R G B) 359) (/ 16384)) /\
  comp_sat m 1 (approx (largest R G B - smallest R G B) (/ 8388608)) /\ comp_sat m 2 (approx (luma709 R G B) (/ 2097152)) /\ m_alpha m = m_alpha c /\ rgb_space m = rgb_space c).
Proof.
  destruct (chan o c r g b W Ec) as [[Fr Br] [[Fg Bg] [Fb Bb]]].
  destruct (chan_mx o c r g b W Ec) as [Fx Vx]. destruct (chan_mn o c r g b W Ec) as [Fn Vn]. destruct (chan_range o c r g b W Ec) as [B0 [B1 BD]].
  fold mx in Fx, Vx. fold mn in Fn, Vn. fold R G B in Vx, Vn, B0, B1, BD, Br, Bg, Bb. rewrite largest_mx, smallest_mn.
  destruct (Req_dec (mx3 R G B) (mn3 R G B)) as [E|E].
  - destruct (grey_case R G B E) as [E1 [E2 E3]]. destruct (c01_val o mn Fn) as [Fc Vc]; [lra|].
    eapply (yields_leaf (@to_hcy f32 (F32 o)) RGB_DEEP (@rgb_deep_to_hcy_f f32 (F32 o)) h p c); [disp|exact Hp|exact W| |].
    + unfold rgb_deep_to_hcy_f, with3. rewrite Ec. cbv zeta. fold mx mn. rewrite (eq_val o mx mn) by (auto; rewrite Vx, Vn; exact E). rewrite hcy_nf. rewrite (alpha_std c _ W eq_refl). reflexivity.
    + split; [reflexivity|]. split; [eexists; split; [reflexivity|apply hue_zero, E]|]. split; [|split; [|split; reflexivity]].
      * eexists. split; [reflexivity|]. rewrite E, Rminus_diag_eq by reflexivity. eapply near_approx; [apply zero_unit|lra].
      * eexists. split; [reflexivity|]. split; [exact Fc|]. change (@B2R 24 128) with fval. unfold luma709. apply Rabs_le. lra.
  - assert (ND : near (mx -. mn) (mx3 R G B - mn3 R G B) (11 / 10 * u)).
    { rewrite <- Vx, <- Vn in * . eapply near_weaken; [apply (near_sub o mx mn _ _ 0 0 1 (near_self mx Fx) (near_self mn Fn))|]; try (apply Rabs_le; lra); num. }
    pose proof (luma_of o c r g b W Ec) as NL. fold R G B in NL.
    eapply (yields_leaf (@to_hcy f32 (F32 o)) RGB_DEEP (@rgb_deep_to_hcy_f f32 (F32 o)) h p c); [disp|exact Hp|exact W| |].
    + unfold rgb_deep_to_hcy_f, with3. rewrite Ec. cbv zeta. fold mx mn. rewrite (ne_val o mx mn) by (auto; rewrite Vx, Vn; exact E). rewrite hcy_nf. rewrite (alpha_std c _ W eq_refl). reflexivity.
    + split; [reflexivity|]. split; [eexists; split; [reflexivity|apply hue_ok, E]|]. split; [|split; [|split; reflexivity]].
      * eexists. split; [reflexivity|]. eapply near_approx; [apply near_01; [exact ND|num|lra]|num].
      * eexists. split; [reflexivity|]. unfold luma709. replace (0.2126 * R + 0.7152 * G + 0.0722 * B) with (2126 / 10000 * R + 7152 / 10000 * G + 722 / 10000 * B) by lra.
        eapply near_approx; [apply near_01; [exact NL|num|lra]|num].
Qed.

Let L := (mx3 R G B + mn3 R G B) / 2.
Let M := Rmin L (1 - L).
Lemma hsl_oneway : yields (@to_hsl f32 (F32 o)) h p (fun m => ty m = HSL /\ comp_sat m 0 (approx (Rmin (hexagon_hue R G B) 359) (/ 16384)) /\
  comp_sat m 1 (fun x => is_finite x = true /\ forall S, S = (if Req_EM_T (largest R G B) (smallest R G B) then 0 else (largest R G B - smallest R G B) / (1 - Rabs (largest R G B + smallest R G B - 1))) ->
    Rabs (B2R x - S) * (1 - Rabs (largest R G B + smallest R G B - 1)) <= / 262144) /\
  comp_sat m 2 (approx ((largest R G B + smallest R G B) / 2) (/ 4194304)) /\ m_alpha m = m_alpha c /\ rgb_space m = rgb_space c).
Proof.
  destruct (chan_mx o c r g b W Ec) as [Fx Vx]. destruct (chan_mn o c r g b W Ec) as [Fn Vn]. destruct (chan_range o c r g b W Ec) as [B0 [B1 BD]].
  fold mx in Fx, Vx. fold mn in Fn, Vn. fold R G B in Vx, Vn, B0, B1, BD. rewrite largest_mx, smallest_mn.
  assert (BL : 0 <= L <= 1) by (unfold L; lra).
  assert (EM : 1 - Rabs (mx3 R G B + mn3 R G B - 1) = 2 * M) by (unfold M; rewrite <- min_abs; do 3 f_equal; unfold L; lra). rewrite EM. fold L.
  destruct (Req_dec (mx3 R G B) (mn3 R G B)) as [E|E].
  - destruct (c01_val o mn Fn) as [Fc Vc]; [lra|].
    eapply (yields_leaf (@to_hsl f32 (F32 o)) RGB_DEEP (@rgb_deep_to_hsl_f f32 (F32 o)) h p c); [disp|exact Hp|exact W| |].
    + unfold rgb_deep_to_hsl_f, with3. rewrite Ec. cbv zeta. fold mx mn. rewrite (eq_val o mx mn) by (auto; rewrite Vx, Vn; exact E). rewrite hsl_nf. rewrite (alpha_std c _ W eq_refl). reflexivity.
    + split; [reflexivity|]. split; [eexists; split; [reflexivity|apply hue_zero, E]|]. split; [|split; [|split; reflexivity]].
      * eexists. split; [reflexivity|]. destruct zero_unit as [Fz Bz]. split; [exact Fz|]. intros S ->. destruct (Req_EM_T (mx3 R G B) (mn3 R G B)) as [_|K]; [|contradiction].
        change (@B2R 24 128) with fval. replace (Rabs (fval (c1 $0) - 0)) with 0 by (pose proof (Rabs_pos (fval (c1 $0) - 0)); lra). lra.
      * eexists. split; [reflexivity|]. split; [exact Fc|]. change (@B2R 24 128) with fval. unfold L. apply Rabs_le. lra.
  - destruct (Error5_Proofs.lightness o c r g b W Ec) as [NL _]. fold mx mn in NL. fold R G B in NL. fold L in NL.
    pose proof (den_close o c r g b W Ec) as ND. fold mx mn in ND. fold R G B in ND. fold L in ND. fold M in ND.
    set (lf := @lit f32 (F32 o) (1 # 2) *. (mx +. mn)) in * . set (den := $1 -. @fabs f32 (F32 o) ($2 *. lf -. $1)) in * .
    set (sat := if @feq f32 (F32 o) lf $0 || @feq f32 (F32 o) lf $1 then $0 else (mx -. mn) /. den).
    assert (D : 0 < mx3 R G B - mn3 R G B) by lra.
    assert (Mp : 0 < M) by (unfold M; apply Rmin_glb_lt; unfold L in *; lra).
    assert (Ml : (mx3 R G B - mn3 R G B) / 2 <= M) by (unfold M; apply Rmin_glb; unfold L; lra).
    assert (M1 : M <= 1 / 2) by (unfold M, Rmin; destruct (Rle_dec L (1 - L)); lra).
    assert (Q : 0 <= (mx3 R G B - mn3 R G B) / (2 * M) <= 1) by (apply div_bounds; lra).
    assert (NS : fin (c1 sat) /\ Rabs (fval (c1 sat) - (mx3 R G B - mn3 R G B) / (2 * M)) * (2 * M) <= 64 * u).
    { destruct (c01_unit o sat) as [Fs Bs]. split; [exact Fs|]. destruct (Rle_lt_dec M (32 * u)) as [C|C].
      - apply Rle_trans with (1 * (2 * M)); [apply Rmult_le_compat_r; [lra|apply Rabs_le; lra]|lra].
      - assert (Z0 : 0 < L - 32 * u /\ L + 32 * u < 1). { unfold M in C. pose proof (Rmin_l L (1 - L)). pose proof (Rmin_r L (1 - L)). lra. }
        destruct (fz_val o 0) as [F0 V0]; [sm|]. destruct (fz_val o 1) as [F1 V1]; [sm|]. pose proof (near_range _ _ _ NL) as RL.
        unfold sat. rewrite (ne_val o lf $0), (ne_val o lf $1) by (try apply (proj1 NL); auto; rewrite ?V0, ?V1; num). cbn [orb].
        assert (NDel : near (mx -. mn) (mx3 R G B - mn3 R G B) (11 / 10 * u)).
        { rewrite <- Vx, <- Vn in * . eapply near_weaken; [apply (near_sub o mx mn _ _ 0 0 1 (near_self mx Fx) (near_self mn Fn))|]; try (apply Rabs_le; lra); num. }
        assert (Q2 : 0 <= 4 / 3 * (11 / 10 * u + 86 / 10 * u) / (2 * M) <= 1 / 4) by (apply div_bounds; num).
        assert (NN : near (c1 ((mx -. mn) /. den)) ((mx3 R G B - mn3 R G B) / (2 * M)) (4 / 3 * (11 / 10 * u + 86 / 10 * u) / (2 * M) + 2 * u)).
        { apply near_01; [apply near_ratio; auto; num|num|exact Q]. }
        destruct NN as [_ NN]. apply Rle_trans with ((4 / 3 * (11 / 10 * u + 86 / 10 * u) / (2 * M) + 2 * u) * (2 * M)); [apply Rmult_le_compat_r; [lra|exact NN]|].
        replace ((4 / 3 * (11 / 10 * u + 86 / 10 * u) / (2 * M) + 2 * u) * (2 * M)) with (4 / 3 * (11 / 10 * u + 86 / 10 * u) + M * (4 * u)) by (field; lra).
        assert (M * (4 * u) <= 1 / 2 * (4 * u)) by (apply Rmult_le_compat_r; [num|exact M1]). num. }
    destruct NS as [Fs NS].
    eapply (yields_leaf (@to_hsl f32 (F32 o)) RGB_DEEP (@rgb_deep_to_hsl_f f32 (F32 o)) h p c); [disp|exact Hp|exact W| |].
    + unfold rgb_deep_to_hsl_f, with3. rewrite Ec. cbv zeta. fold mx mn. rewrite (ne_val o mx mn) by (auto; rewrite Vx, Vn; exact E). fold lf. fold den. fold sat. rewrite hsl_nf. rewrite (alpha_std c _ W eq_refl). reflexivity.
    + split; [reflexivity|]. split; [eexists; split; [reflexivity|apply hue_ok, E]|]. split; [|split; [|split; reflexivity]].
      * eexists. split; [reflexivity|]. split; [exact Fs|]. intros S ->. destruct (Req_EM_T (mx3 R G B) (mn3 R G B)) as [K|_]; [contradiction|]. change (@B2R 24 128) with fval. num.
      * eexists. split; [reflexivity|]. eapply near_approx; [apply near_01; [exact NL|num|exact BL]|num].
Qed.

Lemma intensity_close : let i := (r +. g +. b) /. $3 in let I := (R + G + B) / 3 in
  fin i /\ Rabs (fval i - I) <= 31 / 10 * u * I + tiny /\ 0 <= I <= 1.
Proof.
  cbv zeta. destruct (chan o c r g b W Ec) as [[Fr Br] [[Fg Bg] [Fb Bb]]]. change (fval r) with R in Br. change (fval g) with G in Bg. change (fval b) with B in Bb.
  destruct (Bplus_ok r g 0 2 Fr Fg) as [F1 V1]; try sm; [fold R G; lra|]. change (r +. g) with (Bplus mode_NE r g). destruct (rnd_plus r g) as [e1 [H1 E1]]. rewrite <- V1 in E1. fold R G in E1.
  assert (B1 : 0 <= fval (Bplus mode_NE r g) <= 2) by (rewrite V1; apply (rnd32_bounds _ 0 2); try sm; fold R G; lra).
  set (s := Bplus mode_NE r g) in * . clearbody s.
  destruct (Bplus_ok s b 0 3 F1 Fb) as [F2 V2]; try sm; [fold B; lra|]. change (s +. b) with (Bplus mode_NE s b). destruct (rnd_plus s b) as [e2 [H2 E2]]. rewrite <- V2 in E2. fold B in E2.
  assert (B2 : 0 <= fval (Bplus mode_NE s b) <= 3) by (rewrite V2; apply (rnd32_bounds _ 0 3); try sm; fold B; lra).
  set (t := Bplus mode_NE s b) in * . clearbody t.
  destruct (fz_val o 3) as [F3 V3]; [sm|]. destruct (Bdiv_ok t $3 0 1 F2 F3) as [Fi Vi]; try sm; [rewrite V3; lra|rewrite V3; lra|].
  change (t /. $3) with (Bdiv mode_NE t $3). split; [exact Fi|]. split; [|lra]. rewrite Vi, V3. pose proof (rnd_err (fval t / 3)) as E3. rewrite (Rabs_pos_eq (fval t / 3)) in E3 by lra.
  apply Rabs_le_inv in E3. apply Rabs_le_inv in H1. apply Rabs_le_inv in H2.
  assert (G1 : Rabs (fval s - (R + G)) <= u * (R + G)). { rewrite E1. replace ((R + G) * (1 + e1) - (R + G)) with (e1 * (R + G)) by ring. rewrite Rabs_mult, (Rabs_pos_eq (R + G)) by lra. apply Rmult_le_compat_r; [lra|apply Rabs_le; lra]. }
  assert (G2 : Rabs (fval t - (fval s + B)) <= u * (fval s + B)). { rewrite E2. replace ((fval s + B) * (1 + e2) - (fval s + B)) with (e2 * (fval s + B)) by ring. rewrite Rabs_mult, (Rabs_pos_eq (fval s + B)) by lra. apply Rmult_le_compat_r; [lra|apply Rabs_le; lra]. }
  apply Rabs_le_inv in G1. apply Rabs_le_inv in G2. clear E1 E2. clearbody R G B. apply Rabs_le. num.
Qed.

Lemma hsi_oneway : yields (@to_hsi f32 (F32 o)) h p (fun m => ty m = HSI /\ comp_sat m 0 (approx (Rmin (hexagon_hue R G B) 359) (/ 16384)) /\
  comp_sat m 1 (fun x => is_finite x = true /\ (/ 1073741824 <= largest R G B -> Rabs (B2R x - (1 - smallest R G B / ((R + G + B) / 3))) <= / 2097152)) /\
  comp_sat m 2 (approx ((R + G + B) / 3) (/ 4194304)) /\ m_alpha m = m_alpha c /\ rgb_space m = rgb_space c).
Proof.
  destruct (chan_mx o c r g b W Ec) as [Fx Vx]. destruct (chan_mn o c r g b W Ec) as [Fn Vn]. destruct (chan_range o c r g b W Ec) as [B0 [B1 BD]].
  fold mx in Fx, Vx. fold mn in Fn, Vn. fold R G B in Vx, Vn, B0, B1, BD. rewrite largest_mx, smallest_mn.
  destruct (Req_dec (mx3 R G B) (mn3 R G B)) as [E|E].
  - destruct (grey_case R G B E) as [E1 [E2 E3]]. destruct (c01_val o mn Fn) as [Fc Vc]; [lra|].
    eapply (yields_leaf (@to_hsi f32 (F32 o)) RGB_DEEP (@rgb_deep_to_hsi_f f32 (F32 o)) h p c); [disp|exact Hp|exact W| |].
    + unfold rgb_deep_to_hsi_f, with3. rewrite Ec. cbv zeta. fold mx mn. rewrite (eq_val o mx mn) by (auto; rewrite Vx, Vn; exact E). rewrite hsi_nf. rewrite (alpha_std c _ W eq_refl). reflexivity.
    + split; [reflexivity|]. split; [eexists; split; [reflexivity|apply hue_zero, E]|]. split; [|split; [|split; reflexivity]].
      * eexists. split; [reflexivity|]. destruct zero_unit as [Fz Bz]. split; [exact Fz|]. intros P. change (@B2R 24 128) with fval.
        replace ((R + G + B) / 3) with (mn3 R G B) by lra. replace (1 - mn3 R G B / mn3 R G B) with 0 by (field; lra). lra.
      * eexists. split; [reflexivity|]. split; [exact Fc|]. change (@B2R 24 128) with fval. apply Rabs_le. lra.
  - destruct intensity_close as [Fi [Ei BI]]. set (i := (r +. g +. b) /. $3) in * . set (I := (R + G + B) / 3) in * .
    assert (MI : mn3 R G B <= I /\ mx3 R G B <= 3 * I). { pose proof (mn3_le R G B). pose proof (mx3_in R G B) as X. destruct (chan o c r g b W Ec) as [[_ Br] [[_ Bg] [_ Bb]]]. fold R G B in Br, Bg, Bb. unfold I. destruct X as [X|[X|X]]; rewrite X; lra. }
    eapply (yields_leaf (@to_hsi f32 (F32 o)) RGB_DEEP (@rgb_deep_to_hsi_f f32 (F32 o)) h p c); [disp|exact Hp|exact W| |].
    + unfold rgb_deep_to_hsi_f, with3. rewrite Ec. cbv zeta. fold mx mn. rewrite (ne_val o mx mn) by (auto; rewrite Vx, Vn; exact E). fold i. rewrite hsi_nf. rewrite (alpha_std c _ W eq_refl). reflexivity.
    + split; [reflexivity|]. split; [eexists; split; [reflexivity|apply hue_ok, E]|]. split; [|split; [|split; reflexivity]].
      * eexists. split; [reflexivity|]. split; [apply c01_unit|]. intros P.
        assert (NI : near i I (32 / 10 * u * I)) by (split; [exact Fi|]; unfold tiny in Ei; num).
        assert (Q : 0 <= mn3 R G B / I <= 1) by (apply div_bounds; lra).
        assert (NQ : near (mn /. i) (mn3 R G B / I) (63 / 10 * u)).
        { eapply near_weaken; [apply (near_ratio o mn i (mn3 R G B) I 0 (32 / 10 * u * I))|]; try lra; try num.
          - rewrite <- Vn. apply near_self, Fn.
          - exact NI.
          - replace (4 / 3 * (0 + 32 / 10 * u * I) / I) with (4 / 3 * (32 / 10 * u)) by (field; lra). num. }
        assert (NS : near ($1 -. mn /. i) (1 - mn3 R G B / I) (75 / 10 * u)) by (eapply near_weaken; [apply (near_sub o _ _ _ _ _ _ 1 (near_one o) NQ)|]; try (apply Rabs_le; lra); num).
        destruct (near_01 o _ _ _ NS ltac:(num) ltac:(lra)) as [_ NC]. change (@B2R 24 128) with fval. num.
      * eexists. split; [reflexivity|]. eapply near_approx; [apply near_01; [split; [exact Fi|exact Ei]|unfold tiny; num|exact BI]|unfold tiny; num].
Qed.

Lemma cmyk_channel m x : fin m -> fin x -> 0 < fval m <= 1 -> 0 <= fval x <= fval m ->
  fin (c1 (($1 -. x -. ($1 -. m)) /. ($1 -. ($1 -. m)))) /\ Rabs (fval (c1 (($1 -. x -. ($1 -. m)) /. ($1 -. ($1 -. m)))) - (fval m - fval x) / fval m) * fval m <= 32 * u.
Proof.
  intros Fm Fx Bm Bx. destruct (c01_unit o (($1 -. x -. ($1 -. m)) /. ($1 -. ($1 -. m)))) as [F Bq]. split; [exact F|].
  assert (Q : 0 <= (fval m - fval x) / fval m <= 1) by (apply div_bounds; lra).
  destruct (Rle_lt_dec (fval m) (32 * u)) as [S|S]; [apply Rle_trans with (1 * fval m); [apply Rmult_le_compat_r; [lra|apply Rabs_le; lra]|lra]|].
  pose proof (key_close o m Fm ltac:(lra)) as NK. pose proof (white_close o m ltac:(lra) _ NK) as ND.
  assert (N1 : near ($1 -. x) (1 - fval x) (101 / 100 * u)).
  { eapply near_weaken; [apply (near_sub o _ _ _ _ _ _ 1 (near_one o) (near_self x Fx))|]; try (apply Rabs_le; lra); num. }
  assert (N2 : near ($1 -. x -. ($1 -. m)) (fval m - fval x) (31 / 10 * u)).
  { replace (fval m - fval x) with (1 - fval x - (1 - fval m)) by ring. eapply near_weaken; [apply (near_sub o _ _ _ _ _ _ 1 N1 NK)|]; try (apply Rabs_le; lra); num. }
  assert (Q2 : 0 <= 4 / 3 * (31 / 10 * u + 21 / 10 * u) / fval m <= 1 / 2) by (apply div_bounds; num).
  assert (NN : near (c1 (($1 -. x -. ($1 -. m)) /. ($1 -. ($1 -. m)))) ((fval m - fval x) / fval m) (4 / 3 * (31 / 10 * u + 21 / 10 * u) / fval m + 2 * u)).
  { apply near_01; [apply near_ratio; auto; num|num|exact Q]. }
  destruct NN as [_ NN]. apply Rle_trans with ((4 / 3 * (31 / 10 * u + 21 / 10 * u) / fval m + 2 * u) * fval m); [apply Rmult_le_compat_r; [lra|exact NN]|].
  replace ((4 / 3 * (31 / 10 * u + 21 / 10 * u) / fval m + 2 * u) * fval m) with (4 / 3 * (31 / 10 * u + 21 / 10 * u) + fval m * (2 * u)) by (field; lra). num.
Qed.
Lemma cmyk_oneway : 0 < largest R G B -> yields (@to_cmyk f32 (F32 o)) h p (fun m => ty m = CMYK /\
  (forall i x, In (i, x) [(0%nat, R); (1%nat, G); (2%nat, B)] -> comp_sat m i (fun y => is_finite y = true /\ Rabs (B2R y - (largest R G B - x) / largest R G B) * largest R G B <= / 524288)) /\
  comp_sat m 3 (approx (1 - largest R G B) (/ 8388608)) /\ m_alpha m = m_alpha c /\ rgb_space m = rgb_space c).
Proof.
  destruct (chan o c r g b W Ec) as [[Fr Br] [[Fg Bg] [Fb Bb]]]. destruct (chan_mx o c r g b W Ec) as [Fx Vx]. destruct (chan_range o c r g b W Ec) as [B0 [B1 BD]].
  fold mx in Fx, Vx. fold R G B in Vx, B0, B1, BD, Br, Bg, Bb. rewrite largest_mx. intros P. pose proof (mx3_ge R G B) as [X1 [X2 X3]].
  assert (K : forall x, fin x -> 0 <= fval x <= mx3 R G B -> fin (c1 (($1 -. x -. ($1 -. mx)) /. ($1 -. ($1 -. mx)))) /\
    Rabs (B2R (c1 (($1 -. x -. ($1 -. mx)) /. ($1 -. ($1 -. mx)))) - (mx3 R G B - fval x) / mx3 R G B) * mx3 R G B <= / 524288).
  { intros x Fxx Bx. rewrite <- Vx in * . destruct (cmyk_channel mx x Fx Fxx ltac:(lra) ltac:(lra)) as [F E]. split; [exact F|]. change (@B2R 24 128) with fval. num. }
  eapply (yields_leaf (@to_cmyk f32 (F32 o)) RGB_DEEP (@rgb_deep_to_cmyk_f f32 (F32 o)) h p c); [disp|exact Hp|exact W| |].
  - unfold rgb_deep_to_cmyk_f, with3. rewrite Ec. cbv zeta. fold mx. rewrite cmyk_nf. rewrite (alpha_std c _ W eq_refl). reflexivity.
  - split; [reflexivity|]. split; [|split; [|split; reflexivity]].
    + intros i x [E|[E|[E|[]]]]; injection E as <- <-; (eexists; split; [reflexivity|]); apply K; auto; unfold R, G, B in *; lra.
    + eexists. split; [reflexivity|]. rewrite <- Vx. eapply near_approx; [apply near_01; [apply key_close; [exact Fx|lra]|num|lra]|num].
Qed.
End FromRgb.
End E.
