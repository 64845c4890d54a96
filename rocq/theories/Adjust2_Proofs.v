(** * color_adjustments: formulas, counterexamples and statements for binary32 *)
From Coq Require Import ZArith QArith Reals Lra Lia List Bool.
From Flocq Require Import Core IEEE754.BinarySingleNaN.
From Verif Require Import Arith Outcome ColorModel GammaModel MatrixModel SpaceModel Heap Converter Calculation Blend Adjust
  Spec F32 RArith F32Facts Hue32 Spec32 Laws NormalForms History Core_Proofs Core2_Proofs Core3_Proofs Core4_Proofs Convert_Proofs Alpha8
  Spec_Matrix Spec_Conv Spec_Calc Spec_Blend Spec_Adjust
  Conv_Proofs Conv2_Proofs Conv3_Proofs Total_Proofs HueR_Proofs Round_Proofs Calc_Proofs Calc2_Proofs Calc3_Proofs Blend_Proofs Blend2_Proofs Blend3_Proofs
  Adjust_Proofs.
Import ListNotations.

(** ** Intervals and binary32 operations *)
Lemma in_mul_unit x y : in_interval 0 1 x -> in_interval 0 1 y -> in_interval 0 1 (Bmult mode_NE x y).
Proof.
  intros [Fx Vx] [Fy Vy].
  assert (B : (IZR 0 <= fval x * fval y <= IZR 1)%R).
  { change (0 <= fval x <= 1)%R in Vx. change (0 <= fval y <= 1)%R in Vy. split; [apply Rmult_le_pos; lra|].
    replace (IZR 1) with (1 * 1)%R by lra. apply Rmult_le_compat; lra. }
  destruct (Bmult_ok x y 0 1 Fx Fy) as [P1 P2]; try sm; auto. split; [exact P1|]. change (B2R (Bmult mode_NE x y)) with (fval (Bmult mode_NE x y)).
  rewrite P2. apply rnd32_bounds; try sm; auto.
Qed.
Lemma in_plus x y a b c d : small (a + c) -> small (b + d) -> in_interval a b x -> in_interval c d y ->
  in_interval (a + c) (b + d) (Bplus mode_NE x y).
Proof.
  intros S1 S2 [Fx Vx] [Fy Vy].
  assert (B : (IZR (a + c) <= fval x + fval y <= IZR (b + d))%R) by (rewrite !plus_IZR; lra).
  destruct (Bplus_ok x y (a + c) (b + d) Fx Fy S1 S2 B) as [P1 P2]. split; [exact P1|].
  change (B2R (Bplus mode_NE x y)) with (fval (Bplus mode_NE x y)). rewrite P2. apply rnd32_bounds; auto.
Qed.
Lemma in_minus x y a b c d : small (a - d) -> small (b - c) -> in_interval a b x -> in_interval c d y ->
  in_interval (a - d) (b - c) (Bminus mode_NE x y).
Proof.
  intros S1 S2 [Fx Vx] [Fy Vy].
  assert (B : (IZR (a - d) <= fval x - fval y <= IZR (b - c))%R) by (rewrite !minus_IZR; lra).
  destruct (Bminus_ok x y (a - d) (b - c) Fx Fy S1 S2 B) as [P1 P2]. split; [exact P1|].
  change (B2R (Bminus mode_NE x y)) with (fval (Bminus mode_NE x y)). rewrite P2. apply rnd32_bounds; auto.
Qed.
Lemma value_mul_0 x y : is_value x 0 -> is_finite y = true -> is_value (Bmult mode_NE x y) 0.
Proof.
  intros [Fx Vx] Fy. assert (B : (IZR 0 <= fval x * fval y <= IZR 0)%R) by (rewrite Vx; lra).
  destruct (Bmult_ok x y 0 0 Fx Fy) as [P1 P2]; try sm; auto. split; [exact P1|].
  change (B2R (Bmult mode_NE x y)) with (fval (Bmult mode_NE x y)). rewrite P2. rewrite Vx, Rmult_0_l. apply rnd32_0.
Qed.

(** The setters of saturation and lightness. *)
Lemma hsl_set {F} {AF : Arith F} (c : color F) v i x y z : wf_color HSL c -> comps c = [x; y; z] -> (i = 1 \/ i = 2)%nat ->
  named_set HSL c v i = Ok (with_comps c (if Nat.eqb i 1 then [x; c01 v; z] else [x; y; c01 v])).
Proof.
  intros W E Hi. unfold c01. change (fz 1) with (fz (snd (limits HSL))). change (fz 0) with (fz (fst (limits HSL))).
  rewrite <- (wf_max _ _ W), <- (wf_min _ _ W).
  destruct Hi as [-> | ->]; cbn [named_set Z.of_nat Nat.eqb]; unfold set_component, set_component_lim, bad_index; rewrite E; reflexivity.
Qed.

(** ** Exact arithmetic *)
Section Exact.
Local Open Scope R_scope.

Lemma clamp01 x : c01 (AF := RArith) x = unit_clamp x.
Proof. unfold c01, clamp, unit_clamp. rewrite !fzR. cbn [fmin fmax RArith]. apply Rmax_comm. Qed.

Lemma unit_clamp_id x : 0 <= x <= 1 -> unit_clamp x = x.
Proof. intros H. unfold unit_clamp. rewrite Rmin_left, Rmax_right by lra. reflexivity. Qed.

Lemma deep_channels (c : color R) : wf_color RGB_DEEP c -> exists r g b, comps c = [r; g; b] /\ 0 <= r <= 1 /\ 0 <= g <= 1 /\ 0 <= b <= 1.
Proof.
  intros W. destruct (comps3 _ c W eq_refl) as [r [g [b E]]]. exists r, g, b. split; [exact E|].
  pose proof (wf_rng RGB_DEEP c 0 r W) as Hr. pose proof (wf_rng RGB_DEEP c 1 g W) as Hg. pose proof (wf_rng RGB_DEEP c 2 b W) as Hb.
  rewrite E in Hr, Hg, Hb. specialize (Hr eq_refl). specialize (Hg eq_refl). specialize (Hb eq_refl).
  unfold rng in *. simpl in Hr, Hg, Hb. lra.
Qed.

Lemma rgb_adjust a p (h : heap R) i c r g b : in_hsl a = false -> at_addr h i c -> wf_color RGB_DEEP c -> comps c = [r; g; b] ->
  returns (adjust a (Some i) p) h (fun t => comps t = adjusted a p r g b /\ m_alpha t = m_alpha c /\ rgb_space t = rgb_space c).
Proof.
  intros Ha H W E.
  assert (St : exists f, adjust a (Some i) p = adjust_rgb f (Some i) /\ rgb_step f /\
    forall t, f (rgb_space c) c = Ok t -> comps t = adjusted a p r g b).
  { destruct a; try discriminate Ha.
    - exists (saturate_rgb_f p). split; [reflexivity|]. split; [apply saturate_step|]. intros t Et. unfold saturate_rgb_f, with3 in Et. rewrite E in Et.
      cbv zeta in Et. rewrite rgb_deepcolor_nf in Et. apply Ok_inj in Et. rewrite <- Et. cbn [comps adjusted map].
      rewrite !clamp01. cbn [fmul fsub fadd lit RArith]. unfold luma, Q2R. simpl.
      repeat (apply f_equal2; [apply f_equal; field|]). reflexivity.
    - exists (luminate_rgb_f p). split; [reflexivity|]. split; [apply luminate_step|]. intros t Et. unfold luminate_rgb_f, with3 in Et. rewrite E in Et.
      cbv zeta in Et. rewrite rgb_deepcolor_nf in Et. apply Ok_inj in Et. rewrite <- Et. cbn [comps adjusted map].
      rewrite !clamp01, !fzR. cbn [fmul fsub fadd lit RArith]. reflexivity. }
  destruct St as [f [-> [S K]]].
  destruct (adjust_rgb_run f h RGB_DEEP i c S H W ltac:(discriminate)) as [d [t [h1 [q [_ [_ [Id [Et [Wt [At [Sp [_ [_ [Aq Er]]]]]]]]]]]]]].
  rewrite (Id eq_refl) in Et, At. exists q, t, h1. split.
  { rewrite Er. apply (to_type_same RGB_DEEP h1 q t Aq Wt). }
  split; [exact Aq|]. split; [apply K, Et|]. split; [|exact Sp]. rewrite At. apply (alpha_std c RGB_DEEP W eq_refl).
Qed.

Lemma rgb_black (h : heap R) i c : at_addr h i c -> wf_color RGB_DEEP c ->
  returns (adjust LuminateRGB (Some i) (-1)) h (fun t => comps t = [0; 0; 0] /\ m_alpha t = m_alpha c).
Proof.
  intros H W. destruct (deep_channels c W) as [r [g [b [E _]]]].
  destruct (rgb_adjust LuminateRGB (-1) h i c r g b eq_refl H W E) as [q [t [h' [E' [A [C [B _]]]]]]].
  exists q, t, h'. split; [exact E'|]. split; [exact A|]. split; [|exact B]. rewrite C. cbn [adjusted map].
  replace (1 + -1) with 0 by lra. rewrite !Rmult_0_r. rewrite unit_clamp_id by lra. reflexivity.
Qed.

Lemma rgb_grey (h : heap R) i c r g b : at_addr h i c -> wf_color RGB_DEEP c -> comps c = [r; g; b] ->
  returns (adjust SaturateRGB (Some i) (-1)) h (fun t => comps t = [luma r g b; luma r g b; luma r g b] /\ m_alpha t = m_alpha c).
Proof.
  intros H W E. destruct (deep_channels c W) as [r' [g' [b' [E2 [R1 [R2 R3]]]]]]. rewrite E in E2. injection E2 as <- <- <-.
  destruct (rgb_adjust SaturateRGB (-1) h i c r g b eq_refl H W E) as [q [t [h' [E' [A [C [B _]]]]]]].
  exists q, t, h'. split; [exact E'|]. split; [exact A|]. split; [|exact B]. rewrite C. cbn [adjusted map].
  assert (L : 0 <= luma r g b <= 1) by (unfold luma; lra).
  replace (r + -1 * (r - luma r g b)) with (luma r g b) by ring.
  replace (g + -1 * (g - luma r g b)) with (luma r g b) by ring.
  replace (b + -1 * (b - luma r g b)) with (luma r g b) by ring.
  rewrite unit_clamp_id by exact L. reflexivity.
Qed.

Lemma rgb_zero a (h : heap R) i c : in_hsl a = false -> at_addr h i c -> wf_color RGB_DEEP c ->
  returns (adjust a (Some i) 0) h (fun t => comps t = comps c /\ m_alpha t = m_alpha c).
Proof.
  intros Ha H W. destruct (deep_channels c W) as [r [g [b [E [R1 [R2 R3]]]]]].
  destruct (rgb_adjust a 0 h i c r g b Ha H W E) as [q [t [h' [E' [A [C [B _]]]]]]].
  exists q, t, h'. split; [exact E'|]. split; [exact A|]. split; [|exact B]. rewrite C, E.
  destruct a; try discriminate Ha; cbn [adjusted map]; rewrite ?Rmult_0_l, ?Rplus_0_r, ?Rmult_1_r;
    rewrite !unit_clamp_id by assumption; reflexivity.
Qed.

Lemma hsl_formula a p (h : heap R) i c x y z : in_hsl a = true -> p <> 0 -> at_addr h i c -> wf_color HSL c -> comps c = [x; y; z] ->
  returns (adjust a (Some i) p) h (fun t => m_alpha t = m_alpha c /\ rgb_space t = rgb_space c /\
    comps t = match a with LuminateHSL => [x; y; unit_clamp (z * (1 + p))] | _ => [x; unit_clamp (y * (1 + p)); z] end).
Proof.
  intros Ha Hp H W E.
  assert (Q : adjust a = adjust_hsl (AF := RArith) (hsl_component a)) by (destruct a; try discriminate Ha; reflexivity).
  assert (P : feq (Arith := RArith) p (fz 0) = false) by (rewrite fzR; apply Reqb_ne; exact Hp).
  rewrite Q. destruct (adjust_hsl_self (hsl_component a) h i c p ltac:(destruct a; simpl; lia) P H W) as [w [v [Ew [Ev [Wv [Av [Sv R]]]]]]].
  exists i, v, (Heap (upd i v (colors h)) (spaces h)). split; [exact R|]. split; [apply (at_upd h i c v H)|]. split; [exact Av|]. split; [exact Sv|].
  rewrite fzR in Ev. cbn [fmul fadd RArith] in Ev.
  destruct a; try discriminate Ha; cbn [hsl_component] in *; unfold raw_comp in Ew; rewrite E in Ew; cbn [nth_error] in Ew;
    apply Ok_inj in Ew; rewrite <- Ew in Ev; rewrite (hsl_set c _ _ x y z W E) in Ev by auto;
    apply Ok_inj in Ev; rewrite <- Ev; cbn [comps with_comps Nat.eqb]; rewrite clamp01; reflexivity.
Qed.

Lemma adjust_exampleR : exists (h : heap R) c, at_addr h 0%nat c /\ wf_color RGB_DEEP c /\ comps c = [1 / 2; 0; 1] /\ m_alpha c = 1 /\
  adjusted LuminateRGB (1 / 2) (1 / 2) 0 1 = [3 / 4; 0; 1] /\
  exists d, at_addr h 1%nat d /\ wf_color HSL d /\ comps d = [120; 1 / 2; 1 / 2].
Proof.
  destruct (rgb_deepcolor_made (AF := RArith) (AL := RLaws) (1 / 2) 0 1 1 None) as [c [Ec [W [A S]]]].
  destruct (hsl_made (AF := RArith) (AL := RLaws) 120 (1 / 2) (1 / 2) 1 None) as [d [Ed [Wd [Ad Sd]]]].
  exists (Heap [c; d] []), c. split; [reflexivity|]. split; [exact W|].
  rewrite rgb_deepcolor_nf in Ec. apply Ok_inj in Ec. split; [rewrite <- Ec; cbn [comps]; rewrite !c01R by lra; reflexivity|].
  split; [exact A|]. split.
  { cbn [adjusted map]. unfold unit_clamp. rewrite Rmin_left by lra. rewrite Rmin_left by lra. rewrite Rmin_right by lra.
    rewrite !Rmax_right by lra. repeat (apply f_equal2; [lra|]). reflexivity. }
  exists d. split; [reflexivity|]. split; [exact Wd|]. rewrite (hsl_nf (AL := RLaws)) in Ed. apply Ok_inj in Ed.
  rewrite <- Ed. cbn [comps]. rewrite hue_norm_id, !c01R by lra. reflexivity.
Qed.
End Exact.

(** ** Binary32 *)
Section Binary32.
Variable o : oracle.
Local Notation wf := (@wf_color f32 (F32 o)).

Lemma zero_eq (p : f32) : is_value p 0 -> @feq f32 (F32 o) p (@fz f32 (F32 o) 0) = true.
Proof.
  intros [Fp Vp]. destruct (fz_val o 0) as [F0 V0]; [sm|]. cbn [feq F32]. rewrite Beqb_fin by assumption. apply Req_bool_true.
  change (fval p) with (B2R p). rewrite Vp, V0. reflexivity.
Qed.
Lemma nonzero_ne (p : f32) : ~ is_value p 0 -> @feq f32 (F32 o) p (@fz f32 (F32 o) 0) = false.
Proof.
  intros N. destruct (@feq f32 (F32 o) p (@fz f32 (F32 o) 0)) eqn:E; [|reflexivity]. destruct N.
  destruct (fz_val o 0) as [F0 V0]; [sm|].
  cbn [feq F32] in E. destruct (is_finite p) eqn:Fp.
  - split; [exact Fp|]. rewrite Beqb_fin in E by assumption.
    pose proof (Req_bool_spec (fval p) (fval (@fz f32 (F32 o) 0))) as Q. rewrite E in Q. inversion Q as [K|]. rewrite V0 in K. exact K.
  - destruct p as [s|s| |s m e B]; try discriminate Fp; try discriminate E. destruct s; discriminate E.
Qed.

Lemma adjust_hsl_same a p pc (h : heap f32) : in_hsl a = true -> is_value pc 0 -> @adjust f32 (F32 o) a p pc h = (Ok p, h).
Proof. intros Ha Hp. destruct a; try discriminate Ha; apply (adjust_hsl_zero (AF := F32 o)); apply zero_eq, Hp. Qed.

Definition is_rgb (f : ptr -> f32 -> M f32 ptr) : Prop := forall pc, exists g, @rgb_step f32 (F32 o) g /\ forall p, f p pc = @adjust_rgb f32 (F32 o) g p.
Lemma adjust_is_rgb a : in_hsl a = false -> is_rgb (@adjust f32 (F32 o) a).
Proof.
  intros Ha pc. destruct a; try discriminate Ha.
  - exists (@saturate_rgb_f f32 (F32 o) pc). split; [apply saturate_step|reflexivity].
  - exists (@luminate_rgb_f f32 (F32 o) pc). split; [apply luminate_step|reflexivity].
Qed.
Lemma adjust_is_hsl a : in_hsl a = true -> @adjust f32 (F32 o) a = @adjust_hsl f32 (F32 o) (hsl_component a) /\ (hsl_component a < 3)%nat.
Proof. intros Ha. destruct a; try discriminate Ha; (split; [reflexivity|simpl; lia]). Qed.

(** Every adjustment of a colour that is not LCh returns a colour of the same type. *)
Lemma adjust_total a pc (h : heap f32) X p c : at_addr h p c -> wf X c -> convertible X = true -> (cie X = true -> has_space h c) ->
  (in_hsl a = true -> X <> HSL /\ ~ is_value pc 0) ->
  exists q r h', @adjust f32 (F32 o) a (Some p) pc h = (Ok (Some q), h') /\ fresh h q /\ at_addr h' q r /\ colour_of_type X r /\
    rgb_space r = rgb_space c /\ unchanged h h' /\ wf X r.
Proof.
  intros H W C N K. destruct (in_hsl a) eqn:Ha.
  - destruct (K eq_refl) as [D P]. destruct (adjust_is_hsl a Ha) as [-> Hi].
    destruct (adjust_hsl_total (AF := F32 o) (hsl_component a) h X p c pc Hi (nonzero_ne pc P) H W C D N) as [q [r [h' [E [Fq [Aq [Wr [S U]]]]]]]].
    exists q, r, h'. do 3 (split; [assumption|]). split; [apply (wf_colour o), Wr|]. auto.
  - destruct (adjust_is_rgb a Ha pc) as [g [G ->]].
    destruct (adjust_rgb_total (AF := F32 o) g h X p c G H W C N) as [q [r [h' [E [Fq [Aq [Wr [S [U _]]]]]]]]].
    exists q, r, h'. do 3 (split; [assumption|]). split; [apply (wf_colour o), Wr|]. auto.
Qed.

Lemma adjust_typed a pc (h : heap f32) X p c : at_addr h p c -> wf X c -> convertible X = true -> (cie X = true -> has_space h c) ->
  exists q r h', @adjust f32 (F32 o) a (Some p) pc h = (Ok (Some q), h') /\ at_addr h' q r /\ colour_of_type X r /\
    rgb_space r = rgb_space c /\ others_unchanged h h' p.
Proof.
  intros H W C N.
  assert (OU : forall h', unchanged h h' -> others_unchanged h h' p) by (intros h' [A B]; split; auto).
  destruct (in_hsl a) eqn:Ha.
  - destruct (@feq f32 (F32 o) pc (@fz f32 (F32 o) 0)) eqn:P.
    + destruct (adjust_is_hsl a Ha) as [-> Hi]. exists p, c, h. split; [apply (adjust_hsl_zero (AF := F32 o)), P|]. split; [exact H|].
      split; [apply (wf_colour o), W|]. split; [reflexivity|]. apply OU, unchanged_refl.
    + destruct (ctype_eq_dec X HSL) as [->|D].
      * destruct (adjust_is_hsl a Ha) as [-> Hi].
        destruct (adjust_hsl_self (AF := F32 o) (hsl_component a) h p c pc Hi P H W) as [x [v [_ [_ [Wv [Av [Sv E]]]]]]].
        exists p, v, (Heap (upd p v (colors h)) (spaces h)). split; [exact E|]. split; [apply (at_upd h p c v H)|].
        split; [apply (wf_colour o), Wv|]. split; [exact Sv|]. split; [reflexivity|]. intros j c0 Nj Hj. unfold at_addr. cbn [colors].
        rewrite upd_nth_other by congruence. exact Hj.
      * destruct (adjust_total a pc h X p c H W C N) as [q [r [h' [E [_ [Aq [Cr [S [U _]]]]]]]]].
        { intros _. split; [exact D|]. intros V. rewrite (zero_eq pc V) in P. discriminate P. }
        exists q, r, h'. auto 6.
  - destruct (adjust_total a pc h X p c H W C N) as [q [r [h' [E [_ [Aq [Cr [S [U _]]]]]]]]]; [congruence|].
    exists q, r, h'. auto 6.
Qed.

Lemma adjust_alpha a pc (h : heap f32) X p c : in_hsl a = false -> at_addr h p c -> @reachable f32 (F32 o) c -> cls c = X -> convertible X = true ->
  (cie X = true -> has_space h c) -> in_interval 0 1 (m_alpha c) -> ~ @black_hsl f32 (F32 o) c ->
  returns (@adjust f32 (F32 o) a (Some p) pc) h (fun r => m_alpha r = @converted_alpha f32 (F32 o) RGB_DEEP X (m_alpha c)).
Proof.
  intros Ha H R T C N I NB. pose proof (reachable_wf o c R) as W. rewrite T in W.
  destruct (adjust_is_rgb a Ha pc) as [g [G ->]].
  destruct (adjust_rgb_total (AF := F32 o) g h X p c G H W C N) as [q [r [h' [E [Fq [Aq [Wr [S [U K]]]]]]]]].
  exists q, r, h'. split; [exact E|]. split; [exact Aq|]. apply K; [| |exact NB].
  - apply within_in_interval; try sm. exact I.
  - intros E8. apply (reachable_alpha8 c R). rewrite (wf_cls _ _ W). rewrite (wf_ty _ _ W) in E8. exact E8.
Qed.

(** ** C82: an HSL colour is changed *)
Lemma hsl_in_place a pc (h : heap f32) p c : in_hsl a = true -> ~ is_value pc 0 -> at_addr h p c -> wf HSL c ->
  exists h', @adjust f32 (F32 o) a (Some p) pc h = (Ok (Some p), h').
Proof.
  intros Ha P H W. destruct (adjust_is_hsl a Ha) as [-> Hi].
  destruct (adjust_hsl_self (AF := F32 o) (hsl_component a) h p c pc Hi (nonzero_ne pc P) H W) as [x [v [_ [_ [_ [_ [_ E]]]]]]].
  eexists. exact E.
Qed.

Lemma hsl_changed a : in_hsl a = true -> exists (h h' : heap f32) c c', at_addr h 0%nat c /\ @reachable f32 (F32 o) c /\
  @adjust f32 (F32 o) a (Some 0%nat) (lit32 (-1 # 1)) h = (Ok (Some 0%nat), h') /\ at_addr h' 0%nat c' /\
  comp_sat c (hsl_component a) (fun x => is_value x 1) /\ comp_sat c' (hsl_component a) (fun x => is_value x 0).
Proof.
  intros Ha. destruct (fz_val o 0) as [F0 V0]; [sm|]. destruct (fz_val o 1) as [F1 V1]; [sm|].
  set (z := @fz f32 (F32 o) 0) in *. set (u := @fz f32 (F32 o) 1) in *.
  assert (C0 : @c01 f32 (F32 o) z = z).
  { unfold c01. apply (clamp_id (AF := F32 o)); try sm. apply within32; try sm. fold z. rewrite V0. split; [exact F0|]. simpl; lra. }
  assert (C1 : @c01 f32 (F32 o) u = u).
  { unfold c01. apply (clamp_id (AF := F32 o)); try sm. apply within32; try sm. fold u. rewrite V1. split; [exact F1|]. simpl; lra. }
  pose (c := Color HSL HSL [@hue_norm f32 (F32 o) z; @c01 f32 (F32 o) u; @c01 f32 (F32 o) u] u u z None).
  assert (Ec : @hsl f32 (F32 o) z u u u None = Ok c) by apply (hsl_nf (AF := F32 o) (AL := F32Laws o)).
  assert (Rc : @reachable f32 (F32 o) c) by (apply r_new; eapply mk_hsl; exact Ec).
  assert (W : wf HSL c) by apply (reachable_wf o c Rc).
  destruct (lit32_int (-1)) as [Vm Fm]; [sm|]. change (inject_Z (-1)) with (-1 # 1)%Q in Vm.
  assert (P : ~ is_value (lit32 (-1 # 1)) 0). { intros [_ V]. change (fval (lit32 (-1 # 1)) = 0%R) in V. rewrite Vm in V. simpl in V. lra. }
  destruct (adjust_is_hsl a Ha) as [Q Hi]. rewrite Q.
  destruct (adjust_hsl_self (AF := F32 o) (hsl_component a) (Heap [c] []) 0 c _ Hi (nonzero_ne _ P) eq_refl W) as [x [v [Ex [Ev [Wv [_ [_ E]]]]]]].
  exists (Heap [c] []), (Heap [v] []), c, v. split; [reflexivity|]. split; [exact Rc|]. split; [exact E|]. split; [reflexivity|].
  assert (Xu : x = u).
  { destruct a; try discriminate Ha; cbn [hsl_component] in Ex; unfold raw_comp, c in Ex; cbn [comps nth_error] in Ex; apply Ok_inj in Ex; congruence. }
  assert (Pr : @fmul f32 (F32 o) x (@fadd f32 (F32 o) (@fz f32 (F32 o) 1) (lit32 (-1 # 1))) = B754_zero false).
  { rewrite Xu. unfold u. vm_compute. reflexivity. }
  rewrite Pr in Ev. assert (Z0 : z = B754_zero false) by (vm_compute; reflexivity). rewrite <- Z0 in Ev.
  rewrite (hsl_set c _ _ _ _ _ W eq_refl) in Ev by (destruct a; try discriminate Ha; auto). apply Ok_inj in Ev. rewrite <- Ev.
  destruct a; try discriminate Ha; cbn [hsl_component Nat.eqb].
  - split; [exists (@c01 f32 (F32 o) u)|exists (@c01 f32 (F32 o) z)]; (split; [reflexivity|]); rewrite ?C0, ?C1; split; assumption.
  - split; [exists (@c01 f32 (F32 o) u)|exists (@c01 f32 (F32 o) z)]; (split; [reflexivity|]); rewrite ?C0, ?C1; split; assumption.
Qed.

(** ** C83 *)
Lemma in_place_null a pc (h : heap f32) X p c : at_addr h p c -> wf X c -> (X = LCH_AB \/ X = LCH_UV) -> has_space h c ->
  (in_hsl a = true -> ~ is_value pc 0) -> exists h', @adjust_in_place f32 (F32 o) a p pc h = (Undef, h').
Proof.
  intros H W L N P. assert (C : convertible X = false) by (destruct L as [-> | ->]; reflexivity).
  assert (Q : exists h', @adjust f32 (F32 o) a (Some p) pc h = (Ok None, h')).
  { destruct (in_hsl a) eqn:Ha.
    - destruct (adjust_is_hsl a Ha) as [-> Hi].
      destruct (adjust_hsl_lch (AF := F32 o) (hsl_component a) h X p c pc Hi (nonzero_ne pc (P eq_refl)) H W C (fun _ => N)) as [h' [E _]]. eauto.
    - destruct (adjust_is_rgb a Ha pc) as [g [G ->]]. destruct (adjust_rgb_lch (AF := F32 o) g h X p c G H W C (fun _ => N)) as [h' [E _]]. eauto. }
  destruct Q as [h' E]. exists h'.
  destruct a; exact (adjust_ref_null _ h h' p pc E).
Qed.

Lemma in_place_wf a pc (h : heap f32) X p c : at_addr h p c -> wf X c -> convertible X = true -> (cie X = true -> has_space h c) ->
  exists h' r, @adjust_in_place f32 (F32 o) a p pc h = (Ok tt, h') /\ at_addr h' p r /\ wf X r /\ rgb_space r = rgb_space c /\
    others_unchanged h h' p.
Proof.
  intros H W C N.
  assert (Q : exists q r h1 c1, @adjust f32 (F32 o) a (Some p) pc h = (Ok (Some q), h1) /\ at_addr h1 q r /\ at_addr h1 p c1 /\
     wf X c1 /\ wf X r /\ rgb_space r = rgb_space c /\ others_unchanged h h1 p).
  { assert (OU : forall h', unchanged h h' -> others_unchanged h h' p) by (intros h' [A B]; split; auto).
    destruct (in_hsl a) eqn:Ha.
    - destruct (@feq f32 (F32 o) pc (@fz f32 (F32 o) 0)) eqn:P.
      + destruct (adjust_is_hsl a Ha) as [-> Hi]. exists p, c, h, c. split; [apply (adjust_hsl_zero (AF := F32 o)), P|].
        do 5 (split; [first [assumption|reflexivity]|]). apply OU, unchanged_refl.
      + destruct (ctype_eq_dec X HSL) as [->|D].
        * destruct (adjust_is_hsl a Ha) as [-> Hi].
          destruct (adjust_hsl_self (AF := F32 o) (hsl_component a) h p c pc Hi P H W) as [x [v [_ [_ [Wv [Av [Sv E]]]]]]].
          exists p, v, (Heap (upd p v (colors h)) (spaces h)), v. split; [exact E|]. pose proof (at_upd h p c v H).
          do 5 (split; [assumption|]). split; [reflexivity|]. intros j c0 Nj Hj. unfold at_addr. cbn [colors].
          rewrite upd_nth_other by congruence. exact Hj.
        * destruct (adjust_total a pc h X p c H W C N) as [q [r [h' [E [_ [Aq [_ [S [U Wr]]]]]]]]].
          { intros _. split; [exact D|]. intros V. rewrite (zero_eq pc V) in P. discriminate P. }
          exists q, r, h', c. pose proof (proj2 U _ _ H). auto 9.
    - destruct (adjust_total a pc h X p c H W C N) as [q [r [h' [E [_ [Aq [_ [S [U Wr]]]]]]]]]; [congruence|].
      exists q, r, h', c. pose proof (proj2 U _ _ H). auto 9. }
  destruct Q as [q [r [h1 [c1 [E [Aq [Ap [W1 [Wr [S OU]]]]]]]]]].
  exists (Heap (upd p r (colors h1)) (spaces h1)), r. split.
  { destruct a; exact (@adjust_ref_run f32 (F32 o) _ h h1 X p pc q c1 r E Aq Ap W1 Wr). }
  split; [apply (at_upd h1 p c1 r Ap)|]. split; [exact Wr|]. split; [exact S|].
  destruct OU as [SS OU]. split; [exact SS|]. intros j c0 Nj Hj. unfold at_addr. cbn [colors].
  rewrite upd_nth_other by congruence. apply OU; assumption.
Qed.
Lemma in_place_ok a pc (h : heap f32) X p c : at_addr h p c -> wf X c -> convertible X = true -> (cie X = true -> has_space h c) ->
  exists h' r, @adjust_in_place f32 (F32 o) a p pc h = (Ok tt, h') /\ at_addr h' p r /\ colour_of_type X r /\ rgb_space r = rgb_space c /\
    others_unchanged h h' p.
Proof.
  intros H W C N. destruct (in_place_wf a pc h X p c H W C N) as [h' [r [E [A [Wr R]]]]]. exists h', r. do 2 (split; [assumption|]). split; [apply (wf_colour o), Wr|exact R].
Qed.

(** ** C80: adjusting by zero in binary32 *)
Lemma c01_value (x : f32) v : (0 <= v <= 1)%R -> is_value x v -> is_value (@c01 f32 (F32 o) x) v.
Proof.
  intros B [Fx Vx]. unfold c01. rewrite (clamp_id (AF := F32 o)); [split; assumption|sm|sm|]. apply within32; try sm. rewrite Vx. auto.
Qed.

Lemma luminate_zero x pc : in_interval 0 1 x -> is_value pc 0 ->
  is_value (@c01 f32 (F32 o) (@fmul f32 (F32 o) x (@fadd f32 (F32 o) (@fz f32 (F32 o) 1) pc))) (B2R x).
Proof.
  intros [Fx Vx] [Fp Vp]. destruct (fz_val o 1) as [F1 V1]; [sm|]. set (u := @fz f32 (F32 o) 1) in *. apply c01_value; [lra|].
  destruct (Bplus_ok u pc 0 1 F1 Fp) as [P1 P2]; try sm. { rewrite V1, Vp. simpl. lra. }
  cbn [fmul fadd F32]. set (k := Bplus mode_NE u pc) in *.
  assert (Vk : fval k = 1%R). { rewrite P2, V1. rewrite Vp, Rplus_0_r. apply (rnd32_int 1). sm. }
  destruct (Bmult_ok x k 0 1 Fx P1) as [Q1 Q2]; try sm. { rewrite Vk, Rmult_1_r. exact Vx. }
  split; [exact Q1|]. change (fval (Bmult mode_NE x k) = fval x). rewrite Q2, Vk, Rmult_1_r. apply rnd32_id.
Qed.

Lemma saturate_zero x l pc : in_interval 0 1 x -> in_interval 0 3 l -> is_value pc 0 ->
  is_value (@c01 f32 (F32 o) (@fsub f32 (F32 o) x (@fmul f32 (F32 o) pc (@fsub f32 (F32 o) l x)))) (B2R x).
Proof.
  intros Ix Il Hp. cbn [fmul fsub F32].
  assert (Id : in_interval (0 - 1) (3 - 0) (Bminus mode_NE l x)) by (apply in_minus; try sm; assumption).
  destruct (value_mul_0 pc _ Hp (proj1 Id)) as [Fm Vm]. destruct Ix as [Fx Vx].
  apply c01_value; [lra|].
  destruct (Bminus_ok x (Bmult mode_NE pc (Bminus mode_NE l x)) 0 1 Fx Fm) as [Q1 Q2]; try sm.
  { rewrite Vm. simpl in *. lra. }
  split; [exact Q1|]. match goal with |- B2R ?t = _ => change (fval t = fval x) end. rewrite Q2. rewrite Vm, Rminus_0_r. apply rnd32_id.
Qed.

Lemma rgb_zero32 a pc (h : heap f32) i c : in_hsl a = false -> is_value pc 0 -> at_addr h i c -> wf RGB_DEEP c ->
  returns (@adjust f32 (F32 o) a (Some i) pc) h (fun t => same_values (comps t) (comps c) /\ m_alpha t = m_alpha c).
Proof.
  intros Ha Hp H W.
  destruct (comps3 _ c W eq_refl) as [r [g [b E]]].
  assert (CH : in_interval 0 1 r /\ in_interval 0 1 g /\ in_interval 0 1 b).
  { pose proof (proj1 (proj1 (wf32 o RGB_DEEP c) W)) as [_ [_ [_ [_ K]]]]. rewrite E in K.
    split; [exact (K 0%nat r eq_refl)|]. split; [exact (K 1%nat g eq_refl)|exact (K 2%nat b eq_refl)]. }
  destruct CH as [Ir [Ig Ib]].
  assert (St : exists f, @adjust f32 (F32 o) a (Some i) pc = @adjust_rgb f32 (F32 o) f (Some i) /\ @rgb_step f32 (F32 o) f /\
    forall t, f (rgb_space c) c = Ok t -> same_values (comps t) (comps c)).
  { assert (SV : forall x1 x2 x3, is_value x1 (B2R r) -> is_value x2 (B2R g) -> is_value x3 (B2R b) -> same_values [x1; x2; x3] [r; g; b]).
    { intros x1 x2 x3 V1 V2 V3. destruct Ir as [Fr _], Ig as [Fg _], Ib as [Fb _]. repeat constructor; auto; first [apply V1|apply V2|apply V3]. }
    destruct a; try discriminate Ha.
    - exists (@saturate_rgb_f f32 (F32 o) pc). split; [reflexivity|]. split; [apply saturate_step|]. intros t Et. unfold saturate_rgb_f, with3 in Et. rewrite E in Et.
      cbv zeta in Et. rewrite rgb_deepcolor_nf in Et. apply Ok_inj in Et. rewrite <- Et. cbn [comps]. rewrite E.
      set (l := @fadd f32 (F32 o) (@fadd f32 (F32 o) (@fmul f32 (F32 o) (@lit f32 (F32 o) (299 # 1000)) r) (@fmul f32 (F32 o) (@lit f32 (F32 o) (587 # 1000)) g)) (@fmul f32 (F32 o) (@lit f32 (F32 o) (114 # 1000)) b)).
      assert (Il : in_interval 0 3 l).
      { assert (U : forall x y, in_interval 0 1 x -> in_interval 0 1 y -> in_interval 0 1 (@fmul f32 (F32 o) x y)) by apply in_mul_unit.
        assert (K1 : in_interval 0 1 (@lit f32 (F32 o) (299 # 1000))) by (apply (within_in_interval o); try sm; vm_compute; split; reflexivity).
        assert (K2 : in_interval 0 1 (@lit f32 (F32 o) (587 # 1000))) by (apply (within_in_interval o); try sm; vm_compute; split; reflexivity).
        assert (K3 : in_interval 0 1 (@lit f32 (F32 o) (114 # 1000))) by (apply (within_in_interval o); try sm; vm_compute; split; reflexivity).
        unfold l. apply (in_plus _ _ 0 2 0 1); try sm; [apply (in_plus _ _ 0 1 0 1); try sm; apply U; assumption|apply U; assumption]. }
      apply SV; apply saturate_zero; assumption.
    - exists (@luminate_rgb_f f32 (F32 o) pc). split; [reflexivity|]. split; [apply luminate_step|]. intros t Et. unfold luminate_rgb_f, with3 in Et. rewrite E in Et.
      cbv zeta in Et. rewrite rgb_deepcolor_nf in Et. apply Ok_inj in Et. rewrite <- Et. cbn [comps]. rewrite E.
      apply SV; apply luminate_zero; assumption. }
  destruct St as [f [-> [S K]]].
  destruct (adjust_rgb_run (AF := F32 o) f h RGB_DEEP i c S H W ltac:(discriminate)) as [d [t [h1 [q [_ [_ [Id [Et [Wt [At [Sp [_ [_ [Aq Er]]]]]]]]]]]]]].
  rewrite (Id eq_refl) in Et, At. exists q, t, h1. split.
  { rewrite Er. apply (to_type_same (AF := F32 o) RGB_DEEP h1 q t Aq Wt). }
  split; [exact Aq|]. split; [apply K, Et|]. rewrite At. apply (alpha_std c RGB_DEEP W eq_refl).
Qed.

(** ** An HSL adjustment of black loses the alpha *)
Lemma black_loses_alpha pc : ~ is_value pc 0 -> exists (h : heap f32) c, at_addr h 0%nat c /\ @reachable f32 (F32 o) c /\ cls c = RGB_DEEP /\
  is_value (m_alpha c) 1 /\ returns (@adjust f32 (F32 o) SaturateHSL (Some 0%nat) pc) h (fun r => is_value (m_alpha r) 0).
Proof.
  intros P. destruct (fz_val o 0) as [F0 V0]; [sm|]. destruct (fz_val o 1) as [F1 V1]; [sm|].
  set (z := @fz f32 (F32 o) 0) in *. set (u := @fz f32 (F32 o) 1) in *.
  assert (C0 : @c01 f32 (F32 o) z = z).
  { unfold c01. apply (clamp_id (AF := F32 o)); try sm. apply within32; try sm. fold z. rewrite V0. split; [exact F0|]. simpl; lra. }
  assert (B0 : @feq f32 (F32 o) z z = true). { cbn [feq F32]. rewrite Beqb_fin by assumption. apply Req_bool_true. reflexivity. }
  pose (c := Color RGB_DEEP RGB_DEEP [@c01 f32 (F32 o) z; @c01 f32 (F32 o) z; @c01 f32 (F32 o) z] u u z None).
  assert (Ec : @rgb_deepcolor f32 (F32 o) z z z u None = Ok c) by apply (rgb_deepcolor_nf (AF := F32 o)).
  assert (Rc : @reachable f32 (F32 o) c) by (apply r_new; eapply mk_rgb_deep; exact Ec).
  exists (Heap [c] []), c. split; [reflexivity|]. split; [exact Rc|]. split; [reflexivity|]. split; [split; assumption|].
  pose (d := Color HSL HSL [@hue_norm f32 (F32 o) z; @c01 f32 (F32 o) z; @c01 f32 (F32 o) z] u u z None).
  assert (Ed : @hsl f32 (F32 o) z z z u None = Ok d) by apply (hsl_nf (AF := F32 o) (AL := F32Laws o)).
  assert (Wd : wf HSL d) by (apply (reachable_wf o d); apply r_new; eapply mk_hsl; exact Ed).
  assert (E1 : @convertTo f32 (F32 o) (Some 0%nat) HSL (Heap [c] []) = (Ok (Some 1%nat), Heap [c; d] [])).
  { change (@convertTo f32 (F32 o) (Some 0%nat) HSL) with (@to_type f32 (F32 o) HSL (Some 0%nat)). cbn [to_type].
    unfold to_hsl, bind at 1, load. cbn [colors nth_error ty c]. unfold rgb_deep_to_hsl, leaf, load_as, bind, load.
    cbn [colors nth_error cls c]. destruct (ctype_eq_dec RGB_DEEP RGB_DEEP) as [_|N]; [|congruence].
    unfold ret, lift, rgb_deep_to_hsl_f, with3. cbn [comps c]. rewrite C0.
    assert (M1 : @fmin f32 (F32 o) z z = z) by (vm_compute; reflexivity). assert (M2 : @fmax f32 (F32 o) z z = z) by (vm_compute; reflexivity).
    rewrite !M1, !M2, B0. cbn [alpha cls rgb_space c]. fold z.
    change (base_alpha c) with u. rewrite Ed. rewrite alloc_at. reflexivity. }
  set (x := @c01 f32 (F32 o) z) in d.
  pose (v := with_comps d [@hue_norm f32 (F32 o) z; @c01 f32 (F32 o) (@fmul f32 (F32 o) x (@fadd f32 (F32 o) u pc)); @c01 f32 (F32 o) z]).
  assert (Ev : @named_set f32 (F32 o) HSL d (@fmul f32 (F32 o) x (@fadd f32 (F32 o) u pc)) 1 = Ok v).
  { rewrite (hsl_set d _ 1 _ _ _ Wd eq_refl) by auto. reflexivity. }
  pose (r := Color RGB_DEEP RGB_DEEP [@c01 f32 (F32 o) z; @c01 f32 (F32 o) z; @c01 f32 (F32 o) z] z u z None).
  exists 2%nat, r, (Heap [c; v; r] []). split; [|split; [reflexivity|split; assumption]].
  cbn [adjust]. unfold saturate_in_hsl_space, adjust_hsl. rewrite (nonzero_ne pc P). unfold bind at 1. rewrite E1.
  unfold load_as, bind, load. cbn [colors nth_error cls d]. destruct (ctype_eq_dec HSL HSL) as [_|N]; [|congruence].
  unfold ret, lift at 1. unfold raw_comp. cbn [comps d nth_error obind]. fold d. fold u. fold x. rewrite Ev.
  unfold store. cbn [colors length Nat.ltb Nat.leb upd spaces nth_error ty c].
  unfold convertTo, to_rgb_deep, bind at 1, load. cbn [colors nth_error ty v with_comps d]. unfold hsl_to_rgb_deep, leaf, load_as, bind, load.
  cbn [colors nth_error cls v with_comps d]. destruct (ctype_eq_dec HSL HSL) as [_|N]; [|congruence].
  unfold ret, lift, hsl_to_rgb_deep_f, with3. cbn [comps v with_comps d]. fold z. rewrite C0, B0. rewrite rgb_deepcolor1_nf. fold z. rewrite alloc_at.
  cbn [rgb_space v with_comps d]. unfold r. rewrite C0. reflexivity.
Qed.
End Binary32.
