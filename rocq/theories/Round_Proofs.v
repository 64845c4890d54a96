(** * Round trips between RGB and the hue based types, in exact arithmetic (C38 - C44) *)
From Coq Require Import ZArith QArith Qreals Reals Lra Lia List Bool.
From Verif Require Import Arith Outcome ColorModel GammaModel MatrixModel SpaceModel Heap Converter RArith
  Spec Laws NormalForms Alpha8 Core_Proofs Core2_Proofs Spec_Matrix Spec_Conv Spec_Round Conv_Proofs Conv2_Proofs Run_Proofs HueR_Proofs.
Import ListNotations.
Local Open Scope R_scope.

Section Generic.
Context {F : Type} {AF : Arith F} {AL : ArithLaws F} {A8 : Alpha8Laws F}.

Definition dispatches (go : ptr -> M F ptr) (X : ctype) (f : ptr -> M F ptr) : Prop :=
  forall (h : heap F) p c, at_addr h p c -> ty c = X -> go (Some p) h = f (Some p) h.

Lemma yields_leaf go X f (h : heap F) p c m (P : color F -> Prop) : dispatches go X (leaf X f) -> at_addr h p c -> wf_color X c -> f c = Ok m -> P m ->
  yields go h p P.
Proof.
  intros D Hp W E H. exists (length (colors h)), m, (pushed h m).
  split; [rewrite (D h p c Hp (wf_ty _ _ W)); apply (leaf_run X f h p c m Hp W E)|]. split; [apply at_new|exact H].
Qed.

Lemma via_leaf go back X Y f g (h : heap F) p c m r (P : color F -> color F -> Prop) :
  dispatches go X (leaf X f) -> dispatches back Y (leaf Y g) ->
  at_addr h p c -> wf_color X c -> leaf_ok X Y f -> f c = Ok m -> g m = Ok r -> P m r ->
  via go back h p P.
Proof.
  intros D1 D2 Hp W L E1 E2 H.
  assert (Wm : wf_color Y m) by (destruct (L c W) as [m' [E [Wm _]]]; congruence).
  assert (Hm : at_addr (pushed h m) (length (colors h)) m) by apply at_new.
  exists (length (colors h)), (length (colors (pushed h m))), m, r, (pushed h m), (pushed (pushed h m) r).
  split; [rewrite (D1 h p c Hp (wf_ty _ _ W)); apply (leaf_run X f h p c m Hp W E1)|]. split; [exact Hm|].
  split; [rewrite (D2 _ _ _ Hm (wf_ty _ _ Wm)); apply (leaf_run Y g _ _ m r Hm Wm E2)|]. split; [apply at_new|exact H].
Qed.
End Generic.

Ltac disp := let h := fresh in let p := fresh in let c := fresh in let H := fresh in let T := fresh in
  intros h p c H T; unfold to_rgb_true, to_rgb_deep, to_grey_true, to_grey_deep, to_cmyk, to_hsi, to_hsv, to_hsl, to_hcy,
    to_xyz, to_xyy, to_cieluv, to_lab, to_lch_ab, to_lch_uv, bind at 1, load; unfold at_addr in H; rewrite H, T; reflexivity.

Lemma alpha_stdR (c : color R) X : wf_color X c -> eight_bit X = false -> alpha c = m_alpha c.
Proof. apply alpha_std. Qed.

(** The channels of a deep RGB colour are in [0,1]. *)
Lemma deep_range (c : color R) r g b : wf_color RGB_DEEP c -> comps c = [r; g; b] -> 0 <= r <= 1 /\ 0 <= g <= 1 /\ 0 <= b <= 1.
Proof.
  intros W E. pose proof (wf_range _ _ W) as H. rewrite E in H.
  pose proof (H 0%nat r eq_refl) as H0. pose proof (H 1%nat g eq_refl) as H1. pose proof (H 2%nat b eq_refl) as H2.
  cbn [comp_range fst snd] in *. rewrite withinR in *. auto.
Qed.

Lemma hue_range (c : color R) X x y z : wf_color X c -> has_hue X = true -> comps c = [x; y; z] ->
  0 <= x <= 359 /\ 0 <= y <= 1 /\ 0 <= z <= 1.
Proof.
  intros W K E. pose proof (wf_range _ _ W) as H. rewrite E in H.
  pose proof (H 0%nat x eq_refl) as H0. pose proof (H 1%nat y eq_refl) as H1. pose proof (H 2%nat z eq_refl) as H2.
  destruct X; try discriminate K; cbn [comp_range fst snd] in *; rewrite withinR in *; auto.
Qed.

Ltac rn := cbn [fadd fsub fmul fdiv fneg flt fle feq fmin fmax ffmod fabs fround fsqrt fpow RArith]; rewrite ?fzR.

Lemma grey_case r g b : mx3 r g b = mn3 r g b -> r = mn3 r g b /\ g = mn3 r g b /\ b = mn3 r g b.
Proof. intros E. pose proof (mx3_ge r g b). pose proof (mn3_le r g b). lra. Qed.

Lemma same_deep (c : color R) r g b a : wf_color RGB_DEEP c -> comps c = [r; g; b] -> a = m_alpha c ->
  same_colour c (Color RGB_DEEP RGB_DEEP [r; g; b] a 1 0 (rgb_space c)).
Proof. intros W E ->. repeat split. - symmetry. apply (wf_ty _ _ W). - symmetry. exact E. Qed.

Lemma deep_eq (r g b r' g' b' a : R) sp : 0 <= r <= 1 -> 0 <= g <= 1 -> 0 <= b <= 1 -> r' = r -> g' = g -> b' = b ->
  rgb_deepcolor (AF := RArith) r' g' b' a sp = Ok (Color RGB_DEEP RGB_DEEP [r; g; b] a 1 0 sp).
Proof. intros Hr Hg Hb -> -> ->. rewrite rgb_deepcolor_nf. rewrite !c01R by assumption. rewrite !fzR. reflexivity. Qed.
Lemma deep1_eq (v v' a : R) sp : 0 <= v <= 1 -> v' = v ->
  rgb_deepcolor1 (AF := RArith) v' a sp = Ok (Color RGB_DEEP RGB_DEEP [v; v; v] a 1 0 sp).
Proof. intros Hr ->. rewrite rgb_deepcolor1_nf. rewrite !c01R by assumption. rewrite !fzR. reflexivity. Qed.

Lemma unit_359 : ur (359 / 60) = 1 /\ ug (359 / 60) = 0 /\ ub (359 / 60) = 1 / 60.
Proof. split; [|split]; absmm; lra. Qed.
Lemma unit_0 : ur (0 / 60) = 1 /\ ug (0 / 60) = 0 /\ ub (0 / 60) = 0.
Proof. split; [|split]; absmm; lra. Qed.
Lemma min_abs l : 1 - Rabs (2 * l - 1) = 2 * Rmin l (1 - l).
Proof. unfold Rabs, Rmin. destruct (Rcase_abs _), (Rle_dec _ _); lra. Qed.

Lemma mul01 x y : 0 <= x <= 1 -> 0 <= y <= 1 -> 0 <= x * y <= 1.
Proof. intros Hx Hy. split; [apply Rmult_le_pos; lra|]. rewrite <- (Rmult_1_l 1). apply Rmult_le_compat; lra. Qed.

Section RGB.
Variables (h : heap R) (p : nat) (c : color R) (r g b : R).
Hypothesis Hp : at_addr h p c.
Hypothesis W : wf_color RGB_DEEP c.
Hypothesis Ec : comps c = [r; g; b].
Let mx := mx3 r g b.
Let mn := mn3 r g b.

Lemma mxmn : 0 <= mn <= mx /\ mx <= 1 /\ (mx = mn \/ 0 < mx - mn).
Proof.
  destruct (deep_range c r g b W Ec) as [A [B C]]. pose proof (mx3_in r g b). pose proof (mn3_in r g b).
  pose proof (mx3_ge r g b). pose proof (mn3_le r g b). unfold mx, mn. lra.
Qed.

(** C38 *)
Lemma hsv_round : ~ near_360 r g b -> via to_hsv to_rgb_deep h p (fun m d => ty m = HSV /\ same_colour c d).
Proof.
  intros NN. destruct (deep_range c r g b W Ec) as [Br [Bg Bb]]. destruct mxmn as [B0 [B1 BD]].
  eapply (via_leaf to_hsv to_rgb_deep RGB_DEEP HSV rgb_deep_to_hsv_f hsv_to_rgb_deep_f h p c);
    [disp|disp|exact Hp|exact W|apply rgb_deep_to_hsv_ok| | |].
  - unfold rgb_deep_to_hsv_f, with3. rewrite Ec. rn. change (Rmin (Rmin r g) b) with mn. change (Rmax (Rmax r g) b) with mx.
    rewrite !hsv_nf. rewrite (alpha_std c _ W eq_refl). 
    match goal with |- (if ?t then Ok ?a else Ok ?b) = _ => instantiate (1 := if t then a else b); destruct t; reflexivity end.
  - instantiate (1 := Color RGB_DEEP RGB_DEEP [r; g; b] (m_alpha c) 1 0 (rgb_space c)).
    destruct (Req_EM_T mx mn) as [E|E]; [rewrite (Reqb_eq mx mn E)|rewrite (Reqb_ne mx mn E)];
      unfold hsv_to_rgb_deep_f, with3; cbn [comps alpha cls m_alpha rgb_space base_alpha]; rewrite !fzR.
    + destruct (grey_case r g b E) as [E1 [E2 E3]]. fold mn in E1, E2, E3.
      rewrite hue_norm_id by lra. rewrite !c01R by lra.
      destruct (hsv_of_unit 0 0 mn) as [H1 [H2 H3]]; [lra|]. rewrite H1, H2, H3.
      apply deep_eq; try assumption; lra.
    + destruct BD as [BD|BD]; [contradiction|].
      destruct (hue_unit r g b BD NN) as [T [U1 [U2 U3]]]. fold mx mn in T, U1, U2, U3.
      set (hue := @hue_norm R RArith _) in *.
      assert (S1 : mx * ((mx - mn) / mx) = mx - mn) by (field; lra).
      assert (S0 : 0 <= (mx - mn) / mx <= 1) by (apply div_bounds; lra).
      rewrite (c01R mx), (c01R ((mx - mn) / mx)) by lra.
      destruct (hsv_of_unit hue ((mx - mn) / mx) mx T) as [H1 [H2 H3]]. rewrite H1, H2, H3, S1.
      apply deep_eq; try assumption; lra.
  - split; [destruct (Reqb mx mn); reflexivity|apply same_deep; auto].
Qed.

(** C42 *)
Lemma hsv_near : near_360 r g b -> g + (r - g) / 60 <> b /\
  via to_hsv to_rgb_deep h p (fun m d => comps d = [r; g; g + (r - g) / 60]).
Proof.
  intros NN. destruct (deep_range c r g b W Ec) as [Br [Bg Bb]].
  destruct (hue_near r g b NN) as [E1 [E2 E3]]. pose proof NN as [N1 N2]. split; [lra|].
  rewrite E1, E2 in E3.
  eapply (via_leaf to_hsv to_rgb_deep RGB_DEEP HSV rgb_deep_to_hsv_f hsv_to_rgb_deep_f h p c);
    [disp|disp|exact Hp|exact W|apply rgb_deep_to_hsv_ok| | |].
  - unfold rgb_deep_to_hsv_f, with3. rewrite Ec. rn. fold (mx3 r g b) (mn3 r g b). rewrite E1, E2.
    rewrite Reqb_ne by lra. rewrite hsv_nf. rewrite E3. reflexivity.
  - unfold hsv_to_rgb_deep_f, with3. cbn [comps]. rewrite !fzR.
    assert (S1 : r * ((r - g) / r) = r - g) by (field; lra).
    assert (S0 : 0 <= (r - g) / r <= 1) by (apply div_bounds; lra).
    rewrite (c01R r), (c01R ((r - g) / r)) by lra.
    destruct (hsv_of_unit 359 ((r - g) / r) r) as [H1 [H2 H3]]; [lra|]. rewrite H1, H2, H3, S1.
    destruct unit_359 as [U1 [U2 U3]].
    rewrite U1, U2, U3.
    apply (deep_eq r g (g + (r - g) / 60)); lra.
  - reflexivity.
Qed.

(** C39 *)
Lemma hsl_round : ~ near_360 r g b -> via to_hsl to_rgb_deep h p
  (fun m d => ty m = HSL /\ comps d = comps c /\ ((r <> 0 \/ g <> 0 \/ b <> 0) -> same_colour c d)).
Proof.
  intros NN. destruct (deep_range c r g b W Ec) as [Br [Bg Bb]]. destruct mxmn as [B0 [B1 BD]].
  assert (L : forall (t : bool) (x y : color R), (if t then Ok x else Ok y) = Ok (if t then x else y)) by (intros []; reflexivity).
  eapply (via_leaf to_hsl to_rgb_deep RGB_DEEP HSL rgb_deep_to_hsl_f hsl_to_rgb_deep_f h p c);
    [disp|disp|exact Hp|exact W|apply rgb_deep_to_hsl_ok| | |].
  - unfold rgb_deep_to_hsl_f, with3. rewrite Ec. rn. change (Rmin (Rmin r g) b) with mn. change (Rmax (Rmax r g) b) with mx.
    rewrite !hsl_nf. rewrite (alpha_std c _ W eq_refl). apply L.
  - instantiate (1 := Color RGB_DEEP RGB_DEEP [r; g; b] (if Reqb mx 0 then 0 else m_alpha c) 1 0 (rgb_space c)).
    destruct (Req_EM_T mx mn) as [E|E]; [rewrite (Reqb_eq mx mn E)|rewrite (Reqb_ne mx mn E)];
      unfold hsl_to_rgb_deep_f, with3; cbn [comps alpha cls m_alpha rgb_space base_alpha]; rn.
    + destruct (grey_case r g b E) as [E1 [E2 E3]]. fold mn in E1, E2, E3.
      rewrite hue_norm_id by lra. rewrite !c01R by lra. rewrite E.
      destruct (Req_EM_T mn 0) as [Z|Z]; [rewrite !(Reqb_eq mn 0 Z)|rewrite !(Reqb_ne mn 0 Z)].
      * rewrite E1, E2, E3. apply deep1_eq; lra.
      * destruct (hsl_of_unit 0 0 mn) as [H1 [H2 H3]]; [lra|]. rewrite H1, H2, H3.
        apply deep_eq; try assumption; lra.
    + destruct BD as [BD|BD]; [contradiction|].
      destruct (hue_unit r g b BD NN) as [T [U1 [U2 U3]]]. fold mx mn in T, U1, U2, U3.
      set (hue := @hue_norm R RArith _) in *.
      replace (lit (1 # 2)) with (1 / 2) by (cbn; unfold Q2R; cbn; lra).
      set (l := 1 / 2 * (mx + mn)) in *.
      assert (Bl : 0 < l < 1) by (unfold l; lra).
      rewrite (Reqb_ne l 0), (Reqb_ne l 1), (Reqb_ne mx 0) by lra. cbn [orb].
      assert (M : 1 - Rabs (2 * l - 1) = 2 * Rmin l (1 - l))  by (apply min_abs).
      assert (Mp : 0 < Rmin l (1 - l)) by (apply Rmin_glb_lt; lra).
      assert (Ml : (mx - mn) / 2 <= Rmin l (1 - l)) by (apply Rmin_glb; unfold l; lra).
      rewrite M.
      set (s := (mx - mn) / (2 * Rmin l (1 - l))).
      assert (S1 : s * Rmin l (1 - l) = (mx - mn) / 2) by (unfold s; field; lra).
      assert (S0 : 0 <= s <= 1) by (apply div_bounds; lra).
      rewrite (c01R s), (c01R l) by lra. rewrite (Reqb_ne l 0) by lra.
      destruct (hsl_of_unit hue s l T) as [H1 [H2 H3]]. rewrite H1, H2, H3, S1. unfold l.
      apply deep_eq; try assumption; lra.
  - split; [destruct (Reqb mx mn); reflexivity|]. split; [symmetry; exact Ec|].
    intros NZ. apply same_deep; auto. rewrite Reqb_ne; [reflexivity|].
    pose proof (mx3_ge r g b). fold mx in H. intros Z. destruct NZ as [NZ|[NZ|NZ]]; apply NZ; lra.
Qed.

(** C40 *)
Lemma hcy_round : ~ near_360 r g b -> via to_hcy to_rgb_deep h p (fun m d => ty m = HCY /\ same_colour c d).
Proof.
  intros NN. destruct (deep_range c r g b W Ec) as [Br [Bg Bb]]. destruct mxmn as [B0 [B1 BD]].
  assert (L : forall (t : bool) (x y : color R), (if t then Ok x else Ok y) = Ok (if t then x else y)) by (intros []; reflexivity).
  assert (WR : @luma_r R RArith = 0.2126 /\ @luma_g R RArith = 0.7152 /\ @luma_b R RArith = 0.0722).
  { unfold luma_r, luma_g, luma_b. cbn. unfold Q2R. cbn. lra. }
  destruct WR as [WR [WG WB]].
  eapply (via_leaf to_hcy to_rgb_deep RGB_DEEP HCY rgb_deep_to_hcy_f hcy_to_rgb_deep_f h p c);
    [disp|disp|exact Hp|exact W|apply rgb_deep_to_hcy_ok| | |].
  - unfold rgb_deep_to_hcy_f, with3. rewrite Ec. rn. change (Rmin (Rmin r g) b) with mn. change (Rmax (Rmax r g) b) with mx.
    rewrite !hcy_nf. rewrite (alpha_std c _ W eq_refl). apply L.
  - instantiate (1 := Color RGB_DEEP RGB_DEEP [r; g; b] (m_alpha c) 1 0 (rgb_space c)).
    rewrite WR, WG, WB.
    destruct (Req_EM_T mx mn) as [E|E]; [rewrite (Reqb_eq mx mn E)|rewrite (Reqb_ne mx mn E)];
      unfold hcy_to_rgb_deep_f, with3; cbn [comps alpha cls m_alpha rgb_space base_alpha]; rewrite WR, WG, WB; unfold clamp_float; rn.
    + destruct (grey_case r g b E) as [E1 [E2 E3]]. fold mn in E1, E2, E3.
      rewrite (c01R 0), (c01R mn) by lra. rewrite !Rmult_0_r, !Rplus_0_l. apply deep_eq; try assumption; lra.
    + destruct BD as [BD|BD]; [contradiction|].
      destruct (hue_unit r g b BD NN) as [T [U1 [U2 U3]]]. fold mx mn in T, U1, U2, U3.
      set (hue := @hue_norm R RArith _) in *.
      replace (hue / 360 * 6) with (hue / 60) by field.
      set (t := hue / 60) in *. fold (cl (Rabs (t - 3) - 1)) (cl (2 - Rabs (t - 2))) (cl (2 - Rabs (t - 4))). fold (ur t) (ug t) (ub t).
      set (y := 0.2126 * r + 0.7152 * g + 0.0722 * b).
      rewrite (c01R (mx - mn)) by lra. rewrite (c01R y) by (unfold y; lra).
      assert (Y : (mx - mn) * (ur t * 0.2126 + ug t * 0.7152 + ub t * 0.0722) = y - mn) by (unfold y; lra).
      set (Z := ur t * 0.2126 + ug t * 0.7152 + ub t * 0.0722) in *.
      apply deep_eq; try assumption; rewrite Rmult_comm, Rmult_minus_distr_l, Y; lra.
  - split; [destruct (Reqb mx mn); reflexivity|apply same_deep; auto].
Qed.

(** C41 *)
Lemma hsi_round : ~ near_360 r g b -> (r = 0 \/ g = 0 \/ b = 0 \/ (r = g /\ g = b)) ->
  via to_hsi to_rgb_deep h p (fun m d => ty m = HSI /\ same_colour c d).
Proof.
  intros NN ZG. destruct (deep_range c r g b W Ec) as [Br [Bg Bb]]. destruct mxmn as [B0 [B1 BD]].
  assert (L : forall (t : bool) (x y : color R), (if t then Ok x else Ok y) = Ok (if t then x else y)) by (intros []; reflexivity).
  eapply (via_leaf to_hsi to_rgb_deep RGB_DEEP HSI rgb_deep_to_hsi_f hsi_to_rgb_deep_f h p c);
    [disp|disp|exact Hp|exact W|apply rgb_deep_to_hsi_ok| | |].
  - unfold rgb_deep_to_hsi_f, with3. rewrite Ec. rn. change (Rmin (Rmin r g) b) with mn. change (Rmax (Rmax r g) b) with mx.
    rewrite !hsi_nf. rewrite (alpha_std c _ W eq_refl). apply L.
  - instantiate (1 := Color RGB_DEEP RGB_DEEP [r; g; b] (m_alpha c) 1 0 (rgb_space c)).
    destruct (Req_EM_T mx mn) as [E|E]; [rewrite (Reqb_eq mx mn E)|rewrite (Reqb_ne mx mn E)];
      unfold hsi_to_rgb_deep_f, with3; cbn [comps alpha cls m_alpha rgb_space base_alpha]; rn.
    + destruct (grey_case r g b E) as [E1 [E2 E3]]. fold mn in E1, E2, E3.
      rewrite !c01R by lra. rewrite Reqb_eq by reflexivity. rewrite E1, E2, E3. apply deep1_eq; lra.
    + destruct BD as [BD|BD]; [contradiction|].
      pose proof (mn3_le r g b) as ML. pose proof (mx3_ge r g b) as XG. fold mx in XG. fold mn in ML.
      pose proof (mx3_in r g b) as XI. pose proof (mn3_in r g b) as MI. fold mx in XI. fold mn in MI.
      assert (M0 : mn = 0).
      { destruct ZG as [Z|[Z|[Z|[Z1 Z2]]]]; try lra. }
      destruct (hue_unit r g b BD NN) as [T [U1 [U2 U3]]]. fold mx mn in T, U1, U2, U3.
      set (hue := @hue_norm R RArith _) in *.
      set (t := hue / 60) in *.
      destruct (sector_unit t mx T) as [SU SZ].
      destruct (unit_bounds t) as [UB1 [UB2 UB3]].
      set (i := (r + g + b) / 3). assert (Bi : 0 < i <= 1) by (unfold i; lra).
      replace (1 - mn / i) with 1 by (rewrite M0; field; lra).
      rewrite (c01R 1), (c01R i) by lra. rewrite Reqb_ne by lra.
      fold (zz t).
      assert (I3 : 3 * i = mx * (ur t + ug t + ub t)) by (unfold i; rewrite M0 in *; lra).
      assert (ZP : 1 + zz t <> 0).
      { rewrite SZ. intros K. rewrite K in I3. lra. }
      replace (3 * i * 1 / (1 + zz t)) with mx by (rewrite I3, <- SZ; field; exact ZP).
      rewrite SU. rewrite M0 in *.
      apply deep_eq; try assumption; lra.
  - split; [destruct (Reqb mx mn); reflexivity|apply same_deep; auto].
Qed.

Lemma zero_in (x y z a' b' c' : R) : x = 0 \/ y = 0 \/ z = 0 -> exists i, nth_error [@c01 R RArith x; @c01 R RArith y; @c01 R RArith z] i = Some 0.
Proof. intros [->|[->| ->]]; [exists 0%nat|exists 1%nat|exists 2%nat]; cbn [nth_error]; rewrite c01R; auto; lra. Qed.

Lemma hsi_fails : 0 < r -> 0 < g -> 0 < b -> ~ (r = g /\ g = b) ->
  via to_hsi to_rgb_deep h p (fun m d => exists i, nth_error (comps d) i = Some 0).
Proof.
  intros Pr Pg Pb NG. destruct (deep_range c r g b W Ec) as [Br [Bg Bb]]. destruct mxmn as [B0 [B1 BD]].
  pose proof (mn3_le r g b) as ML. pose proof (mx3_ge r g b) as XG. pose proof (mn3_in r g b) as MI. fold mx in XG. fold mn in ML, MI.
  assert (E : mx <> mn) by (intros E; destruct (grey_case r g b E); lra).
  destruct BD as [BD|BD]; [contradiction|].
  set (i := (r + g + b) / 3). assert (Bi : mn < i <= 1).
  { unfold i. split; [|lra]. pose proof (mx3_in r g b) as XI. fold mx in XI. lra. }
  assert (Bs : 0 < 1 - mn / i <= 1).
  { split.
    - assert (mn / i < 1); [|lra]. apply (Rmult_lt_reg_r i); [lra|]. unfold Rdiv. rewrite Rmult_assoc, Rinv_l by lra. lra.
    - assert (0 <= mn / i); [|lra]. unfold Rdiv. apply Rmult_le_pos; [lra|]. left. apply Rinv_0_lt_compat. lra. }
  destruct (rgb_deep_to_hsi_ok (AF := RArith) c W) as [m [Em [Wm _]]].
  pose proof Em as Em'. unfold rgb_deep_to_hsi_f, with3 in Em. rewrite Ec in Em.
  cbn [fadd fsub fmul fdiv fmin fmax feq RArith] in Em. rewrite ?fzR in Em.
  change (Rmin (Rmin r g) b) with mn in Em. change (Rmax (Rmax r g) b) with mx in Em.
  rewrite (Reqb_ne mx mn E) in Em. rewrite hsi_nf in Em. fold i in Em.
  rewrite (c01R (1 - mn / i)), (c01R i) in Em by lra.
  set (hue := @hue_norm R RArith _) in Em. injection Em as Em.
  assert (Bh : 0 <= hue <= 359).
  { destruct (hue_range m HSI hue (1 - mn / i) i Wm eq_refl) as [B _]; [rewrite <- Em; reflexivity|exact B]. }
  eapply (via_leaf to_hsi to_rgb_deep RGB_DEEP HSI rgb_deep_to_hsi_f hsi_to_rgb_deep_f h p c);
    [disp|disp|exact Hp|exact W|apply rgb_deep_to_hsi_ok|exact Em'| |].
  - rewrite <- Em. unfold hsi_to_rgb_deep_f, with3. cbn [comps]. rn. rewrite Reqb_ne by lra.
    fold (zz (hue / 60)). destruct (sector_unit (hue / 60) (3 * i * (1 - mn / i) / (1 + zz (hue / 60)))) as [SU _]; [lra|].
    rewrite SU. rewrite rgb_deepcolor_nf. reflexivity.
  - cbn [comps]. apply zero_in; try exact 0.
    destruct (unit_zero (hue / 60)) as [U|[U|U]]; [lra| | |]; rewrite U, Rmult_0_r; auto.
Qed.
End RGB.

Section HSVHSL.
Variables (h : heap R) (p : nat) (c : color R) (x s v : R).
Hypothesis Hp : at_addr h p c.

(** C43 *)
Lemma hsv_hsl_agree : wf_color HSV c -> comps c = [x; s; v] -> v <> 0 ->
  exists rgb, yields to_rgb_deep h p (fun d => comps d = rgb) /\ via to_hsl to_rgb_deep h p (fun m d => ty m = HSL /\ comps d = rgb).
Proof.
  intros W Ec NZ. destruct (hue_range c HSV x s v W eq_refl Ec) as [Bx [Bs Bv]].
  set (t := x / 60). assert (Bt : 0 <= t < 6) by (unfold t; lra).
  destruct (unit_bounds t) as [U1 [U2 U3]].
  pose (r := v - v * s * (1 - ur t)). pose (g := v - v * s * (1 - ug t)). pose (b := v - v * s * (1 - ub t)).
  assert (K : forall u, 0 <= u <= 1 -> 0 <= v - v * s * (1 - u) <= 1).
  { intros u Hu. assert (A : 0 <= s * (1 - u) <= 1) by (apply mul01; lra).
    replace (v - v * s * (1 - u)) with (v * (1 - s * (1 - u))) by ring. apply mul01; lra. }
  exists [r; g; b]. split.
  - eapply (yields_leaf to_rgb_deep HSV hsv_to_rgb_deep_f h p c); [disp|exact Hp|exact W| |].
    + unfold hsv_to_rgb_deep_f, with3. rewrite Ec. rewrite !fzR.
      destruct (hsv_of_unit x s v Bt) as [H1 [H2 H3]]. rewrite H1, H2, H3.
      apply (deep_eq r g b); try apply K; auto.
    + reflexivity.
  - eapply (via_leaf to_hsl to_rgb_deep HSV HSL hsv_to_hsl_f hsl_to_rgb_deep_f h p c);
      [disp|disp|exact Hp|exact W|apply hsv_to_hsl_ok| | |].
    + unfold hsv_to_hsl_f, with3. rewrite Ec. rn. rewrite hsl_nf. reflexivity.
    + unfold hsl_to_rgb_deep_f, with3. cbn [comps]. rn.
      rewrite hue_norm_id by lra.
      set (l := (2 - s) * v).
      assert (Bl : 0 < l <= 2).
      { unfold l. split; [apply Rmult_lt_0_compat; lra|]. apply Rle_trans with (2 * 1); [apply Rmult_le_compat; lra|lra]. }
      rewrite (c01R (l / 2)) by lra. rewrite (Reqb_ne (l / 2) 0) by lra.
      assert (SV : 0 <= s * v) by (apply Rmult_le_pos; lra).
      assert (A : let q := @c01 R RArith (s * v / (if Rleb l 1 then l else 2 - l)) in q * Rmin (l / 2) (1 - l / 2) = s * v / 2).
      { destruct (Rle_dec l 1) as [Q|Q]; [rewrite Rleb_le by exact Q|rewrite Rleb_gt by lra].
        - assert (D : 0 <= s * v / l <= 1).
          { apply div_bounds; [lra|]. unfold l. assert (s * v <= (2 - s) * v) by (apply Rmult_le_compat_r; lra). lra. }
          cbv zeta. rewrite c01R by exact D. rewrite Rmin_left by lra. field. lra.
        - assert (Q' : s * v <= 2 - l) by (unfold l; lra).
          cbv zeta. rewrite Rmin_right by lra.
          destruct (Req_EM_T (2 - l) 0) as [Z|Z].
          + assert (s * v = 0) by lra. replace (1 - l / 2) with 0 by lra. rewrite H. lra.
          + assert (D : 0 <= s * v / (2 - l) <= 1) by (apply div_bounds; lra).
            rewrite c01R by exact D. field. lra. }
      cbv zeta in A. set (q := @c01 R RArith _) in *.
      destruct (hsl_of_unit x q (l / 2) Bt) as [H1 [H2 H3]]. rewrite H1, H2, H3, A.
      apply (deep_eq r g b); try (apply K; assumption); unfold r, g, b, l; fold t; lra.
    + split; reflexivity.
Qed.
End HSVHSL.

(** C44 *)
Lemma hsl_hsv_disagree : exists (h : heap R) p c, at_addr h p c /\ wf_color HSL c /\ comps c = [0; 1 / 2; 1 / 4] /\
  yields to_rgb_deep h p (fun d => comps d = [3 / 8; 1 / 8; 1 / 8]) /\
  via to_hsv to_rgb_deep h p (fun m d => comps d = [1 / 2; 0; 0]).
Proof.
  destruct (hsl_made (AF := RArith) 0 (1 / 2) (1 / 4) 1 None) as [c [Ec [W _]]].
  pose proof Ec as E. rewrite hsl_nf in E. rewrite hue_norm_id, !c01R in E by lra. injection E as E.
  assert (Hp : at_addr (Heap [c] []) 0%nat c) by reflexivity.
  exists (Heap [c] []), 0%nat, c. split; [exact Hp|]. split; [exact W|]. split; [rewrite <- E; reflexivity|].
  destruct unit_0 as [U1 [U2 U3]].
  split.
  - eapply (yields_leaf to_rgb_deep HSL hsl_to_rgb_deep_f _ _ c); [disp|exact Hp|exact W| |].
    + rewrite <- E. unfold hsl_to_rgb_deep_f, with3. cbn [comps]. rn. rewrite Reqb_ne by lra.
      destruct (hsl_of_unit 0 (1 / 2) (1 / 4)) as [H1 [H2 H3]]; [lra|]. rewrite H1, H2, H3, U1, U2, U3. rewrite Rmin_left by lra.
      apply (deep_eq (3 / 8) (1 / 8) (1 / 8)); lra.
    + reflexivity.
  - eapply (via_leaf to_hsv to_rgb_deep HSL HSV hsl_to_hsv_f hsv_to_rgb_deep_f _ _ c);
      [disp|disp|exact Hp|exact W|apply hsl_to_hsv_ok| | |].
    + rewrite <- E. unfold hsl_to_hsv_f, with3. cbn [comps]. rn. rewrite Rleb_le by lra. rewrite Reqb_ne by lra. cbn [negb]. rewrite hsv_nf. reflexivity.
    + unfold hsv_to_rgb_deep_f, with3. cbn [comps]. rewrite !fzR. rewrite hue_norm_id by lra.
      replace (2 * (1 / 4 * 2) / (1 / 4 * 2 + 1 / 4 * 2)) with 1 by lra. rewrite !c01R by lra.
      destruct (hsv_of_unit 0 1 ((1 / 4 * 2 + 1 / 4 * 2) / 2)) as [H1 [H2 H3]]; [lra|]. rewrite H1, H2, H3, U1, U2, U3.
      apply (deep_eq (1 / 2) 0 0); lra.
    + reflexivity.
Qed.
