(** * Binary32 round trips between deep RGB and HSV, HCY, HSL and CMYK *)
From Coq Require Import ZArith QArith Reals Lra Lia List Bool.
From Flocq Require Import Core IEEE754.BinarySingleNaN.
From Verif Require Import Arith Outcome ColorModel GammaModel MatrixModel SpaceModel Heap Converter F32 F32Facts RArith
  Spec Spec32 Laws NormalForms Alpha8 Core_Proofs Core2_Proofs Core3_Proofs Core4_Proofs Hue32 Spec_Matrix Spec_Conv Spec_Round
  Conv_Proofs Conv2_Proofs Run_Proofs HueR_Proofs Round_Proofs Round2_Proofs Error_Proofs Error2_Proofs Error3_Proofs Spec_Error.
Import ListNotations.
Local Open Scope R_scope.
Local Notation fin x := (is_finite x = true).

(** The hue in exact arithmetic, for every colour that is not grey. *)
Definition hueR (r g b : R) : R :=
  @hue_norm _ RArith (hue_from_rgb_helper (AF := RArith) r g b (mx3 r g b) (mn3 r g b) (mx3 r g b - mn3 r g b)).

Lemma blue_near r g b : near_360 r g b -> blue_back r g b = g + (r - g) / 60.
Proof. intros [H1 H2]. unfold blue_back. destruct (Rlt_dec g b); [|lra]. destruct (Rle_dec b r); [|lra]. apply Rmax_right. lra. Qed.
Lemma blue_far r g b : ~ near_360 r g b -> blue_back r g b = b.
Proof.
  intros N. unfold blue_back. destruct (Rlt_dec g b); [|reflexivity]. destruct (Rle_dec b r); [|reflexivity]. apply Rmax_left.
  destruct (Rle_lt_dec (r - g) (60 * (b - g))); [lra|]. exfalso. apply N. split; lra.
Qed.
Lemma near_360_dec r g b : near_360 r g b \/ ~ near_360 r g b.
Proof.
  unfold near_360. destruct (Rlt_dec g b); [|right; lra]. destruct (Rle_dec b r); [|right; lra].
  destruct (Rlt_dec (60 * (b - g)) (r - g)); [left; lra|right; lra].
Qed.

Lemma exact_hue r g b : let mx := mx3 r g b in let mn := mn3 r g b in let d := mx - mn in 0 < d ->
  let t := hueR r g b / 60 in
  0 <= t < 6 /\ d * ur t = r - mn /\ d * ug t = g - mn /\ d * ub t = blue_back r g b - mn.
Proof.
  intros mx mn d D t. destruct (near_360_dec r g b) as [N|N].
  - destruct (hue_near r g b N) as [E1 [E2 E3]]. rewrite (blue_near r g b N). unfold t, hueR. rewrite E3.
    destruct unit_359 as [U1 [U2 U3]]. unfold d, mx, mn. rewrite E1, E2, U1, U2, U3. lra.
  - rewrite (blue_far r g b N). exact (hue_unit r g b D N).
Qed.
Lemma blue_range r g b : mn3 r g b <= blue_back r g b <= mx3 r g b.
Proof.
  pose proof (mx3_ge r g b). pose proof (mn3_le r g b). unfold blue_back. destruct (Rlt_dec g b); [|lra]. destruct (Rle_dec b r); [|lra].
  unfold Rmax. destruct (Rle_dec _ _); lra.
Qed.
Lemma blue_grey r g b : mx3 r g b = mn3 r g b -> blue_back r g b = b.
Proof. intros E. destruct (grey_case r g b E) as [E1 [E2 E3]]. apply blue_far. unfold near_360. lra. Qed.

Section E.
Context (o : oracle).
Local Notation "x +. y" := (@fadd f32 (F32 o) x y) (at level 50, left associativity).
Local Notation "x -. y" := (@fsub f32 (F32 o) x y) (at level 50, left associativity).
Local Notation "x *. y" := (@fmul f32 (F32 o) x y) (at level 40, left associativity).
Local Notation "x /. y" := (@fdiv f32 (F32 o) x y) (at level 40, left associativity).
Local Notation "$ n" := (fz (H := F32 o) n) (at level 2).

Lemma c01_val (x : f32) : fin x -> 0 <= fval x <= 1 -> fin (@c01 f32 (F32 o) x) /\ fval (@c01 f32 (F32 o) x) = fval x.
Proof.
  intros F B. destruct (near_c01 o x (fval x) 0 (near_self x F) ltac:(lra)) as [Fc E]. split; [exact Fc|].
  rewrite Rmin_left, Rmax_left in E by lra. apply Rabs_le_inv in E. lra.
Qed.
Lemma c01_unit (x : f32) : fin (@c01 f32 (F32 o) x) /\ 0 <= fval (@c01 f32 (F32 o) x) <= 1.
Proof.
  destruct (fz_val o 0) as [F0 V0]; [sm|]. destruct (fz_val o 1) as [F1 V1]; [sm|].
  pose proof (clamp32_range x $1 $0 F1 F0) as H. rewrite V0, V1 in H. apply H. lra.
Qed.
Lemma hue_unit32 (x : f32) : fin (@hue_norm f32 (F32 o) x) /\ 0 <= fval (@hue_norm f32 (F32 o) x) <= 359.
Proof.
  destruct (fz_val o 0) as [F0 V0]; [sm|]. destruct (fz_val o 359) as [F1 V1]; [sm|]. unfold hue_norm.
  destruct (wrap_negative _ _) as [v| | |]; try (rewrite V0; split; [exact F0|lra]).
  pose proof (clamp32_range v $359 $0 F1 F0) as H. rewrite V0, V1 in H. apply H. lra.
Qed.
Lemma near_01 x a e : near x a e -> 0 <= e -> 0 <= a <= 1 -> near (@c01 f32 (F32 o) x) a e.
Proof. intros N He Ha. pose proof (near_c01 o x a e N He) as H. rewrite Rmin_left, Rmax_left in H by lra. exact H. Qed.
Lemma eq_val x y : fin x -> fin y -> fval x = fval y -> @feq f32 (F32 o) x y = true.
Proof. intros Fx Fy E. cbn [feq F32]. rewrite Beqb_fin by assumption. apply Req_bool_true, E. Qed.
Lemma ne_val x y : fin x -> fin y -> fval x <> fval y -> @feq f32 (F32 o) x y = false.
Proof. intros Fx Fy E. cbn [feq F32]. rewrite Beqb_fin by assumption. apply Req_bool_false, E. Qed.

(** The float colour [c] is taken to type [Y] by [go] and back by [back]; the channels
    that come back are within [e] of [R], [G], [B]. *)
Definition trip (Y : ctype) (go back : color f32 -> outcome (color f32)) (c : color f32) (R G B e : R) (keep : Prop) : Prop :=
  exists m d x y z, go c = Ok m /\ back m = Ok d /\ ty m = Y /\ ty d = RGB_DEEP /\ comps d = [x; y; z] /\
    near x R e /\ near y G e /\ near z B e /\ (keep -> m_alpha d = m_alpha c) /\ rgb_space d = rgb_space c.

(** ** HCY *)
Lemma luma_close : near (@luma_r f32 (F32 o)) (2126 / 10000) (u / 2) /\ near (@luma_g f32 (F32 o)) (7152 / 10000) (u / 2) /\ near (@luma_b f32 (F32 o)) (722 / 10000) (u / 2).
Proof.
  unfold luma_r, luma_g, luma_b, near. cbn [lit F32].
  assert (L : forall q k e, B2SF (lit32 q) = SpecFloat.S754_finite false k e -> is_finite (lit32 q) = true /\ fval (lit32 q) = F2R (Float radix2 (Zpos k) e)).
  { intros q k e H. destruct (lit32 q); try discriminate H. injection H as -> -> ->. split; reflexivity. }
  destruct (L (2126 # 10000) 14267344%positive (-26)%Z) as [F1 V1]; [vm_compute; reflexivity|].
  destruct (L (7152 # 10000) 11999065%positive (-24)%Z) as [F2 V2]; [vm_compute; reflexivity|].
  destruct (L (722 # 10000) 9690520%positive (-27)%Z) as [F3 V3]; [vm_compute; reflexivity|].
  rewrite V1, V2, V3. unfold F2R. cbn [Fnum Fexp bpow radix2 Z.pow_pos Pos.iter radix_val Z.mul Pos.mul].
  repeat split; auto; apply Rabs_le; unfold u; lra.
Qed.

Lemma clamp_close x a e : near x a e -> 0 <= e -> near (@clamp_float f32 (F32 o) x $0 $1) (cl a) e.
Proof. intros N He. unfold clamp_float, cl. apply near_min; [apply near_max|]; auto; eapply near_weaken; try (apply near_fz; sm); lra. Qed.
Lemma cl_unit x : 0 <= cl x <= 1.
Proof. unfold cl. split; [apply Rmin_glb; [apply Rmax_r|lra]|apply Rmin_r]. Qed.

Section HCY.
Variables (hue ch lu : f32) (H C L : R).
Hypothesis (Nh : near hue H (900 * u)) (Bh : 0 <= fval hue <= 359) (BH : 0 <= H <= 359).
Hypothesis (Nc : near ch C (11 / 10 * u)) (BC : 0 <= C <= 1) (Nl : near lu L (5 * u)) (BL : 0 <= L <= 1).
Let t := H / 60.
Let w := hue /. $360 *. $6.

Lemma hcy_t : near w t (271 / 10 * u).
Proof.
  unfold w, t. assert (Q : near (hue /. $360) (H / 360) (351 / 100 * u)).
  { eapply near_weaken; [apply (near_quot o hue H (900 * u) 360 1 Nh)|]; [lia|apply Rabs_le; lra|num|num]. }
  replace (H / 60) with (H / 360 * 6) by field.
  eapply near_weaken; [apply (near_mul o _ $6 (H / 360) 6 (351 / 100 * u) 0 1 6 6 Q)|]; [apply near_fz; sm|apply Rabs_le; lra|apply Rabs_le; lra|apply Rabs_le; lra|num|num].
Qed.
Lemma hcy_abs n : (2 <= n <= 4)%Z -> near (@fabs f32 (F32 o) (w -. $n)) (Rabs (t - IZR n)) (313 / 10 * u) /\ 0 <= Rabs (t - IZR n) <= 4.
Proof.
  intros Hn. assert (2 <= IZR n <= 4) by (split; apply IZR_le; lia). assert (Bt : 0 <= t < 6) by (unfold t; lra). split.
  - apply near_abs. eapply near_weaken; [apply (near_sub o w $n t (IZR n) (271 / 10 * u) 0 4)|]; [apply hcy_t|apply near_fz; sm|apply Rabs_le; lra|num|num].
  - split; [apply Rabs_pos|apply Rabs_le; lra].
Qed.
Let rf := @clamp_float f32 (F32 o) (@fabs f32 (F32 o) (w -. $3) -. $1) $0 $1.
Let gf := @clamp_float f32 (F32 o) ($2 -. @fabs f32 (F32 o) (w -. $2)) $0 $1.
Let bf := @clamp_float f32 (F32 o) ($2 -. @fabs f32 (F32 o) (w -. $4)) $0 $1.
Lemma hcy_rgb : near rf (ur t) (345 / 10 * u) /\ near gf (ug t) (345 / 10 * u) /\ near bf (ub t) (345 / 10 * u).
Proof.
  destruct (hcy_abs 2 ltac:(lia)) as [N2 B2]. destruct (hcy_abs 3 ltac:(lia)) as [N3 B3]. destruct (hcy_abs 4 ltac:(lia)) as [N4 B4].
  unfold rf, gf, bf, ur, ug, ub. split; [|split]; (apply clamp_close; [|num]).
  - eapply near_weaken; [apply (near_sub o _ $1 _ 1 (313 / 10 * u) 0 3 N3)|]; [apply near_fz; sm|apply Rabs_le; lra|num|num].
  - eapply near_weaken; [apply (near_sub o $2 _ 2 _ 0 (313 / 10 * u) 3)|]; [apply near_fz; sm|exact N2|apply Rabs_le; lra|num|num].
  - eapply near_weaken; [apply (near_sub o $2 _ 2 _ 0 (313 / 10 * u) 3)|]; [apply near_fz; sm|exact N4|apply Rabs_le; lra|num|num].
Qed.
Let Yf := rf *. @luma_r f32 (F32 o) +. gf *. @luma_g f32 (F32 o) +. bf *. @luma_b f32 (F32 o).
Let Y := ur t * (2126 / 10000) + ug t * (7152 / 10000) + ub t * (722 / 10000).
Lemma hcy_y : near Yf Y (40 * u) /\ 0 <= Y <= 1.
Proof.
  destruct luma_close as [L1 [L2 L3]]. destruct hcy_rgb as [N1 [N2 N3]]. destruct (unit_bounds t) as [U1 [U2 U3]].
  assert (P1 : near (rf *. @luma_r f32 (F32 o)) (ur t * (2126 / 10000)) (81 / 10 * u)).
  { eapply near_weaken; [apply (near_mul o _ _ _ _ _ _ 1 (2126 / 10000) (2126 / 10000) N1 L1)|]; try (apply Rabs_le; lra); num. }
  assert (P2 : near (gf *. @luma_g f32 (F32 o)) (ug t * (7152 / 10000)) (26 * u)).
  { eapply near_weaken; [apply (near_mul o _ _ _ _ _ _ 1 (7152 / 10000) (7152 / 10000) N2 L2)|]; try (apply Rabs_le; lra); num. }
  assert (P3 : near (bf *. @luma_b f32 (F32 o)) (ub t * (722 / 10000)) (31 / 10 * u)).
  { eapply near_weaken; [apply (near_mul o _ _ _ _ _ _ 1 (722 / 10000) (722 / 10000) N3 L3)|]; try (apply Rabs_le; lra); num. }
  assert (P4 : near (rf *. @luma_r f32 (F32 o) +. gf *. @luma_g f32 (F32 o)) (ur t * (2126 / 10000) + ug t * (7152 / 10000)) (352 / 10 * u)).
  { eapply near_weaken; [apply (near_add o _ _ _ _ _ _ 1 P1 P2)|]; try (apply Rabs_le; lra); num. }
  unfold Y. split; [|lra]. eapply near_weaken; [apply (near_add o _ _ _ _ _ _ 1 P4 P3)|]; try (apply Rabs_le; lra); num.
Qed.
Lemma hcy_chan x X : near x X (345 / 10 * u) -> 0 <= X <= 1 -> -1 <= (X - Y) * C + L <= 2 -> near ((x -. Yf) *. ch +. lu) ((X - Y) * C + L) (96 * u).
Proof.
  intros Nx BX BR. destruct hcy_y as [NY BY].
  assert (D : near (x -. Yf) (X - Y) (756 / 10 * u)).
  { eapply near_weaken; [apply (near_sub o _ _ _ _ _ _ 1 Nx NY)|]; try (apply Rabs_le; lra); num. }
  assert (A : Rabs (X - Y) <= 1) by (apply Rabs_le; lra).
  assert (M : near ((x -. Yf) *. ch) ((X - Y) * C) (80 * u)).
  { eapply near_weaken; [apply (near_mul o _ _ _ _ _ _ 1 1 1 D Nc A)|]; [apply Rabs_le; lra| |num|num].
    rewrite Rabs_mult, (Rabs_pos_eq C) by lra. pose proof (Rabs_pos (X - Y)). rewrite <- (Rmult_1_l 1). apply Rmult_le_compat; lra. }
  eapply near_weaken; [apply (near_add o _ _ _ _ _ _ 2 M Nl)|]; try (apply Rabs_le; lra); num.
Qed.
End HCY.

Section Trip.
Variables (c : color f32) (r g b : f32).
Hypothesis (W : @wf_color f32 (F32 o) RGB_DEEP c) (Ec : comps c = [r; g; b]).
Let R := fval r. Let G := fval g. Let B := fval b.
Let mx := @fmax f32 (F32 o) (@fmax f32 (F32 o) r g) b.
Let mn := @fmin f32 (F32 o) (@fmin f32 (F32 o) r g) b.

Lemma chan : (fin r /\ 0 <= R <= 1) /\ (fin g /\ 0 <= G <= 1) /\ (fin b /\ 0 <= B <= 1).
Proof.
  pose proof (wf_range _ _ W) as H. rewrite Ec in H.
  pose proof (H 0%nat r eq_refl) as H0. pose proof (H 1%nat g eq_refl) as H1. pose proof (H 2%nat b eq_refl) as H2.
  cbn [comp_range fst snd] in * . apply within32 in H0, H1, H2; try sm. auto.
Qed.
Lemma chan_mx : fin mx /\ fval mx = mx3 R G B.
Proof. destruct chan as [[? _] [[? _] [? _]]]. apply (mx_val o r g b); assumption. Qed.
Lemma chan_mn : fin mn /\ fval mn = mn3 R G B.
Proof. destruct chan as [[? _] [[? _] [? _]]]. apply (mn_val o r g b); assumption. Qed.
Lemma chan_range : 0 <= mn3 R G B /\ mx3 R G B <= 1 /\ mn3 R G B <= mx3 R G B.
Proof. destruct chan as [[? ?] [[? ?] [? ?]]]. apply (mxmn_range r g b); assumption. Qed.
Lemma chan_hue : mx3 R G B <> mn3 R G B -> near (@hue_norm f32 (F32 o) (@hue_from_rgb_helper f32 (F32 o) r g b mx mn (mx -. mn))) (hueR R G B) (900 * u) /\ 0 <= hueR R G B <= 359.
Proof. destruct chan as [[? ?] [[? ?] [? ?]]]. apply (hue_close o r g b); assumption. Qed.

Lemma hsv_trip : trip HSV (@rgb_deep_to_hsv_f f32 (F32 o)) (@hsv_to_rgb_deep_f f32 (F32 o)) c R G (blue_back R G B) (64 * u) True.
Proof.
  destruct chan as [[Fr Br] [[Fg Bg] [Fb Bb]]]. destruct chan_mx as [Fx Vx]. destruct chan_mn as [Fn Vn]. destruct chan_range as [B0 [B1 BD]].
  pose proof (blue_range R G B) as BB.
  assert (K : forall hue s v H S V, near hue H (900 * u) -> 0 <= fval hue <= 359 -> 0 <= H <= 359 -> near s S (4 * u) -> fin v -> V = fval v -> 0 <= S <= 1 -> 0 <= V <= 1 ->
    V - V * S * (1 - ur (H / 60)) = R -> V - V * S * (1 - ug (H / 60)) = G -> V - V * S * (1 - ub (H / 60)) = blue_back R G B ->
    near (@c01 f32 (F32 o) (@hsv_to_rgb_helper f32 (F32 o) hue s v $5)) R (64 * u) /\
    near (@c01 f32 (F32 o) (@hsv_to_rgb_helper f32 (F32 o) hue s v $3)) G (64 * u) /\
    near (@c01 f32 (F32 o) (@hsv_to_rgb_helper f32 (F32 o) hue s v $1)) (blue_back R G B) (64 * u)).
  { intros hue s v H S V Nh Bh BH Ns Fv EV BS BV E1 E2 E3. destruct (hsv_of_unit H S V ltac:(lra)) as [H1 [H2 H3]]. cbv zeta in H1, H2, H3. rewrite E1 in H1. rewrite E2 in H2. rewrite E3 in H3.
    split; [|split]; (apply near_01; [|num|lra]).
    - rewrite <- H1. eapply (hsv_helper_close o hue s v H S V (4 * u) 5); auto; num.
    - rewrite <- H2. eapply (hsv_helper_close o hue s v H S V (4 * u) 3); auto; num.
    - rewrite <- H3. eapply (hsv_helper_close o hue s v H S V (4 * u) 1); auto; num. }
  destruct (Req_dec (mx3 R G B) (mn3 R G B)) as [E|E].
  - destruct (grey_case R G B E) as [E1 [E2 E3]]. destruct (c01_val mn Fn) as [Fc Vc]; [lra|].
    assert (N0 : near $0 0 0) by (apply near_fz; sm).
    assert (NH : near (@hue_norm f32 (F32 o) $0) 0 0). { apply (hue_norm_up o $0 0 0 N0); destruct (fz_val o 0) as [_ V0]; try sm; rewrite ?V0; lra. }
    destruct (K (@hue_norm f32 (F32 o) $0) (@c01 f32 (F32 o) $0) (@c01 f32 (F32 o) mn) 0 0 (mn3 R G B)) as [K1 [K2 K3]];
      try rewrite (blue_grey R G B E); try lra.
    + eapply near_weaken; [exact NH|num].
    + apply hue_unit32.
    + apply near_01; [|num|lra]. eapply near_weaken; [exact N0|num].
    + exact Fc.
    + rewrite (blue_grey R G B E) in K3. exists (Color HSV HSV [@hue_norm f32 (F32 o) $0; @c01 f32 (F32 o) $0; @c01 f32 (F32 o) mn] (m_alpha c) $1 $0 (rgb_space c)).
      do 4 eexists. split; [|split; [|split; [|split; [|split; [|split; [exact K1|split; [exact K2|split; [exact K3|]]]]]]]].
      * unfold rgb_deep_to_hsv_f, with3. rewrite Ec. cbv zeta. fold mx mn. rewrite (eq_val mx mn) by (auto; rewrite Vx, Vn; exact E).
        rewrite hsv_nf. rewrite (alpha_std c _ W eq_refl). reflexivity.
      * unfold hsv_to_rgb_deep_f, with3. cbn [comps]. rewrite rgb_deepcolor_nf. reflexivity.
      * reflexivity.
      * reflexivity.
      * reflexivity.
      * split; reflexivity.
  - assert (D : 0 < mx3 R G B - mn3 R G B) by lra. destruct (chan_hue E) as [NH BH]. destruct (exact_hue R G B D) as [T [U1 [U2 U3]]].
    destruct (c01_val mx Fx) as [Fc Vc]; [lra|].
    assert (S1 : mx3 R G B * ((mx3 R G B - mn3 R G B) / mx3 R G B) = mx3 R G B - mn3 R G B) by (field; lra).
    assert (S0 : 0 <= (mx3 R G B - mn3 R G B) / mx3 R G B <= 1) by (apply div_bounds; lra).
    assert (NS : near ((mx -. mn) /. mx) ((mx3 R G B - mn3 R G B) / mx3 R G B) (4 * u)).
    { rewrite <- Vx, <- Vn in * . apply (near_div o (mx -. mn) mx (fval mx - fval mn) (fval mx) u 0).
      - apply rel_sub; auto; apply Rabs_le; lra.
      - apply rel_self, Fx.
      - lra.
      - apply Rabs_le; lra.
      - num.
      - num. }
    destruct (K (@hue_norm f32 (F32 o) (@hue_from_rgb_helper f32 (F32 o) r g b mx mn (mx -. mn))) (@c01 f32 (F32 o) ((mx -. mn) /. mx)) (@c01 f32 (F32 o) mx)
      (hueR R G B) ((mx3 R G B - mn3 R G B) / mx3 R G B) (mx3 R G B)) as [K1 [K2 K3]]; try rewrite S1; try lra.
    + exact NH.
    + apply hue_unit32.
    + apply near_01; [exact NS|num|lra].
    + exact Fc.
    + eexists. do 4 eexists. split; [|split; [|split; [|split; [|split; [|split; [exact K1|split; [exact K2|split; [exact K3|]]]]]]]].
      * unfold rgb_deep_to_hsv_f, with3. rewrite Ec. cbv zeta. fold mx mn. rewrite (ne_val mx mn) by (auto; rewrite Vx, Vn; exact E).
        rewrite hsv_nf. rewrite (alpha_std c _ W eq_refl). reflexivity.
      * unfold hsv_to_rgb_deep_f, with3. cbn [comps]. rewrite rgb_deepcolor_nf. reflexivity.
      * reflexivity.
      * reflexivity.
      * reflexivity.
      * split; reflexivity.
Qed.

Lemma luma_of : near (@luma_r f32 (F32 o) *. r +. @luma_g f32 (F32 o) *. g +. @luma_b f32 (F32 o) *. b) (2126 / 10000 * R + 7152 / 10000 * G + 722 / 10000 * B) (5 * u).
Proof.
  destruct luma_close as [L1 [L2 L3]]. destruct chan as [[Fr Br] [[Fg Bg] [Fb Bb]]].
  assert (P1 : near (@luma_r f32 (F32 o) *. r) (2126 / 10000 * R) (8 / 10 * u)).
  { eapply near_weaken; [apply (near_mul o _ _ _ _ _ _ (2126 / 10000) 1 (2126 / 10000) L1 (near_self r Fr))|]; try (fold R; apply Rabs_le; lra); num. }
  assert (P2 : near (@luma_g f32 (F32 o) *. g) (7152 / 10000 * G) (13 / 10 * u)).
  { eapply near_weaken; [apply (near_mul o _ _ _ _ _ _ (7152 / 10000) 1 (7152 / 10000) L2 (near_self g Fg))|]; try (fold G; apply Rabs_le; lra); num. }
  assert (P3 : near (@luma_b f32 (F32 o) *. b) (722 / 10000 * B) (6 / 10 * u)).
  { eapply near_weaken; [apply (near_mul o _ _ _ _ _ _ (722 / 10000) 1 (722 / 10000) L3 (near_self b Fb))|]; try (fold B; apply Rabs_le; lra); num. }
  assert (P4 : near (@luma_r f32 (F32 o) *. r +. @luma_g f32 (F32 o) *. g) (2126 / 10000 * R + 7152 / 10000 * G) (32 / 10 * u)).
  { eapply near_weaken; [apply (near_add o _ _ _ _ _ _ 1 P1 P2)|]; try (apply Rabs_le; lra); num. }
  eapply near_weaken; [apply (near_add o _ _ _ _ _ _ 1 P4 P3)|]; try (apply Rabs_le; lra); num.
Qed.

(** The luma stored belongs to the blue channel before the trip. *)
Let sh := 722 / 10000 * (blue_back R G B - B).
Lemma shift_pos : 0 <= sh <= 722 / 10000.
Proof.
  destruct chan as [[Fr Br] [[Fg Bg] [Fb Bb]]]. unfold sh, blue_back. destruct (Rlt_dec G B); [|lra]. destruct (Rle_dec B R); [|lra].
  unfold Rmax. destruct (Rle_dec _ _); lra.
Qed.
Lemma near_pos x a e : near x a e -> 0 <= e -> a <= 1 -> near (@c01 f32 (F32 o) x) (Rmax 0 a) e.
Proof. intros N He Ha. pose proof (near_c01 o x a e N He) as H. rewrite Rmin_left, Rmax_comm in H by lra. exact H. Qed.
Lemma hcy_trip : trip HCY (@rgb_deep_to_hcy_f f32 (F32 o)) (@hcy_to_rgb_deep_f f32 (F32 o)) c (Rmax 0 (R - sh)) (Rmax 0 (G - sh)) (Rmax 0 (blue_back R G B - sh)) (96 * u) True.
Proof.
  destruct chan as [[Fr Br] [[Fg Bg] [Fb Bb]]]. destruct chan_mx as [Fx Vx]. destruct chan_mn as [Fn Vn]. destruct chan_range as [B0 [B1 BD]].
  pose proof (blue_range R G B) as BB. pose proof shift_pos as SP.
  assert (K : forall hue ch lu H C L, near hue H (900 * u) -> 0 <= fval hue <= 359 -> 0 <= H <= 359 ->
    near ch C (11 / 10 * u) -> 0 <= C <= 1 -> near lu L (5 * u) -> 0 <= L <= 1 ->
    let t := H / 60 in let Y := ur t * (2126 / 10000) + ug t * (7152 / 10000) + ub t * (722 / 10000) in
    (ur t - Y) * C + L = R - sh -> (ug t - Y) * C + L = G - sh -> (ub t - Y) * C + L = blue_back R G B - sh -> forall a sp a1 a2, exists x y z,
    @hcy_to_rgb_deep_f f32 (F32 o) (Color HCY HCY [hue; ch; lu] a a1 a2 sp) = Ok (Color RGB_DEEP RGB_DEEP [x; y; z] a $1 $0 sp) /\
    near x (Rmax 0 (R - sh)) (96 * u) /\ near y (Rmax 0 (G - sh)) (96 * u) /\ near z (Rmax 0 (blue_back R G B - sh)) (96 * u)).
  { intros hue ch lu H C L Nh Bh BH Nc BC Nl BL t Y E1 E2 E3 a sp a1 a2.
    destruct (hcy_rgb hue H Nh BH) as [N1 [N2 N3]]. destruct (unit_bounds t) as [U1 [U2 U3]].
    do 3 eexists. split; [unfold hcy_to_rgb_deep_f, with3; cbn [comps]; cbv zeta; rewrite rgb_deepcolor_nf; reflexivity|].
    split; [|split]; (apply near_pos; [|num|lra]).
    - rewrite <- E1. apply (hcy_chan hue ch lu H C L Nh BH Nc BC Nl _ _ N1); fold t; fold Y; lra.
    - rewrite <- E2. apply (hcy_chan hue ch lu H C L Nh BH Nc BC Nl _ _ N2); fold t; fold Y; lra.
    - rewrite <- E3. apply (hcy_chan hue ch lu H C L Nh BH Nc BC Nl _ _ N3); fold t; fold Y; lra. }
  destruct (Req_dec (mx3 R G B) (mn3 R G B)) as [E|E].
  - destruct (grey_case R G B E) as [E1 [E2 E3]]. destruct (c01_val mn Fn) as [Fc Vc]; [lra|].
    assert (N0 : near $0 0 0) by (apply near_fz; sm).
    assert (NH : near (@hue_norm f32 (F32 o) $0) 0 0). { apply (hue_norm_up o $0 0 0 N0); destruct (fz_val o 0) as [_ V0]; try sm; rewrite ?V0; lra. }
    destruct (K (@hue_norm f32 (F32 o) $0) (@c01 f32 (F32 o) $0) (@c01 f32 (F32 o) mn) 0 0 (mn3 R G B)) with (a := m_alpha c) (a1 := $1) (a2 := $0) (sp := rgb_space c)
      as [x [y [z [KE [K1 [K2 K3]]]]]];
      try (unfold sh; rewrite (blue_grey R G B E)); try lra.
    + eapply near_weaken; [exact NH|num].
    + apply hue_unit32.
    + apply near_01; [|num|lra]. eapply near_weaken; [exact N0|num].
    + rewrite <- Vn, <- Vc. eapply near_weaken; [apply near_self, Fc|num].
    + unfold sh in K1, K2, K3. rewrite (blue_grey R G B E) in K1, K2, K3. do 5 eexists. split; [|split; [exact KE|split; [|split; [|split; [|split; [exact K1|split; [exact K2|split; [exact K3|]]]]]]]].
      * unfold rgb_deep_to_hcy_f, with3. rewrite Ec. cbv zeta. fold mx mn. rewrite (eq_val mx mn) by (auto; rewrite Vx, Vn; exact E).
        rewrite hcy_nf. rewrite (alpha_std c _ W eq_refl). reflexivity.
      * reflexivity.
      * reflexivity.
      * reflexivity.
      * split; reflexivity.
  - assert (D : 0 < mx3 R G B - mn3 R G B) by lra. destruct (chan_hue E) as [NH BH]. destruct (exact_hue R G B D) as [T [U1 [U2 U3]]].
    assert (ND : near (mx -. mn) (mx3 R G B - mn3 R G B) (11 / 10 * u)).
    { rewrite <- Vx, <- Vn in * . eapply near_weaken; [apply (near_sub o mx mn _ _ 0 0 1 (near_self mx Fx) (near_self mn Fn))|]; try (apply Rabs_le; lra); num. }
    set (LL := 2126 / 10000 * R + 7152 / 10000 * G + 722 / 10000 * B).
    assert (BLL : 0 <= LL <= 1) by (unfold LL; lra).
    set (t := hueR R G B / 60) in * .
    destruct (K (@hue_norm f32 (F32 o) (@hue_from_rgb_helper f32 (F32 o) r g b mx mn (mx -. mn))) (@c01 f32 (F32 o) (mx -. mn))
      (@c01 f32 (F32 o) (@luma_r f32 (F32 o) *. r +. @luma_g f32 (F32 o) *. g +. @luma_b f32 (F32 o) *. b))
      (hueR R G B) (mx3 R G B - mn3 R G B) LL) with (a := m_alpha c) (a1 := $1) (a2 := $0) (sp := rgb_space c)
      as [x [y [z [KE [K1 [K2 K3]]]]]]; try (fold t; unfold sh, LL; lra).
    + exact NH.
    + apply hue_unit32.
    + apply near_01; [exact ND|num|lra].
    + apply near_01; [exact luma_of|num|lra].
    + do 5 eexists. split; [|split; [exact KE|split; [|split; [|split; [|split; [exact K1|split; [exact K2|split; [exact K3|]]]]]]]].
      * unfold rgb_deep_to_hcy_f, with3. rewrite Ec. cbv zeta. fold mx mn. rewrite (ne_val mx mn) by (auto; rewrite Vx, Vn; exact E).
        rewrite hcy_nf. rewrite (alpha_std c _ W eq_refl). reflexivity.
      * reflexivity.
      * reflexivity.
      * reflexivity.
      * split; reflexivity.
Qed.
End Trip.
End E.
