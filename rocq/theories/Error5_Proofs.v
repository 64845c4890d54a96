(** * Binary32 round trips between deep RGB and HSL, CMYK *)
From Coq Require Import ZArith QArith Reals Lra Lia List Bool.
From Flocq Require Import Core IEEE754.BinarySingleNaN.
From Verif Require Import Arith Outcome ColorModel GammaModel MatrixModel SpaceModel Heap Converter F32 F32Facts RArith
  Spec Spec32 Laws NormalForms Alpha8 Core_Proofs Core2_Proofs Core3_Proofs Core4_Proofs Hue32 Spec_Matrix Spec_Conv Spec_Round
  Conv_Proofs Conv2_Proofs Run_Proofs HueR_Proofs Round_Proofs Round2_Proofs Error_Proofs Error2_Proofs Error3_Proofs Error4_Proofs Spec_Error.
Import ListNotations.
Local Open Scope R_scope.
Local Notation fin x := (is_finite x = true).

Section E.
Context (o : oracle).
Local Notation "x +. y" := (@fadd f32 (F32 o) x y) (at level 50, left associativity).
Local Notation "x -. y" := (@fsub f32 (F32 o) x y) (at level 50, left associativity).
Local Notation "x *. y" := (@fmul f32 (F32 o) x y) (at level 40, left associativity).
Local Notation "x /. y" := (@fdiv f32 (F32 o) x y) (at level 40, left associativity).
Local Notation "$ n" := (fz (H := F32 o) n) (at level 2).

Lemma near_one : near $1 1 0. Proof. apply near_fz; sm. Qed.

Lemma hsl_helper_close (h s l : f32) H S L e n : near h H (900 * u) -> 0 <= fval h <= 359 -> 0 <= H <= 359 ->
  near s S e -> 0 <= e <= 1 -> Rmin L (1 - L) * e <= 8 * u -> near l L (21 / 10 * u) -> 0 <= S <= 1 -> 0 <= L <= 1 -> (n = 0 \/ n = 4 \/ n = 8)%Z ->
  near (@hsl_to_rgb_helper f32 (F32 o) h s l $n) (hsl_to_rgb_helper (AF := RArith) H S L (IZR n)) (60 * u).
Proof.
  intros Nh Bh BH Ns He HM Nl BS BL Hn. rewrite hsl_helper. unfold hsl_to_rgb_helper.
  destruct (angle o h H (900 * u) n 30 Nh Bh BH ltac:(num) ltac:(lia) ltac:(lia)) as [T P].
  replace (2 * (H / 60)) with (H / 30) by field.
  set (t := $n +. (h /. $30)) in * . set (T0 := IZR n + H / 30) in * .
  pose proof (near_range _ _ _ T) as RT. assert (BT : 0 <= T0 <= 20) by (unfold T0; destruct Hn as [->|[->| ->]]; lra).
  destruct (fmod_once o t 12 (proj1 T) ltac:(lia)) as [Fk Vk]; [num|].
  set (k := @ffmod f32 (F32 o) t $12) in * .
  assert (Bk : 0 <= fval k <= 12).
  { rewrite Vk. destruct (Rlt_le_dec (fval t) 12); [rewrite Rfmod_0 by lra|rewrite Rfmod_1 by num]; num. }
  assert (S3 : near (k -. $3) (fval k - 3) (91 / 10 * u)).
  { eapply near_weaken; [apply (near_sub o k $3 (fval k) 3 0 0 9)|]; [apply near_self, Fk|apply near_fz; sm|apply Rabs_le; lra|lra|num]. }
  assert (S9 : near ($9 -. k) (9 - fval k) (91 / 10 * u)).
  { eapply near_weaken; [apply (near_sub o $9 k 9 (fval k) 0 0 9)|]; [apply near_fz; sm|apply near_self, Fk|apply Rabs_le; lra|lra|num]. }
  assert (P1 : near (@fmax f32 (F32 o) (@fmin f32 (F32 o) (k -. $3) (@fmin f32 (F32 o) ($9 -. k) $1)) $(-1)) (psi (fval k)) (91 / 10 * u)).
  { unfold psi. apply near_max; [apply near_min; [exact S3|apply near_min; [exact S9|]]|];
      eapply near_weaken; try (apply near_fz; sm); num. }
  assert (P2 : near (@fmax f32 (F32 o) (@fmin f32 (F32 o) (k -. $3) (@fmin f32 (F32 o) ($9 -. k) $1)) $(-1)) (psi (Rfmod T0 12)) (74 * u)).
  { eapply near_weaken; [eapply near_move; [exact P1|]|].
    - rewrite Vk. apply (psi_mod (fval t) T0 (900 * u / 30 + 34 * u)); [num|lra|exact (proj2 T)|num].
    - num. }
  set (f := @fmax f32 (F32 o) _ _) in * . pose proof (psi_unit (Rfmod T0 12)) as BF. set (ph := psi (Rfmod T0 12)) in * .
  assert (NL : near ($1 -. l) (1 - L) (32 / 10 * u)).
  { eapply near_weaken; [apply (near_sub o $1 l 1 L 0 (21 / 10 * u) 1 near_one Nl)|]; [apply Rabs_le; lra|num|num]. }
  assert (NM : near (@fmin f32 (F32 o) l ($1 -. l)) (Rmin L (1 - L)) (32 / 10 * u)).
  { apply near_min; [eapply near_weaken; [exact Nl|num]|exact NL]. }
  assert (BM : 0 <= Rmin L (1 - L) <= 1 / 2).
  { unfold Rmin. destruct (Rle_dec L (1 - L)); lra. }
  set (M := Rmin L (1 - L)) in * .
  assert (BSM : 0 <= S * M <= 1 / 2). { split; [apply Rmult_le_pos; lra|]. rewrite <- (Rmult_1_l (1 / 2)). apply Rmult_le_compat; lra. }
  assert (NA : near (s *. @fmin f32 (F32 o) l ($1 -. l)) (S * M) (151 / 10 * u)).
  { eapply near_weaken; [apply (near_mul o _ _ _ _ _ _ 1 M (1 / 2) Ns NM)|]; try (apply Rabs_le; lra); num. }
  assert (AP : Rabs (S * M * ph) <= 1 / 2).
  { rewrite Rabs_mult, (Rabs_pos_eq (S * M)) by lra. rewrite <- (Rmult_1_r (1 / 2)). apply Rmult_le_compat; try lra; [apply Rabs_pos|apply Rabs_le; lra]. }
  assert (NP : near (s *. @fmin f32 (F32 o) l ($1 -. l) *. f) (S * M * ph) (54 * u)).
  { eapply near_weaken; [apply (near_mul o _ _ _ _ _ _ (1 / 2) 1 (1 / 2) NA P2)|]; try exact AP; try (apply Rabs_le; lra); num. }
  cbv zeta. fold k. fold f. apply Rabs_le_inv in AP.
  eapply near_weaken; [apply (near_sub o l _ L (S * M * ph) (21 / 10 * u) (54 * u) 2 Nl NP)|]; try (apply Rabs_le; lra); num.
Qed.

(** A quotient of two approximate numbers. *)
Lemma near_ratio x y a b e1 e2 : near x a e1 -> near y b e2 -> 0 <= a <= b -> b <= 1 -> 0 <= e1 -> 0 <= e2 -> 0 < b -> 4 * (e1 + e2) <= b ->
  near (x /. y) (a / b) (4 / 3 * (e1 + e2) / b + 2 * u).
Proof.
  intros Nx Ny Ha Hb P1 P2 Pb HL. pose proof (near_range _ _ _ Nx) as Rx. pose proof (near_range _ _ _ Ny) as Ry.
  assert (Y : 3 / 4 * b <= fval y) by lra. assert (Q : 0 <= a / b <= 1) by (apply div_bounds; lra).
  assert (K : Rabs (fval x / fval y - a / b) <= 4 / 3 * (e1 + e2) / b).
  { replace (fval x / fval y - a / b) with (((fval x - a) + (a / b) * (b - fval y)) / fval y) by (field; lra).
    unfold Rdiv at 1. rewrite Rabs_mult, (Rabs_pos_eq (/ fval y)) by (left; apply Rinv_0_lt_compat; lra).
    apply Rle_trans with ((e1 + e2) * (4 / 3 / b)).
    - apply Rmult_le_compat; [apply Rabs_pos|left; apply Rinv_0_lt_compat; lra| |].
      + apply Rle_trans with (1 := Rabs_triang _ _). apply Rplus_le_compat; [exact (proj2 Nx)|]. rewrite Rabs_mult, (Rabs_pos_eq (a / b)) by lra.
        rewrite Rabs_minus_sym. rewrite <- (Rmult_1_l e2). apply Rmult_le_compat; try lra; [apply Rabs_pos|exact (proj2 Ny)].
      + replace (4 / 3 / b) with (/ (3 / 4 * b)) by (field; lra). apply Rinv_le_contravar; lra.
    - right. field. lra. }
  assert (S : 4 / 3 * (e1 + e2) / b <= 1 / 3).
  { apply (Rmult_le_reg_r b); [exact Pb|]. unfold Rdiv at 1. rewrite Rmult_assoc, Rinv_l, Rmult_1_r by lra. lra. }
  assert (S0 : 0 <= 4 / 3 * (e1 + e2) / b) by (apply Rmult_le_pos; [lra|left; apply Rinv_0_lt_compat; lra]).
  pose proof (Rabs_le_inv _ _ K) as K'.
  destruct (Bdiv_ok x y (-100000) 100000 (proj1 Nx) (proj1 Ny)) as [F V]; try sm; [lra|lra|].
  split; [exact F|]. change (x /. y) with (Bdiv mode_NE x y). rewrite V.
  eapply Rle_trans; [apply (rnd_near _ _ _ 1 K); apply Rabs_le; lra|]. num.
Qed.

Section Trip.
Variables (c : color f32) (r g b : f32).
Hypothesis (W : @wf_color f32 (F32 o) RGB_DEEP c) (Ec : comps c = [r; g; b]).
Let R := fval r. Let G := fval g. Let B := fval b.
Let mx := @fmax f32 (F32 o) (@fmax f32 (F32 o) r g) b.
Let mn := @fmin f32 (F32 o) (@fmin f32 (F32 o) r g) b.
Let D := mx3 R G B - mn3 R G B.
Let L := (mx3 R G B + mn3 R G B) / 2.
Let lf := @lit f32 (F32 o) (1 # 2) *. (mx +. mn).
Let M := Rmin L (1 - L).

Lemma lit_half : near (@lit f32 (F32 o) (1 # 2)) (1 / 2) 0.
Proof.
  assert (E : fin (lit32 (1 # 2)) /\ fval (lit32 (1 # 2)) = 1 / 2).
  { assert (H : B2SF (lit32 (1 # 2)) = SpecFloat.S754_finite false 8388608 (-24)) by (vm_compute; reflexivity).
    destruct (lit32 (1 # 2)); try discriminate H. injection H as -> -> ->. split; [reflexivity|]. unfold fval, B2R, F2R.
    cbn [Fnum Fexp bpow radix2 Z.pow_pos Pos.iter radix_val Z.mul Pos.mul cond_Zopp]. lra. }
  destruct E as [F V]. split; [exact F|]. cbn [lit F32]. rewrite V. rewrite Rminus_diag_eq, Rabs_R0 by reflexivity. lra.
Qed.
Lemma lightness : near lf L (21 / 10 * u) /\ 0 <= L <= 1.
Proof.
  destruct (chan_mx o c r g b W Ec) as [Fx Vx]. destruct (chan_mn o c r g b W Ec) as [Fn Vn]. destruct (chan_range o c r g b W Ec) as [B0 [B1 BD]].
  fold mx in Fx, Vx. fold mn in Fn, Vn. fold R G B in Vx, Vn, B0, B1, BD. split; [|unfold L; lra].
  assert (A : near (mx +. mn) (mx3 R G B + mn3 R G B) (201 / 100 * u)).
  { rewrite <- Vx, <- Vn in * . eapply near_weaken; [apply (near_add o mx mn _ _ 0 0 2 (near_self mx Fx) (near_self mn Fn))|]; try (apply Rabs_le; lra); num. }
  unfold lf, L. replace ((mx3 R G B + mn3 R G B) / 2) with (1 / 2 * (mx3 R G B + mn3 R G B)) by field.
  eapply near_weaken; [apply (near_mul o _ _ _ _ _ _ (1 / 2) 2 1 lit_half A)|]; try (apply Rabs_le; lra); num.
Qed.

Let den := $1 -. @fabs f32 (F32 o) ($2 *. lf -. $1).
Lemma den_close : near den (2 * M) (86 / 10 * u).
Proof.
  destruct lightness as [NL BL]. unfold den, M. rewrite <- min_abs.
  assert (N2 : near ($2 *. lf) (2 * L) (63 / 10 * u)).
  { eapply near_weaken; [apply (near_mul o $2 lf 2 L 0 (21 / 10 * u) 2 1 2)|]; [apply near_fz; sm|exact NL|apply Rabs_le; lra|apply Rabs_le; lra|apply Rabs_le; lra|num|num]. }
  assert (N1 : near ($2 *. lf -. $1) (2 * L - 1) (74 / 10 * u)).
  { eapply near_weaken; [apply (near_sub o _ _ _ _ _ _ 1 N2 near_one)|]; try (apply Rabs_le; lra); num. }
  pose proof (near_abs o _ _ _ N1) as N3. clear N1. rename N3 into N1. assert (0 <= Rabs (2 * L - 1) <= 1) by (split; [apply Rabs_pos|apply Rabs_le; lra]).
  eapply near_weaken; [apply (near_sub o _ _ _ _ _ _ 1 near_one N1)|]; try (apply Rabs_le; lra); num.
Qed.

Lemma hsl_trip : trip HSL (@rgb_deep_to_hsl_f f32 (F32 o)) (@hsl_to_rgb_deep_f f32 (F32 o)) c R G (blue_back R G B) (96 * u) (8 * u <= mx3 R G B).
Proof.
  destruct (chan o c r g b W Ec) as [[Fr Br] [[Fg Bg] [Fb Bb]]]. destruct (chan_mx o c r g b W Ec) as [Fx Vx]. destruct (chan_mn o c r g b W Ec) as [Fn Vn].
  destruct (chan_range o c r g b W Ec) as [B0 [B1 BD]].
  fold mx in Fx, Vx. fold mn in Fn, Vn. fold R G B in Vx, Vn, B0, B1, BD, Br, Bg, Bb.
  pose proof (blue_range R G B) as BB. pose proof (mx3_ge R G B) as XG. pose proof (mn3_le R G B) as NLe.
  destruct (fz_val o 0) as [F0 V0]; [sm|].
  assert (K : forall hue s l H S LL e, near hue H (900 * u) -> 0 <= fval hue <= 359 -> 0 <= H <= 359 -> near s S e -> 0 <= e <= 1 -> Rmin LL (1 - LL) * e <= 8 * u ->
    near l LL (21 / 10 * u) -> 0 <= S <= 1 -> 0 <= LL <= 1 -> (8 * u <= mx3 R G B -> fval l <> 0) -> (fval l = 0 -> mx3 R G B <= 10 * u) ->
    Rabs (LL - S * Rmin LL (1 - LL) * (1 - 2 * ur (H / 60)) - R) <= 32 * u ->
    Rabs (LL - S * Rmin LL (1 - LL) * (1 - 2 * ug (H / 60)) - G) <= 32 * u ->
    Rabs (LL - S * Rmin LL (1 - LL) * (1 - 2 * ub (H / 60)) - blue_back R G B) <= 32 * u ->
    forall a sp a1 a2, exists x y z a',
    @hsl_to_rgb_deep_f f32 (F32 o) (Color HSL HSL [hue; s; l] a a1 a2 sp) = Ok (Color RGB_DEEP RGB_DEEP [x; y; z] a' $1 $0 sp) /\
    near x R (96 * u) /\ near y G (96 * u) /\ near z (blue_back R G B) (96 * u) /\ (8 * u <= mx3 R G B -> a' = a)).
  { intros hue s l H S LL e Nh Bh BH Ns He HM Nl BS BL Z1 Z2 E1 E2 E3 a sp a1 a2.
    destruct (hsl_of_unit H S LL ltac:(lra)) as [H1 [H2 H3]]. cbv zeta in H1, H2, H3. rewrite <- H1 in E1. rewrite <- H2 in E2. rewrite <- H3 in E3.
    unfold hsl_to_rgb_deep_f, with3; cbn [comps].
    destruct (Req_dec (fval l) 0) as [Z|Z].
    - rewrite (eq_val o l $0) by (try apply (proj1 Nl); auto; rewrite V0; exact Z). rewrite rgb_deepcolor1_nf. do 4 eexists. split; [reflexivity|].
      destruct (c01_val o $0 F0) as [Fc Vc]; [rewrite V0; lra|]. rewrite V0 in Vc. specialize (Z2 Z).
      split; [|split; [|split; [|intros K8; destruct (Z1 K8 Z)]]]; (split; [exact Fc|]; rewrite Vc; apply Rabs_le; num).
    - rewrite (ne_val o l $0) by (try apply (proj1 Nl); auto; rewrite V0; exact Z). rewrite rgb_deepcolor_nf. do 4 eexists. split; [reflexivity|].
      split; [|split; [|split; [|intros _; reflexivity]]]; (apply near_01; [|num|lra]).
      + eapply near_weaken; [eapply near_move; [apply (hsl_helper_close hue s l H S LL e 0); auto|exact E1]|num].
      + eapply near_weaken; [eapply near_move; [apply (hsl_helper_close hue s l H S LL e 8); auto|exact E2]|num].
      + eapply near_weaken; [eapply near_move; [apply (hsl_helper_close hue s l H S LL e 4); auto|exact E3]|num]. }
  destruct (Req_dec (mx3 R G B) (mn3 R G B)) as [E|E].
  - destruct (grey_case R G B E) as [E1 [E2 E3]]. destruct (c01_val o mn Fn) as [Fc Vc]; [lra|].
    assert (N0 : near $0 0 0) by (apply near_fz; sm).
    assert (NH : near (@hue_norm f32 (F32 o) $0) 0 0). { apply (hue_norm_up o $0 0 0 N0); rewrite ?V0; lra. }
    destruct (K (@hue_norm f32 (F32 o) $0) (@c01 f32 (F32 o) $0) (@c01 f32 (F32 o) mn) 0 0 (mn3 R G B) 0) with (a := m_alpha c) (a1 := $1) (a2 := $0) (sp := rgb_space c)
      as [x [y [z [a' [KE [K1 [K2 [K3 KA]]]]]]]]; try (rewrite (blue_grey R G B E)); try lra; try num; try (apply Rabs_le; num).
    + eapply near_weaken; [exact NH|num].
    + apply hue_unit32.
    + apply near_01; [exact N0|lra|lra].
    + rewrite <- Vn, <- Vc. eapply near_weaken; [apply near_self, Fc|num].
    + rewrite (blue_grey R G B E) in K3. do 5 eexists. split; [|split; [exact KE|split; [|split; [|split; [|split; [exact K1|split; [exact K2|split; [exact K3|]]]]]]]].
      * unfold rgb_deep_to_hsl_f, with3. rewrite Ec. cbv zeta. fold mx mn. rewrite (eq_val o mx mn) by (auto; rewrite Vx, Vn; exact E).
        rewrite hsl_nf. rewrite (alpha_std c _ W eq_refl). reflexivity.
      * reflexivity.
      * reflexivity.
      * reflexivity.
      * split; [exact KA|reflexivity].
  - assert (DP : 0 < D) by (unfold D; lra). destruct (chan_hue o c r g b W Ec E) as [NH BH]. destruct (exact_hue R G B DP) as [T [U1 [U2 U3]]].
    fold mx mn in NH. fold R G B in NH, BH. fold D in U1, U2, U3.
    destruct lightness as [NL BL]. pose proof den_close as ND. pose proof (near_range _ _ _ NL) as RL.
    assert (Mp : 0 < M) by (unfold M; apply Rmin_glb_lt; unfold L, D in *; lra).
    assert (Ml : D / 2 <= M) by (unfold M; apply Rmin_glb; unfold L, D; lra).
    set (t := hueR R G B / 60) in * . destruct (unit_bounds t) as [UB1 [UB2 UB3]].
    set (sat := if @feq f32 (F32 o) lf $0 || @feq f32 (F32 o) lf $1 then $0 else (mx -. mn) /. den).
    assert (NS : exists S e, near (@c01 f32 (F32 o) sat) S e /\ 0 <= e <= 1 /\ M * e <= 8 * u /\ 0 <= S <= 1 /\ (M <= 32 * u \/ S * M = D / 2)).
    { destruct (Rle_lt_dec M (32 * u)) as [C|C].
      - destruct (c01_unit o sat) as [Fs Bs]. exists (fval (@c01 f32 (F32 o) sat)), 0. split; [apply near_self, Fs|]. rewrite Rmult_0_r. repeat split; try lra; num.
      - assert (Z0 : 0 < L - 32 * u /\ L + 32 * u < 1). { unfold M in C. pose proof (Rmin_l L (1 - L)). pose proof (Rmin_r L (1 - L)). lra. }
        destruct (fz_val o 1) as [F1 V1]; [sm|].
        unfold sat. rewrite (ne_val o lf $0), (ne_val o lf $1) by (try apply (proj1 NL); auto; rewrite ?V0, ?V1; num). cbn [orb].
        assert (NDel : near (mx -. mn) D (11 / 10 * u)).
        { unfold D. rewrite <- Vx, <- Vn in * . eapply near_weaken; [apply (near_sub o mx mn _ _ 0 0 1 (near_self mx Fx) (near_self mn Fn))|]; try (apply Rabs_le; lra); num. }
        assert (M1 : M <= 1 / 2). { unfold M, Rmin. destruct (Rle_dec L (1 - L)); lra. }
        exists (D / (2 * M)), (4 / 3 * (11 / 10 * u + 86 / 10 * u) / (2 * M) + 2 * u).
        assert (Q : 0 <= D / (2 * M) <= 1) by (apply div_bounds; lra).
        assert (Q2 : 0 <= 4 / 3 * (11 / 10 * u + 86 / 10 * u) / (2 * M) <= 1 / 4) by (apply div_bounds; num).
        split; [apply near_01; [apply near_ratio; auto; num|num|exact Q]|]. split; [num|]. split; [|split; [exact Q|right; field; lra]].
        replace (M * (4 / 3 * (11 / 10 * u + 86 / 10 * u) / (2 * M) + 2 * u)) with (4 / 3 * (11 / 10 * u + 86 / 10 * u) / 2 + M * (2 * u)) by (field; lra).
        assert (M * (2 * u) <= 1 / 2 * (2 * u)) by (apply Rmult_le_compat_r; [num|exact M1]). num. }
    destruct NS as [S [e [NS [He [HM [BS SM]]]]]].
    assert (Z : forall x y, 0 <= x <= 1 -> D * x = y - mn3 R G B -> Rabs (L - S * M * (1 - 2 * x) - y) <= 32 * u).
    { intros x y Hx Hy. assert (Ey : y = mn3 R G B + D * x) by (rewrite Hy; ring). replace (L - S * M * (1 - 2 * x) - y) with ((D / 2 - S * M) * (1 - 2 * x)) by (rewrite Ey; unfold L, D; field).
      rewrite Rabs_mult. assert (A : Rabs (1 - 2 * x) <= 1) by (apply Rabs_le; lra).
      assert (A2 : Rabs (D / 2 - S * M) <= 32 * u).
      { destruct SM as [SM|SM]; [|rewrite SM, Rminus_diag_eq, Rabs_R0 by reflexivity; num].
        assert (0 <= S * M <= M) by (split; [apply Rmult_le_pos; lra|rewrite <- (Rmult_1_l M) at 2; apply Rmult_le_compat_r; lra]). apply Rabs_le. lra. }
      rewrite <- (Rmult_1_r (32 * u)). apply Rmult_le_compat; auto using Rabs_pos. }
    assert (NC : near (@c01 f32 (F32 o) lf) L (21 / 10 * u)) by (apply near_01; [exact NL|num|exact BL]).
    pose proof (near_range _ _ _ NC) as RC.
    destruct (K (@hue_norm f32 (F32 o) (@hue_from_rgb_helper f32 (F32 o) r g b mx mn (mx -. mn))) (@c01 f32 (F32 o) sat) (@c01 f32 (F32 o) lf) (hueR R G B) S L e)
      with (a := m_alpha c) (a1 := $1) (a2 := $0) (sp := rgb_space c) as [x [y [z [a' [KE [K1 [K2 [K3 KA]]]]]]]];
      try assumption; try (apply Z; assumption).
    + apply hue_unit32.
    + intros H8 H0. unfold L in RC. rewrite H0 in RC. num.
    + intros H0. rewrite H0 in RC. unfold L in RC. num.
    + do 5 eexists. split; [|split; [exact KE|split; [|split; [|split; [|split; [exact K1|split; [exact K2|split; [exact K3|]]]]]]]].
      * unfold rgb_deep_to_hsl_f, with3. rewrite Ec. cbv zeta. fold mx mn. rewrite (ne_val o mx mn) by (auto; rewrite Vx, Vn; exact E).
        rewrite hsl_nf. rewrite (alpha_std c _ W eq_refl). reflexivity.
      * reflexivity.
      * reflexivity.
      * reflexivity.
      * split; [exact KA|reflexivity].
Qed.
End Trip.
End E.
