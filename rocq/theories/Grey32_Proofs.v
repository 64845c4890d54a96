(** * Greys in binary32 *)
From Coq Require Import ZArith QArith Reals Lra Lia List Bool.
From Flocq Require Import Core IEEE754.BinarySingleNaN.
From Verif Require Import Calculation Blend Spec_Calc Spec_Blend Calc_Proofs Blend_Proofs Blend2_Proofs Mirror3_Proofs.
From Verif Require Import Arith Outcome ColorModel GammaModel MatrixModel SpaceModel Heap Converter F32 F32Facts RArith
  Spec Spec32 Laws NormalForms Alpha8 Core_Proofs Core2_Proofs Core3_Proofs Core4_Proofs Hue32 Spec_Matrix Spec_Conv Spec_Round
  Conv_Proofs Conv2_Proofs Run_Proofs HueR_Proofs Round_Proofs Round2_Proofs Error_Proofs Error2_Proofs Error3_Proofs Error4_Proofs Error5_Proofs Error6_Proofs Spec_Error Spec_Grey.
Import ListNotations.
Local Open Scope R_scope.
Local Notation fin x := (is_finite x = true).

Section E.
Context (o : oracle).
Local Notation "x +. y" := (@fadd f32 (F32 o) x y) (at level 50, left associativity).
Local Notation "x -. y" := (@fsub f32 (F32 o) x y) (at level 50, left associativity).
Local Notation "x *. y" := (@fmul f32 (F32 o) x y) (at level 40, left associativity).
Local Notation "x /. y" := (@fdiv f32 (F32 o) x y) (at level 40, left associativity).
Local Notation "$ n" := (fz (H := F32 o) n) (at level 2).
Local Notation c1 := (@c01 f32 (F32 o)).

Lemma mul_0 (x y : f32) : fin x -> fin y -> fval x = 0 \/ fval y = 0 -> fin (x *. y) /\ fval (x *. y) = 0.
Proof.
  intros Fx Fy Z. assert (P : fval x * fval y = 0) by (destruct Z as [-> | ->]; ring).
  destruct (Bmult_ok x y (-1) 1 Fx Fy) as [F V]; try sm; [rewrite P; lra|]. split; [exact F|].
  change (fval (Bmult mode_NE x y) = 0). rewrite V, P. apply rnd32_0.
Qed.
Lemma sub_0 (x y : f32) : fin x -> fin y -> 0 <= fval x <= 1 -> fval y = 0 -> fin (x -. y) /\ fval (x -. y) = fval x.
Proof.
  intros Fx Fy B Z. destruct (Bminus_ok x y (-1) 1 Fx Fy) as [F V]; try sm; [rewrite Z; lra|]. split; [exact F|].
  change (fval (Bminus mode_NE x y) = fval x). rewrite V, Z, Rminus_0_r. apply rnd32_id.
Qed.
Lemma add_0 (x y : f32) : fin x -> fin y -> 0 <= fval y <= 1 -> fval x = 0 -> fin (x +. y) /\ fval (x +. y) = fval y.
Proof.
  intros Fx Fy B Z. destruct (Bplus_ok x y (-1) 1 Fx Fy) as [F V]; try sm; [rewrite Z; lra|]. split; [exact F|].
  change (fval (Bplus mode_NE x y) = fval y). rewrite V, Z, Rplus_0_l. apply rnd32_id.
Qed.
Lemma zero_01 : fin (c1 $0) /\ fval (c1 $0) = 0.
Proof. destruct (fz_val o 0) as [F0 V0]; [sm|]. destruct (c01_val o $0 F0) as [F V]; [rewrite V0; lra|]. rewrite V0 in V. auto. Qed.
Lemma zero_hue : fin (@hue_norm f32 (F32 o) $0) /\ fval (@hue_norm f32 (F32 o) $0) = 0.
Proof.
  destruct (fz_val o 0) as [F0 V0]; [sm|]. destruct (hue_norm_up o $0 0 0 (near_fz o 0 ltac:(sm))) as [N V]; [rewrite V0; lra|lra|lra|].
  split; [apply N|]. rewrite V. exact V0.
Qed.

(** ** Greys have saturation 0 *)
Section Neutral.
Variables (h : heap f32) (p : nat) (c : color f32) (v : f32).
Hypothesis (Hp : at_addr h p c) (W : @wf_color f32 (F32 o) RGB_DEEP c) (Ec : comps c = [v; v; v]).
Let mx := @fmax f32 (F32 o) (@fmax f32 (F32 o) v v) v.
Let mn := @fmin f32 (F32 o) (@fmin f32 (F32 o) v v) v.
Lemma grey_chan : fin v /\ 0 <= fval v <= 1.
Proof. exact (proj1 (chan o c v v v W Ec)). Qed.
Lemma grey_mx : fin mx /\ fval mx = fval v.
Proof. destruct (chan_mx o c v v v W Ec) as [F V]. split; [exact F|]. unfold mx. rewrite V. unfold mx3, Rmax. repeat match goal with |- context [Rle_dec ?a ?b] => destruct (Rle_dec a b) end; lra. Qed.
Lemma grey_mn : fin mn /\ fval mn = fval v.
Proof. destruct (chan_mn o c v v v W Ec) as [F V]. split; [exact F|]. unfold mn. rewrite V. unfold mn3, Rmin. repeat match goal with |- context [Rle_dec ?a ?b] => destruct (Rle_dec a b) end; lra. Qed.
Lemma grey_eq : @feq f32 (F32 o) mx mn = true.
Proof. destruct grey_mx, grey_mn. apply eq_val; auto. congruence. Qed.
Lemma grey_neutral X (hue s x : f32) : hue = @hue_norm f32 (F32 o) $0 -> s = c1 $0 -> x = c1 mn ->
  neutral X c v (Color X X [hue; s; x] (m_alpha c) $1 $0 (rgb_space c)).
Proof.
  intros -> -> ->. destruct grey_mn as [Fn Vn]. destruct grey_chan as [_ B]. destruct (c01_val o mn Fn) as [Fc Vc]; [rewrite Vn; exact B|].
  split; [reflexivity|]. split; [eexists; split; [reflexivity|exact zero_hue]|]. split; [eexists; split; [reflexivity|exact zero_01]|].
  split; [eexists; split; [reflexivity|split; [exact Fc|rewrite <- Vn; exact Vc]]|]. split; reflexivity.
Qed.
Ltac grey_leaf nf := unfold with3; rewrite Ec; cbv zeta; fold mx mn; rewrite grey_eq; rewrite nf, (alpha_std c _ W eq_refl); reflexivity.
Lemma grey_hsv : yields (@to_hsv f32 (F32 o)) h p (neutral HSV c v).
Proof.
  eapply (yields_leaf (AF := F32 o) _ RGB_DEEP (@rgb_deep_to_hsv_f f32 (F32 o)) h p c); [disp|exact Hp|exact W| |apply (grey_neutral HSV _ _ _ eq_refl eq_refl eq_refl)].
  unfold rgb_deep_to_hsv_f. grey_leaf (hsv_nf (AL := F32Laws o)).
Qed.
Lemma grey_hsl : yields (@to_hsl f32 (F32 o)) h p (neutral HSL c v).
Proof.
  eapply (yields_leaf (AF := F32 o) _ RGB_DEEP (@rgb_deep_to_hsl_f f32 (F32 o)) h p c); [disp|exact Hp|exact W| |apply (grey_neutral HSL _ _ _ eq_refl eq_refl eq_refl)].
  unfold rgb_deep_to_hsl_f. grey_leaf (hsl_nf (AL := F32Laws o)).
Qed.
Lemma grey_hsi : yields (@to_hsi f32 (F32 o)) h p (neutral HSI c v).
Proof.
  eapply (yields_leaf (AF := F32 o) _ RGB_DEEP (@rgb_deep_to_hsi_f f32 (F32 o)) h p c); [disp|exact Hp|exact W| |apply (grey_neutral HSI _ _ _ eq_refl eq_refl eq_refl)].
  unfold rgb_deep_to_hsi_f. grey_leaf (hsi_nf (AL := F32Laws o)).
Qed.
Lemma grey_hcy : yields (@to_hcy f32 (F32 o)) h p (neutral HCY c v).
Proof.
  eapply (yields_leaf (AF := F32 o) _ RGB_DEEP (@rgb_deep_to_hcy_f f32 (F32 o)) h p c); [disp|exact Hp|exact W| |apply (grey_neutral HCY _ _ _ eq_refl eq_refl eq_refl)].
  unfold rgb_deep_to_hcy_f. grey_leaf (hcy_nf (AL := F32Laws o)).
Qed.
End Neutral.

(** ** Saturation 0 means grey, whatever the hue *)
Lemma grey_like_ok c v (x y z : f32) (keep : Prop) a : fin v -> 0 <= fval v <= 1 -> (keep -> a = m_alpha c) ->
  fin x /\ fval x = fval v -> fin y /\ fval y = fval v -> fin z /\ fval z = fval v ->
  grey_like c v keep (Color RGB_DEEP RGB_DEEP [c1 x; c1 y; c1 z] a $1 $0 (rgb_space c)).
Proof.
  intros Fv Bv Ha X Y Z. assert (K : forall w, fin w /\ fval w = fval v -> is_value (c1 w) (B2R v)).
  { intros w [Fw Vw]. destruct (c01_val o w Fw) as [F V]; [rewrite Vw; exact Bv|]. split; [exact F|]. change (fval (c1 w) = fval v). congruence. }
  split; [reflexivity|]. split; [|split; [exact Ha|reflexivity]].
  intros i Hi. destruct i as [|[|[|i]]]; [| | |lia]; eexists; (split; [reflexivity|]); apply K; assumption.
Qed.
Section Back.
Variables (h : heap f32) (p : nat) (c : color f32) (hue s v : f32).
Hypothesis (Hp : at_addr h p c) (Ec : comps c = [hue; s; v]) (S0 : B2R s = 0).
Lemma parts X : (X = HSV \/ X = HSL \/ X = HSI \/ X = HCY) -> @wf_color f32 (F32 o) X c -> fin hue /\ 0 <= fval hue <= 359 /\ fin s /\ fval s = 0 /\ fin v /\ 0 <= fval v <= 1.
Proof.
  intros HX W. pose proof (wf_range _ _ W) as H. rewrite Ec in H.
  pose proof (H 0%nat hue eq_refl) as H0. pose proof (H 1%nat s eq_refl) as H1. pose proof (H 2%nat v eq_refl) as H2.
  destruct HX as [->|[->|[->| ->]]]; cbn [comp_range fst snd] in *; apply within32 in H0, H1, H2; try sm; intuition auto.
Qed.
Lemma hsv_zero n : (n = 1 \/ n = 3 \/ n = 5)%Z -> fin hue -> 0 <= fval hue <= 359 -> fin s -> fin v -> 0 <= fval v <= 1 ->
  fin (@hsv_to_rgb_helper f32 (F32 o) hue s v $n) /\ fval (@hsv_to_rgb_helper f32 (F32 o) hue s v $n) = fval v.
Proof.
  intros Hn Fh Bh Fs Fv Bv. unfold hsv_to_rgb_helper.
  destruct (angle o hue (fval hue) 0 n 60 (near_self hue Fh) Bh Bh ltac:(lra) ltac:(lia) ltac:(lia)) as [T P].
  set (t := $n +. (hue /. $60)) in * . pose proof (near_range _ _ _ T) as RT.
  assert (BT : fval t < 12) by (assert (IZR n <= 5) by (apply IZR_le; lia); num).
  destruct (fmod_once o t 6 (proj1 T) ltac:(lia)) as [Fk Vk]; [lra|]. set (k := @ffmod f32 (F32 o) t $6) in * .
  assert (Bk : 0 <= fval k <= 6). { rewrite Vk. destruct (Rlt_le_dec (fval t) 6); [rewrite Rfmod_0 by lra|rewrite Rfmod_1 by lra]; lra. }
  assert (S4 : near ($4 -. k) (4 - fval k) 1).
  { eapply near_weaken; [apply (near_sub o $4 k 4 (fval k) 0 0 4)|]; [apply near_fz; sm|apply near_self, Fk|apply Rabs_le; lra|lra|num]. }
  assert (P1 : near (@fmax f32 (F32 o) (@fmin f32 (F32 o) k (@fmin f32 (F32 o) ($4 -. k) $1)) $0) (Rmax (Rmin (fval k) (Rmin (4 - fval k) 1)) 0) 1).
  { apply near_max; [apply near_min; [eapply near_weaken; [apply near_self, Fk|lra]|apply near_min; [exact S4|]]|];
      eapply near_weaken; try (apply near_fz; sm); lra. }
  cbv zeta. fold k. set (f := @fmax f32 (F32 o) _ _) in * . destruct P1 as [Ff _].
  destruct (mul_0 v s Fv Fs (or_intror S0)) as [F1 V1]. destruct (mul_0 (v *. s) f F1 Ff (or_introl V1)) as [F2 V2]. apply sub_0; assumption.
Qed.
Lemma hsl_zero n : (n = 0 \/ n = 4 \/ n = 8)%Z -> fin hue -> 0 <= fval hue <= 359 -> fin s -> fin v -> 0 <= fval v <= 1 ->
  fin (@hsl_to_rgb_helper f32 (F32 o) hue s v $n) /\ fval (@hsl_to_rgb_helper f32 (F32 o) hue s v $n) = fval v.
Proof.
  intros Hn Fh Bh Fs Fv Bv. unfold hsl_to_rgb_helper.
  destruct (angle o hue (fval hue) 0 n 30 (near_self hue Fh) Bh Bh ltac:(lra) ltac:(lia) ltac:(lia)) as [T P].
  set (t := $n +. (hue /. $30)) in * . pose proof (near_range _ _ _ T) as RT.
  assert (BT : fval t < 24) by (assert (IZR n <= 8) by (apply IZR_le; lia); num).
  destruct (fmod_once o t 12 (proj1 T) ltac:(lia)) as [Fk Vk]; [lra|]. set (k := @ffmod f32 (F32 o) t $12) in * .
  assert (Bk : 0 <= fval k <= 12). { rewrite Vk. destruct (Rlt_le_dec (fval t) 12); [rewrite Rfmod_0 by lra|rewrite Rfmod_1 by lra]; lra. }
  assert (S3 : near (k -. $3) (fval k - 3) 1).
  { eapply near_weaken; [apply (near_sub o k $3 (fval k) 3 0 0 9)|]; [apply near_self, Fk|apply near_fz; sm|apply Rabs_le; lra|lra|num]. }
  assert (S9 : near ($9 -. k) (9 - fval k) 1).
  { eapply near_weaken; [apply (near_sub o $9 k 9 (fval k) 0 0 9)|]; [apply near_fz; sm|apply near_self, Fk|apply Rabs_le; lra|lra|num]. }
  assert (P1 : near (@fmax f32 (F32 o) (@fmin f32 (F32 o) (k -. $3) (@fmin f32 (F32 o) ($9 -. k) $1)) $(-1)) (psi (fval k)) 1).
  { unfold psi. apply near_max; [apply near_min; [exact S3|apply near_min; [exact S9|]]|]; eapply near_weaken; try (apply near_fz; sm); lra. }
  assert (NL : near ($1 -. v) (1 - fval v) 1).
  { eapply near_weaken; [apply (near_sub o $1 v 1 (fval v) 0 0 1 (near_one o) (near_self v Fv))|]; [apply Rabs_le; lra|num|num]. }
  destruct (fmin32_fin v ($1 -. v) Fv (proj1 NL)) as [Fm _]. change (fin (@fmin f32 (F32 o) v ($1 -. v))) in Fm.
  cbv zeta. fold k. set (f := @fmax f32 (F32 o) _ _) in * . destruct P1 as [Ff _].
  destruct (mul_0 s (@fmin f32 (F32 o) v ($1 -. v)) Fs Fm (or_introl S0)) as [F1 V1].
  destruct (mul_0 (s *. @fmin f32 (F32 o) v ($1 -. v)) f F1 Ff (or_introl V1)) as [F2 V2]. apply sub_0; assumption.
Qed.
Lemma hsv_grey : @wf_color f32 (F32 o) HSV c -> yields (@to_rgb_deep f32 (F32 o)) h p (grey_like c v True).
Proof.
  intros W. destruct (parts HSV ltac:(auto) W) as [Fh [Bh [Fs [_ [Fv Bv]]]]].
  eapply (yields_leaf (AF := F32 o) _ HSV (@hsv_to_rgb_deep_f f32 (F32 o)) h p c); [disp|exact Hp|exact W| |].
  - unfold hsv_to_rgb_deep_f, with3. rewrite Ec, rgb_deepcolor_nf. reflexivity.
  - apply grey_like_ok; auto; try (apply hsv_zero; auto; lia). intros _. apply (alpha_std c _ W eq_refl).
Qed.
Lemma hsl_grey : @wf_color f32 (F32 o) HSL c -> yields (@to_rgb_deep f32 (F32 o)) h p (grey_like c v (B2R v <> 0)).
Proof.
  intros W. destruct (parts HSL ltac:(auto) W) as [Fh [Bh [Fs [_ [Fv Bv]]]]]. destruct (fz_val o 0) as [F0 V0]; [sm|].
  eapply (yields_leaf (AF := F32 o) _ HSL (@hsl_to_rgb_deep_f f32 (F32 o)) h p c
    (if @feq f32 (F32 o) v $0 then Color RGB_DEEP RGB_DEEP [c1 $0; c1 $0; c1 $0] $0 $1 $0 (rgb_space c)
     else Color RGB_DEEP RGB_DEEP [c1 (@hsl_to_rgb_helper f32 (F32 o) hue s v $0); c1 (@hsl_to_rgb_helper f32 (F32 o) hue s v $8); c1 (@hsl_to_rgb_helper f32 (F32 o) hue s v $4)] (@alpha f32 (F32 o) c) $1 $0 (rgb_space c))); [disp|exact Hp|exact W| |].
  - unfold hsl_to_rgb_deep_f, with3. rewrite Ec, rgb_deepcolor_nf, rgb_deepcolor1_nf. destruct (feq v $0); reflexivity.
  - destruct (Req_dec (fval v) 0) as [Z|N].
    + rewrite (eq_val o v $0) by (auto; congruence). apply grey_like_ok; auto; try (intros K; elim K; exact Z); split; auto; congruence.
    + rewrite (ne_val o v $0) by (auto; congruence). apply grey_like_ok; auto; try (apply hsl_zero; auto; lia). intros _. apply (alpha_std c _ W eq_refl).
Qed.
Lemma hsi_grey : @wf_color f32 (F32 o) HSI c -> yields (@to_rgb_deep f32 (F32 o)) h p (grey_like c v True).
Proof.
  intros W. destruct (parts HSI ltac:(auto) W) as [Fh [Bh [Fs [_ [Fv Bv]]]]]. destruct (fz_val o 0) as [F0 V0]; [sm|].
  eapply (yields_leaf (AF := F32 o) _ HSI (@hsi_to_rgb_deep_f f32 (F32 o)) h p c); [disp|exact Hp|exact W| |].
  - unfold hsi_to_rgb_deep_f, with3. rewrite Ec. rewrite (eq_val o s $0 Fs F0 (eq_trans S0 (eq_sym V0))). rewrite rgb_deepcolor1_nf. reflexivity.
  - apply grey_like_ok; auto. intros _. apply (alpha_std c _ W eq_refl).
Qed.
Lemma hcy_grey : @wf_color f32 (F32 o) HCY c -> yields (@to_rgb_deep f32 (F32 o)) h p (grey_like c v True).
Proof.
  intros W. destruct (parts HCY ltac:(auto) W) as [Fh [Bh [Fs [_ [Fv Bv]]]]].
  eapply (yields_leaf (AF := F32 o) _ HCY (@hcy_to_rgb_deep_f f32 (F32 o)) h p c); [disp|exact Hp|exact W| |].
  - unfold hcy_to_rgb_deep_f, with3. rewrite Ec. cbv zeta. rewrite rgb_deepcolor_nf. reflexivity.
  - assert (Nh : near hue (fval hue) (900 * u)) by (eapply near_weaken; [apply near_self, Fh|num]).
    destruct (hcy_y o hue (fval hue) Nh Bh) as [NY BY]. destruct (hcy_rgb o hue (fval hue) Nh Bh) as [N1 [N2 N3]].
    destruct (unit_bounds (fval hue / 60)) as [U1 [U2 U3]].
    assert (K : forall x X, near x X (345 / 10 * u) -> 0 <= X <= 1 -> forall Yf Y, near Yf Y (40 * u) -> 0 <= Y <= 1 ->
      fin ((x -. Yf) *. s +. v) /\ fval ((x -. Yf) *. s +. v) = fval v).
    { intros x X Nx BX Yf Y NYf BYf. destruct (near_sub o x Yf X Y (345 / 10 * u) (40 * u) 1 Nx NYf) as [F1 _]; [apply Rabs_le; lra|num|].
      destruct (mul_0 (x -. Yf) s F1 Fs (or_intror S0)) as [F2 V2]. apply add_0; assumption. }
    apply grey_like_ok; auto; try (eapply K; eauto; lra). intros _. apply (alpha_std c _ W eq_refl).
Qed.
End Back.

(** ** CMYK and grey *)
Section Ink.
Variables (h : heap f32) (p : nat) (c : color f32) (v : f32).
Hypothesis (Hp : at_addr h p c) (W : @wf_color f32 (F32 o) RGB_DEEP c) (Ec : comps c = [v; v; v]).
(** Three equal inks and three equal channels *)
Lemma grey_cmyk : via (@to_cmyk f32 (F32 o)) (@to_rgb_deep f32 (F32 o)) h p (fun m d => ty m = CMYK /\ ty d = RGB_DEEP /\
  (exists x k, comps m = [x; x; x; k] /\ (/ 16777216 <= B2R v -> is_value x 0)) /\
  (exists y, comps d = [y; y; y] /\ approx (B2R v) (/ 262144) y) /\ m_alpha d = m_alpha c /\ rgb_space d = rgb_space c).
Proof.
  destruct (grey_chan c v W Ec) as [Fv Bv]. destruct (grey_mx c v W Ec) as [Fx Vx].
  set (mx := @fmax f32 (F32 o) (@fmax f32 (F32 o) v v) v) in * . set (k := $1 -. mx). set (q := ($1 -. v -. k) /. ($1 -. k)).
  destruct (fz_val o 1) as [F1 V1]; [sm|].
  eapply (via_leaf (AF := F32 o) _ _ RGB_DEEP CMYK (@rgb_deep_to_cmyk_f f32 (F32 o)) (@cmyk_to_rgb_deep_f f32 (F32 o)) h p c
    (Color CMYK CMYK [c1 q; c1 q; c1 q; c1 k] (m_alpha c) $1 $0 (rgb_space c))
    (let y := c1 (($1 -. c1 q) *. ($1 -. c1 k)) in Color RGB_DEEP RGB_DEEP [y; y; y] (m_alpha c) $1 $0 (rgb_space c)));
    [disp|disp|exact Hp|exact W|apply rgb_deep_to_cmyk_ok| | |].
  - unfold rgb_deep_to_cmyk_f, with3. rewrite Ec. cbv zeta. fold mx k q. rewrite cmyk_nf, (alpha_std c _ W eq_refl). reflexivity.
  - unfold cmyk_to_rgb_deep_f, with4. cbn [comps]. rewrite rgb_deepcolor_nf. reflexivity.
  - split; [reflexivity|]. split; [reflexivity|]. split; [|split; [|split; reflexivity]].
    + exists (c1 q), (c1 k). split; [reflexivity|]. intros L. change (/ 16777216 <= fval v) in L.
      assert (K : fin k /\ fval k = rnd32 (1 - fval v)).
      { destruct (Bminus_ok $1 mx (-1) 1 F1 Fx) as [F V]; try sm; [rewrite V1, Vx; lra|]. split; [exact F|]. change (fval (Bminus mode_NE $1 mx) = rnd32 (1 - fval v)). rewrite V, V1, Vx. reflexivity. }
      destruct K as [Fk Vk].
      assert (X : fin ($1 -. v) /\ fval ($1 -. v) = rnd32 (1 - fval v)).
      { destruct (Bminus_ok $1 v (-1) 1 F1 Fv) as [F V]; try sm; [rewrite V1; lra|]. split; [exact F|]. change (fval (Bminus mode_NE $1 v) = rnd32 (1 - fval v)). rewrite V, V1. reflexivity. }
      destruct X as [F2 V2].
      assert (KB : 0 <= fval k <= 1 - / 16777216).
      { rewrite Vk. split; [apply rnd_pos0; lra|]. replace (1 - / 16777216) with (rnd32 (1 - / 16777216)); [apply rnd32_le; lra|].
        replace (1 - / 16777216) with (F2R (Float radix2 16777215 (-24))) by (unfold F2R; cbn; lra). apply round_generic; [apply valid_rnd_N|]. apply generic_format_FLT. exists (Float radix2 16777215 (-24)); [reflexivity|cbn; lia|cbn; lia]. }
      assert (N : fin ($1 -. v -. k) /\ fval ($1 -. v -. k) = 0).
      { destruct (Bminus_ok ($1 -. v) k (-1) 1 F2 Fk) as [F V]; try sm; [rewrite V2, Vk; lra|]. split; [exact F|]. change (fval (Bminus mode_NE ($1 -. v) k) = 0). rewrite V, V2, Vk. rewrite Rminus_diag_eq by reflexivity. apply rnd32_0. }
      destruct N as [F3 V3].
      assert (D : fin ($1 -. k) /\ 0 < fval ($1 -. k)).
      { destruct (Bminus_ok $1 k (-1) 1 F1 Fk) as [F V]; try sm; [rewrite V1; lra|]. split; [exact F|]. change (0 < fval (Bminus mode_NE $1 k)). rewrite V, V1.
        apply Rlt_le_trans with (/ 16777216); [lra|]. replace (/ 16777216) with (rnd32 (/ 16777216)); [apply rnd32_le; lra|].
        replace (/ 16777216) with (F2R (Float radix2 1 (-24))) by (unfold F2R; cbn; lra). apply round_generic; [apply valid_rnd_N|]. apply generic_format_FLT. exists (Float radix2 1 (-24)); [reflexivity|cbn; lia|cbn; lia]. }
      destruct D as [F4 V4].
      destruct (Bdiv_ok ($1 -. v -. k) ($1 -. k) (-1) 1 F3 F4) as [F5 V5]; try sm; [lra|rewrite V3; unfold Rdiv; rewrite Rmult_0_l; lra|].
      change (fin q) in F5. change (fval q = rnd32 (fval ($1 -. v -. k) / fval ($1 -. k))) in V5. rewrite V3 in V5. unfold Rdiv in V5. rewrite Rmult_0_l, rnd32_0 in V5.
      destruct (c01_val o q F5) as [F6 V6]; [rewrite V5; lra|]. split; [exact F6|]. change (fval (c1 q) = 0). rewrite V6. exact V5.
    + eexists. split; [reflexivity|]. pose proof (cmyk_chan o mx v Fx Fv ltac:(rewrite Vx; exact Bv) ltac:(rewrite Vx; lra)) as N.
      apply (near_weaken _ _ _ (/ 262144) N). num.
Qed.
End Ink.

(** ** Grey and RGB *)
Lemma via_impl (f g : ptr -> M f32 ptr) (h : heap f32) p (P Q : color f32 -> color f32 -> Prop) : via f g h p P -> (forall m d, P m d -> Q m d) -> via f g h p Q.
Proof. intros [p1 [p2 [m [d [h1 [h2 H]]]]]] I. exists p1, p2, m, d, h1, h2. intuition. Qed.
Lemma c255_val (x : f32) : fin x -> 0 <= fval x <= 255 -> @c255 f32 (F32 o) x = x.
Proof. intros F B. unfold c255. apply (clamp_id (AF := F32 o)); try sm. apply within32; try sm. auto. Qed.
Lemma third_byte (x y z : f32) k : (0 <= k <= 255)%Z -> is_value x (IZR k) -> is_value y (IZR k) -> is_value z (IZR k) ->
  is_value (@c255 f32 (F32 o) ((x +. y +. z) /. $3)) (IZR k).
Proof.
  intros Hk [Fx Vx] [Fy Vy] [Fz Vz]. change (fval x = IZR k) in Vx. change (fval y = IZR k) in Vy. change (fval z = IZR k) in Vz.
  assert (BK : 0 <= IZR k <= 255) by (split; apply IZR_le; lia).
  destruct (Bplus_ok x y 0 510 Fx Fy) as [F1 V1]; try sm; [lra|]. change (fin (x +. y)) in F1. change (fval (x +. y) = rnd32 (fval x + fval y)) in V1.
  rewrite Vx, Vy, <- plus_IZR, rnd32_int in V1 by (unfold small; lia).
  destruct (Bplus_ok (x +. y) z 0 765 F1 Fz) as [F2 V2]; try sm; [rewrite V1, plus_IZR; lra|]. change (fin (x +. y +. z)) in F2. change (fval (x +. y +. z) = rnd32 (fval (x +. y) + fval z)) in V2.
  rewrite V1, Vz, <- plus_IZR, rnd32_int in V2 by (unfold small; lia).
  destruct (fz_val o 3) as [F3 V3]; [sm|].
  assert (Q : fval (x +. y +. z) / fval $3 = IZR k) by (rewrite V2, V3, !plus_IZR; field).
  destruct (Bdiv_ok (x +. y +. z) $3 0 255 F2 F3) as [F4 V4]; try sm; [rewrite V3; lra|rewrite Q; exact BK|].
  change (fin ((x +. y +. z) /. $3)) in F4. change (fval ((x +. y +. z) /. $3) = rnd32 (fval (x +. y +. z) / fval $3)) in V4.
  rewrite Q, rnd32_int in V4 by (unfold small; lia). rewrite c255_val by (auto; rewrite V4; exact BK). split; assumption.
Qed.
Lemma grey_bytes (h : heap f32) p (c : color f32) k : at_addr h p c -> @wf_color f32 (F32 o) GREY_TRUE c -> (0 <= k <= 255)%Z -> comp_sat c 0 (fun x => is_value x (IZR k)) ->
  via (@to_rgb_true f32 (F32 o)) (@to_grey_true f32 (F32 o)) h p (fun m d => ty m = RGB_TRUE /\ ty d = GREY_TRUE /\
    (forall i, (i < 3)%nat -> comp_sat m i (fun x => is_value x (IZR k))) /\ comp_sat d 0 (fun x => is_value x (IZR k)) /\ rgb_space d = rgb_space c).
Proof.
  intros Hp W Hk [x [Hx Ix]]. assert (Ec : comps c = [x]). { pose proof (wf_len _ _ W) as L. destruct (comps c) as [|y [|]]; try discriminate L. cbn in Hx. congruence. }
  assert (BK : 0 <= IZR k <= 255) by (split; apply IZR_le; lia). assert (K : @c255 f32 (F32 o) x = x) by (apply c255_val; [apply Ix|change (0 <= B2R x <= 255); rewrite (proj2 Ix); exact BK]).
  eapply (via_leaf (AF := F32 o) _ _ GREY_TRUE RGB_TRUE (@grey_true_to_rgb_true_f f32 (F32 o)) (@rgb_true_to_grey_true_f f32 (F32 o)) h p c); [disp|disp|exact Hp|exact W|apply grey_true_to_rgb_true_ok| | |].
  - unfold grey_true_to_rgb_true_f, with1. rewrite Ec. unfold rgb_truecolor1. rewrite rgb_truecolor_nf. reflexivity.
  - unfold rgb_true_to_grey_true_f, with3. cbn [comps]. rewrite grey_truecolor_nf. reflexivity.
  - rewrite !K. split; [reflexivity|]. split; [reflexivity|]. split; [|split; [|reflexivity]].
    + intros i Hi. destruct i as [|[|[|i]]]; [| | |lia]; exists x; (split; [reflexivity|exact Ix]).
    + eexists. split; [reflexivity|]. apply third_byte; assumption.
Qed.
Lemma bytes_grey (h : heap f32) p (c : color f32) k : at_addr h p c -> @wf_color f32 (F32 o) RGB_TRUE c -> (0 <= k <= 255)%Z -> (forall i, (i < 3)%nat -> comp_sat c i (fun x => is_value x (IZR k))) ->
  via (@to_grey_true f32 (F32 o)) (@to_rgb_true f32 (F32 o)) h p (fun m d => ty m = GREY_TRUE /\ ty d = RGB_TRUE /\
    comp_sat m 0 (fun x => is_value x (IZR k)) /\ (forall i, (i < 3)%nat -> comp_sat d i (fun x => is_value x (IZR k))) /\ rgb_space d = rgb_space c).
Proof.
  intros Hp W Hk H. destruct (H 0%nat ltac:(lia)) as [x [Hx Ix]]. destruct (H 1%nat ltac:(lia)) as [y [Hy Iy]]. destruct (H 2%nat ltac:(lia)) as [z [Hz Iz]].
  assert (Ec : comps c = [x; y; z]). { pose proof (wf_len _ _ W) as L. destruct (comps c) as [|x' [|y' [|z' [|]]]]; try discriminate L. cbn in Hx, Hy, Hz. congruence. }
  assert (BK : 0 <= IZR k <= 255) by (split; apply IZR_le; lia). pose proof (third_byte x y z k Hk Ix Iy Iz) as T. set (w := @c255 f32 (F32 o) ((x +. y +. z) /. $3)) in * .
  assert (K : @c255 f32 (F32 o) w = w) by (apply c255_val; [apply T|change (0 <= B2R w <= 255); rewrite (proj2 T); exact BK]).
  eapply (via_leaf (AF := F32 o) _ _ RGB_TRUE GREY_TRUE (@rgb_true_to_grey_true_f f32 (F32 o)) (@grey_true_to_rgb_true_f f32 (F32 o)) h p c); [disp|disp|exact Hp|exact W|apply rgb_true_to_grey_true_ok| | |].
  - unfold rgb_true_to_grey_true_f, with3. rewrite Ec, grey_truecolor_nf. fold w. reflexivity.
  - unfold grey_true_to_rgb_true_f, with1. cbn [comps]. unfold rgb_truecolor1. rewrite rgb_truecolor_nf. rewrite !K. reflexivity.
  - split; [reflexivity|]. split; [reflexivity|]. split; [exists w; split; [reflexivity|exact T]|]. split; [|reflexivity].
    intros i Hi. destruct i as [|[|[|i]]]; [| | |lia]; exists w; (split; [reflexivity|exact T]).
Qed.
Lemma deep_grey_run (h : heap f32) p (c : color f32) v : at_addr h p c -> @wf_color f32 (F32 o) GREY_DEEP c -> comps c = [v] -> unit32 v ->
  via (@to_rgb_deep f32 (F32 o)) (@to_grey_deep f32 (F32 o)) h p (fun m d => grey_like c v True m /\ ty d = GREY_DEEP /\ comps d = [c1 ((v +. v +. v) /. $3)] /\ m_alpha d = m_alpha c /\ rgb_space d = rgb_space c).
Proof.
  intros Hp W Ec U. pose proof (c01_id o v U) as K.
  eapply (via_leaf (AF := F32 o) _ _ GREY_DEEP RGB_DEEP (@grey_deep_to_rgb_deep_f f32 (F32 o)) (@rgb_deep_to_grey_deep_f f32 (F32 o)) h p c); [disp|disp|exact Hp|exact W|apply grey_deep_to_rgb_deep_ok| | |].
  - unfold grey_deep_to_rgb_deep_f, with1. rewrite Ec, rgb_deepcolor1_nf, (alpha_std c _ W eq_refl). reflexivity.
  - unfold rgb_deep_to_grey_deep_f, with3. cbn [comps]. rewrite grey_deepcolor_nf. reflexivity.
  - rewrite !K. split; [|split; [reflexivity|split; [reflexivity|split; reflexivity]]].
    split; [reflexivity|]. split; [|split; [reflexivity|reflexivity]]. intros i Hi. destruct i as [|[|[|i]]]; [| | |lia]; exists v; (split; [reflexivity|split; [apply U|reflexivity]]).
Qed.
Lemma deep_grey_close (h : heap f32) p (c : color f32) v : at_addr h p c -> @wf_color f32 (F32 o) GREY_DEEP c -> comps c = [v] ->
  via (@to_rgb_deep f32 (F32 o)) (@to_grey_deep f32 (F32 o)) h p (fun m d => grey_like c v True m /\ ty d = GREY_DEEP /\ comp_sat d 0 (approx (B2R v) (/ 4194304)) /\ m_alpha d = m_alpha c /\ rgb_space d = rgb_space c).
Proof.
  intros Hp W Ec. assert (U : unit32 v). { assert (H : @within f32 (F32 o) 0 1 v) by (apply (wf_range _ _ W 0%nat); rewrite Ec; reflexivity). apply within32 in H; [exact H|sm|sm]. }
  eapply via_impl; [apply (deep_grey_run h p c v Hp W Ec U)|]. intros m d [G [T [E [A S]]]]. split; [exact G|]. split; [exact T|]. split; [|split; assumption].
  unfold comp_sat. rewrite E. eexists. split; [reflexivity|]. destruct U as [Fv Bv]. pose proof (near_self v Fv) as N.
  assert (N2 : near (v +. v) (fval v + fval v) (21 / 10 * u)). { eapply near_weaken; [apply (near_add o v v _ _ 0 0 2 N N)|]; [apply Rabs_le; lra|num|num]. }
  assert (N3 : near (v +. v +. v) (fval v + fval v + fval v) (52 / 10 * u)). { eapply near_weaken; [apply (near_add o _ v _ _ (21 / 10 * u) 0 3 N2 N)|]; [apply Rabs_le; lra|num|num]. }
  apply (near_weaken _ _ (4 * u)); [|num]. apply near_01; [|num|exact Bv].
  replace (fval v) with ((fval v + fval v + fval v) / IZR 3) at 1 by (field).
  eapply near_weaken; [apply (near_quot o _ _ _ 3 1 N3)|]; [lia|apply Rabs_le; lra|num|num].
Qed.
Definition drifting : f32 := lit32 (12582914 # 16777216).
Lemma deep_grey_drifts : exists (h : heap f32) c, at_addr h 0%nat c /\ @wf_color f32 (F32 o) GREY_DEEP c /\ comp_sat c 0 (fun x => is_value x (12582914 / 16777216)) /\
  via (@to_rgb_deep f32 (F32 o)) (@to_grey_deep f32 (F32 o)) h 0%nat (fun m d => comp_sat d 0 (fun x => is_value x (12582915 / 16777216))).
Proof.
  assert (U : unit32 drifting) by (apply (unit_by o); split; vm_compute; reflexivity).
  destruct (grey_deepcolor_made (AF := F32 o) (AL := F32Laws o) drifting $1 None) as [c [E [W [A S]]]].
  rewrite grey_deepcolor_nf in E. apply Ok_inj in E. rewrite (c01_id o drifting U) in E.
  assert (Ec : comps c = [drifting]) by (rewrite <- E; reflexivity). clear E A S.
  exists (Heap [c] []), c. assert (H0 : at_addr (Heap [c] []) 0%nat c) by reflexivity. split; [exact H0|]. split; [exact W|]. split.
  - exists drifting. split; [rewrite Ec; reflexivity|]. destruct (fval_SF drifting false 12582914 (-24)) as [F V]; [vm_compute; reflexivity|]. split; [exact F|]. change (fval drifting = 12582914 / 16777216). rewrite V. unfold F2R. cbn. lra.
  - eapply via_impl; [apply (deep_grey_run _ _ c drifting H0 W Ec U)|]. intros m d [_ [_ [D _]]]. unfold comp_sat. rewrite D. eexists. split; [reflexivity|].
    destruct (fval_SF (c1 ((drifting +. drifting +. drifting) /. $3)) false 12582915 (-24)) as [F V]; [vm_compute; reflexivity|]. split; [exact F|].
    change (fval (c1 ((drifting +. drifting +. drifting) /. $3)) = 12582915 / 16777216). rewrite V. unfold F2R. cbn. lra.
Qed.
End E.
