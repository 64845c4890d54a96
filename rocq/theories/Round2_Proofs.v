(** * Round trips between RGB, its 8-bit version, grey and CMYK (C36, C37, C49) *)
From Coq Require Import ZArith QArith Qreals Reals Lra Lia List Bool.
From Flocq Require Import Core IEEE754.BinarySingleNaN.
From Verif Require Import Arith Outcome ColorModel GammaModel MatrixModel SpaceModel Heap Converter F32 F32Facts RArith
  Spec Spec32 Laws NormalForms Alpha8 Core_Proofs Core2_Proofs Core3_Proofs Core4_Proofs Spec_Matrix Spec_Conv Spec_Round
  Conv_Proofs Conv2_Proofs Run_Proofs HueR_Proofs Round_Proofs.
Import ListNotations.
Local Open Scope R_scope.

(** ** Binary32 *)
Section B.
Context (o : oracle).
Local Notation "$ n" := (fz (H := F32 o) n) (at level 2).

Lemma byte_scaled (a : f32) n : (0 <= n <= 255)%Z -> is_value a (IZR n) ->
  is_value (@fmul f32 (F32 o) (@c01 f32 (F32 o) (@fdiv f32 (F32 o) a $255)) $255) (IZR n).
Proof.
  intros Hn Va.
  destruct (ctor_stores o RGB_TRUE [a; a; a] a None) as [c [E [_ [_ [_ [_ [_ [_ A]]]]]]]]; [simpl; auto|reflexivity|].
  cbn [ctor_of] in E. rewrite rgb_truecolor_nf in E. injection E as E.
  specialize (A eq_refl n Hn Va). rewrite <- E in A. exact A.
Qed.

Lemma fround_int (x : f32) n : is_value x (IZR n) -> is_value (@fround f32 (F32 o) x) (IZR n).
Proof.
  intros [Fx Vx]. cbn [fround F32]. destruct (Bnearbyint_correct 24 128 prec_lt_emax_32 mode_NA x) as [V [Fi _]].
  split; [rewrite Fi; exact Fx|].
  change (fval (Bnearbyint mode_NA x) = IZR n). rewrite V. rewrite Vx.
  unfold round, F2R, scaled_mantissa, cexp, FIX_exp. simpl. rewrite !Rmult_1_r. f_equal.
  exact (@Zrnd_IZR _ (@valid_rnd_NA) n).
Qed.

(** A byte divided by 255, stored in a deep colour, multiplied by 255 and rounded. *)
Lemma byte_deep_true (a : f32) n : (0 <= n <= 255)%Z -> is_value a (IZR n) ->
  is_value (@c255 f32 (F32 o) (@fround f32 (F32 o) (@fmul f32 (F32 o) (@c01 f32 (F32 o) (@fdiv f32 (F32 o) a $255)) $255))) (IZR n).
Proof.
  intros Hn Va. pose proof (fround_int _ n (byte_scaled a n Hn Va)) as [Fx Vx].
  set (x := @fround f32 (F32 o) _) in *. 
  destruct (clamp_val o x 0 255) as [Fc Vc]; try sm; auto; try lia.
  split; [exact Fc|]. unfold c255. rewrite Vc. change (fval x) with (B2R x). rewrite Vx.
  assert (B : 0 <= IZR n <= 255) by (split; [apply (IZR_le 0)|apply (IZR_le n 255)]; lia).
  rewrite Rmin_left, Rmax_left; lra.
Qed.

(** The alpha, which a deep colour does not clamp. *)
Lemma byte_quot (a : f32) n : (0 <= n <= 255)%Z -> is_value a (IZR n) ->
  @c01 f32 (F32 o) (@fdiv f32 (F32 o) a $255) = @fdiv f32 (F32 o) a $255.
Proof.
  intros Hn [Fa Va]. destruct (fz_val o 0) as [F0 V0]; [sm|]. destruct (fz_val o 1) as [F1 V1]; [sm|]. destruct (fz_val o 255) as [F2 V2]; [sm|].
  assert (B : 0 <= IZR n <= 255) by (split; [apply (IZR_le 0)|apply (IZR_le n 255)]; lia).
  unfold c01. rewrite clamp_F32. change (@fdiv f32 (F32 o) a $255) with (Bdiv mode_NE a $255).
  change (B2R a) with (fval a) in Va.
  destruct (Bdiv_ok a $255 0 1 Fa F2) as [D1 D2]; try sm; [rewrite V2; lra|rewrite Va, V2; lra|].
  apply clamp32_id; auto. rewrite V0, V1, D2. apply rnd32_bounds; try sm. rewrite Va, V2. lra.
Qed.

Lemma byte_alpha (a : f32) n : (0 <= n <= 255)%Z -> is_value a (IZR n) ->
  is_value (@fmul f32 (F32 o) (@c01 f32 (F32 o) (@fdiv f32 (F32 o) (@fround f32 (F32 o) (@fmul f32 (F32 o) (@fdiv f32 (F32 o) a $255) $255)) $255)) $255) (IZR n).
Proof.
  intros Hn Va. apply byte_scaled; auto. apply fround_int. rewrite <- (byte_quot a n Hn Va). apply byte_scaled; auto.
Qed.

Lemma comps3 (c : color f32) : length (comps c) = 3%nat -> exists x y z, comps c = [x; y; z].
Proof. destruct (comps c) as [|x [|y [|z [|? ?]]]]; try discriminate. eauto. Qed.

(** C36 *)
Lemma true_deep_true (h : heap f32) p c r g b a : at_addr h p c -> @wf_color f32 (F32 o) RGB_TRUE c ->
  (0 <= r <= 255)%Z -> (0 <= g <= 255)%Z -> (0 <= b <= 255)%Z -> (0 <= a <= 255)%Z ->
  comp_sat c 0 (fun x => is_value x (IZR r)) -> comp_sat c 1 (fun x => is_value x (IZR g)) ->
  comp_sat c 2 (fun x => is_value x (IZR b)) -> is_value (@alpha f32 (F32 o) c) (IZR a) ->
  via (@to_rgb_deep f32 (F32 o)) (@to_rgb_true f32 (F32 o)) h p (fun m d => ty m = RGB_DEEP /\ ty d = RGB_TRUE /\
    comp_sat d 0 (fun x => is_value x (IZR r)) /\ comp_sat d 1 (fun x => is_value x (IZR g)) /\
    comp_sat d 2 (fun x => is_value x (IZR b)) /\ is_value (@alpha f32 (F32 o) d) (IZR a) /\ rgb_space d = rgb_space c).
Proof.
  intros Hp W Hr Hg Hb Ha Cr Cg Cb Ca.
  destruct (comps3 c (wf_len _ _ W)) as [x [y [z Ec]]].
  destruct Cr as [x' [Ex Vx]]. destruct Cg as [y' [Ey Vy]]. destruct Cb as [z' [Ez Vz]].
  rewrite Ec in Ex, Ey, Ez. cbn [nth_error] in Ex, Ey, Ez. injection Ex as <-. injection Ey as <-. injection Ez as <-.
  eapply (via_leaf (AF := F32 o) _ _ RGB_TRUE RGB_DEEP rgb_true_to_rgb_deep_f rgb_deep_to_rgb_true_f h p c);
    [disp|disp|exact Hp|exact W|apply rgb_true_to_rgb_deep_ok| | |].
  - unfold rgb_true_to_rgb_deep_f, with3. rewrite Ec. rewrite rgb_deepcolor_nf. reflexivity.
  - unfold rgb_deep_to_rgb_true_f, with3. cbn [comps]. rewrite rgb_truecolor_nf. reflexivity.
  - split; [reflexivity|]. split; [reflexivity|].
    split; [eexists; split; [reflexivity|apply byte_deep_true; auto]|].
    split; [eexists; split; [reflexivity|apply byte_deep_true; auto]|].
    split; [eexists; split; [reflexivity|apply byte_deep_true; auto]|].
    split; [|reflexivity]. exact (byte_alpha _ a Ha Ca).
Qed.

Lemma grey_true_deep_true (h : heap f32) p c g a : at_addr h p c -> @wf_color f32 (F32 o) GREY_TRUE c ->
  (0 <= g <= 255)%Z -> (0 <= a <= 255)%Z ->
  comp_sat c 0 (fun x => is_value x (IZR g)) -> is_value (@alpha f32 (F32 o) c) (IZR a) ->
  via (@to_grey_deep f32 (F32 o)) (@to_grey_true f32 (F32 o)) h p (fun m d => ty m = GREY_DEEP /\ ty d = GREY_TRUE /\
    comp_sat d 0 (fun x => is_value x (IZR g)) /\ is_value (@alpha f32 (F32 o) d) (IZR a) /\ rgb_space d = rgb_space c).
Proof.
  intros Hp W Hg Ha Cg Ca.
  destruct Cg as [x [Ex Vx]].
  assert (Ec : comps c = [x]).
  { pose proof (wf_len _ _ W) as L. destruct (comps c) as [|x' [|? ?]]; try discriminate L. cbn in Ex. congruence. }
  eapply (via_leaf (AF := F32 o) _ _ GREY_TRUE GREY_DEEP grey_true_to_grey_deep_f grey_deep_to_grey_true_f h p c);
    [disp|disp|exact Hp|exact W|apply grey_true_to_grey_deep_ok| | |].
  - unfold grey_true_to_grey_deep_f, with1. rewrite Ec. rewrite grey_deepcolor_nf. reflexivity.
  - unfold grey_deep_to_grey_true_f, with1. cbn [comps]. rewrite grey_truecolor_nf. reflexivity.
  - split; [reflexivity|]. split; [reflexivity|].
    split; [eexists; split; [reflexivity|apply byte_deep_true; auto]|].
    split; [|reflexivity]. exact (byte_alpha _ a Ha Ca).
Qed.

Lemma true_example : exists (h : heap f32) c, at_addr h 0%nat c /\ @wf_color f32 (F32 o) RGB_TRUE c /\
  comp_sat c 0 (fun x => is_value x 17) /\ comp_sat c 1 (fun x => is_value x 254) /\ comp_sat c 2 (fun x => is_value x 3) /\
  is_value (@alpha f32 (F32 o) c) 77.
Proof.
  destruct (fz_val o 17) as [A1 A2]; [sm|]. destruct (fz_val o 254) as [B1 B2]; [sm|].
  destruct (fz_val o 3) as [C1 C2]; [sm|]. destruct (fz_val o 77) as [D1 D2]; [sm|].
  destruct (ctor_stores o RGB_TRUE [$17; $254; $3] $77 None) as [c [E [K1 [K2 [K3 [K4 [K5 [_ A]]]]]]]]; [simpl; auto|reflexivity|].
  assert (W : @wf_color f32 (F32 o) RGB_TRUE c).
  { destruct (rgb_truecolor_made (AF := F32 o) $17 $254 $3 $77 None) as [c' [E' [W _]]]. cbn [ctor_of] in E. rewrite E in E'. injection E' as <-. exact W. }
  exists (Heap [c] []), c. split; [reflexivity|]. split; [exact W|].
  assert (V : forall i x n, nth_error [$17; $254; $3] i = Some x -> is_finite x = true -> fval x = IZR n -> (0 <= n <= 255)%Z ->
     comp_sat c i (fun x => is_value x (IZR n))).
  { intros i x n Hx Fx Vx Hn. destruct (K5 i x Hx) as [y [Ey [Sy _]]]. exists y. split; [exact Ey|].
    change (B2R x) with (fval x) in Sy. rewrite Vx in Sy. apply Sy. split; [exact Fx|].
    change (IZR 0 <= fval x <= IZR 255). rewrite Vx. split; apply IZR_le; lia. }
  split; [apply (V 0%nat _ 17%Z eq_refl); auto; lia|].
  split; [apply (V 1%nat _ 254%Z eq_refl); auto; lia|].
  split; [apply (V 2%nat _ 3%Z eq_refl); auto; lia|].
  apply (A eq_refl 77%Z); [lia|]. split; auto.
Qed.

(** C37, black *)
Lemma cmyk_black (h : heap f32) p c : at_addr h p c -> @wf_color f32 (F32 o) RGB_DEEP c ->
  comp_sat c 0 (fun x => is_value x 0) -> comp_sat c 1 (fun x => is_value x 0) -> comp_sat c 2 (fun x => is_value x 0) ->
  via (@to_cmyk f32 (F32 o)) (@to_rgb_deep f32 (F32 o)) h p (fun m d => ty m = CMYK /\ comp_sat m 3 (fun x => is_value x 1) /\
    ty d = RGB_DEEP /\ comp_sat d 0 (fun x => is_value x 0) /\ comp_sat d 1 (fun x => is_value x 0) /\
    comp_sat d 2 (fun x => is_value x 0) /\ m_alpha d = m_alpha c /\ rgb_space d = rgb_space c).
Proof.
  intros Hp W Cr Cg Cb.
  destruct (comps3 c (wf_len _ _ W)) as [x [y [z Ec]]].
  destruct Cr as [x' [Ex Vx]]. destruct Cg as [y' [Ey Vy]]. destruct Cb as [z' [Ez Vz]].
  rewrite Ec in Ex, Ey, Ez. cbn [nth_error] in Ex, Ey, Ez. injection Ex as <-. injection Ey as <-. injection Ez as <-.
  destruct (fz_val o 0) as [F0 V0]; [sm|]. destruct (fz_val o 1) as [F1 V1]; [sm|].
  pose (k := @fsub f32 (F32 o) $1 (@fmax f32 (F32 o) (@fmax f32 (F32 o) x y) z)).
  destruct Vx as [Fx Vx], Vy as [Fy Vy], Vz as [Fz Vz].
  change (B2R x) with (fval x) in Vx. change (B2R y) with (fval y) in Vy. change (B2R z) with (fval z) in Vz.
  assert (Vk : is_finite k = true /\ fval k = 1).
  { unfold k. cbn [fsub fmax F32]. destruct (fmax32_fin x y Fx Fy) as [M1 M2]. destruct (fmax32_fin _ z M1 Fz) as [N1 N2].
    rewrite M2, Vx, Vy, Vz in N2. rewrite !(Rmax_left 0 0) in N2 by lra.
    destruct (Bminus_ok $1 (fmax32 (fmax32 x y) z) 0 1 F1 N1) as [S1 S2]; try sm; [rewrite V1, N2; lra|].
    split; [exact S1|]. rewrite S2, V1, N2. replace (1 - 0) with (IZR 1) by lra. apply rnd32_int. sm. }
  destruct Vk as [Fk Vk].
  set (d1 := @fsub f32 (F32 o) $1 k).
  assert (Vd : is_finite d1 = true /\ fval d1 = 0).
  { unfold d1. cbn [fsub F32]. destruct (Bminus_ok $1 k 0 1 F1 Fk) as [S1 S2]; try sm; [rewrite V1, Vk; lra|].
    split; [exact S1|]. rewrite S2, V1, Vk. replace (1 - 1) with 0 by lra. apply rnd32_0. }
  destruct Vd as [Fd Vd].
  (* each ink is 0/0, hence clamped to 1 *)
  assert (Ink : forall v : f32, is_finite v = true -> fval v = 0 ->
    is_value (@c01 f32 (F32 o) (@fdiv f32 (F32 o) (@fsub f32 (F32 o) (@fsub f32 (F32 o) $1 v) k) d1)) 1).
  { intros v Fv Vv.
    assert (N : is_nan (@fdiv f32 (F32 o) (@fsub f32 (F32 o) (@fsub f32 (F32 o) $1 v) k) d1) = true).
    { cbn [fsub fdiv F32]. destruct (Bminus_ok $1 v 0 1 F1 Fv) as [S1 S2]; try sm; [rewrite V1, Vv; lra|].
      set (q := Bminus mode_NE $1 v) in *. 
      assert (Vq : fval q = 1) by (rewrite S2, V1, Vv; replace (1 - 0) with (IZR 1) by lra; apply rnd32_int; sm).
      destruct (Bminus_ok q k 0 1 S1 Fk) as [T1 T2]; try sm; [rewrite Vq, Vk; lra|].
      set (t := Bminus mode_NE q k) in *.
      assert (Vt : fval t = 0) by (rewrite T2, Vq, Vk; replace (1 - 1) with 0 by lra; apply rnd32_0).
      clear - Fd Vd T1 Vt. clearbody d1 t.
      assert (Z : forall u : f32, is_finite u = true -> fval u = 0 -> exists s, u = B754_zero s).
      { intros u Fu Vu. destruct u as [s|s| |s m e H]; try discriminate Fu; [eauto|].
        exfalso. unfold fval, B2R in Vu. apply eq_0_F2R in Vu. destruct s; discriminate Vu. }
      destruct (Z d1 Fd Vd) as [s1 ->]. destruct (Z t T1 Vt) as [s2 ->]. reflexivity. }
    destruct (clamp_nan o _ 0 1 ltac:(sm) ltac:(sm) ltac:(lia) N) as [C1 C2]. split; [exact C1|exact C2]. }
  assert (K1 : is_value (@c01 f32 (F32 o) k) 1).
  { destruct (clamp_val o k 0 1) as [C1 C2]; try sm; auto; try lia. split; [exact C1|]. unfold c01. rewrite C2, Vk.
    rewrite Rmin_left, Rmax_left; lra. }
  (* and the way back *)
  assert (Back : forall u v : f32, is_value u 1 -> is_value v 1 ->
     is_value (@c01 f32 (F32 o) (@fmul f32 (F32 o) (@fsub f32 (F32 o) $1 u) (@fsub f32 (F32 o) $1 v))) 0).
  { intros u v [Fu Vu] [Fv Vv]. change (B2R u) with (fval u) in Vu. change (B2R v) with (fval v) in Vv. cbn [fsub fmul F32].
    destruct (Bminus_ok $1 u 0 1 F1 Fu) as [S1 S2]; try sm; [rewrite V1, Vu; lra|].
    destruct (Bminus_ok $1 v 0 1 F1 Fv) as [T1 T2]; try sm; [rewrite V1, Vv; lra|].
    rewrite V1, Vu in S2. rewrite V1, Vv in T2. replace (1 - 1) with 0 in S2, T2 by lra. rewrite rnd32_0 in S2, T2.
    set (p1 := Bminus mode_NE $1 u) in *. set (p2 := Bminus mode_NE $1 v) in *.
    destruct (Bmult_ok p1 p2 0 1 S1 T1) as [M1 M2]; try sm; [rewrite S2, T2; lra|].
    rewrite S2, T2, Rmult_0_l, rnd32_0 in M2.
    destruct (clamp_val o (Bmult mode_NE p1 p2) 0 1) as [C1 C2]; try sm; auto; try lia.
    split; [exact C1|]. unfold c01. rewrite C2, M2. rewrite Rmin_left, Rmax_left; lra. }
  eapply (via_leaf (AF := F32 o) _ _ RGB_DEEP CMYK rgb_deep_to_cmyk_f cmyk_to_rgb_deep_f h p c);
    [disp|disp|exact Hp|exact W|apply rgb_deep_to_cmyk_ok| | |].
  - unfold rgb_deep_to_cmyk_f, with3. rewrite Ec. fold k. fold d1. rewrite cmyk_nf. reflexivity.
  - unfold cmyk_to_rgb_deep_f, with4. cbn [comps]. rewrite rgb_deepcolor_nf. reflexivity.
  - split; [reflexivity|]. split; [eexists; split; [reflexivity|exact K1]|]. split; [reflexivity|].
    split; [eexists; split; [reflexivity|apply Back; auto]|].
    split; [eexists; split; [reflexivity|apply Back; auto]|].
    split; [eexists; split; [reflexivity|apply Back; auto]|].
    split; [|reflexivity]. exact (alpha_std (AF := F32 o) c _ W eq_refl).
Qed.
End B.

(** ** Exact arithmetic *)

(** C37 *)
Lemma cmyk_round (h : heap R) p c r g b : at_addr h p c -> wf_color RGB_DEEP c -> comps c = [r; g; b] ->
  (r <> 0 \/ g <> 0 \/ b <> 0) -> via to_cmyk to_rgb_deep h p (fun m d => ty m = CMYK /\ same_colour c d).
Proof.
  intros Hp W Ec NZ. destruct (deep_range c r g b W Ec) as [Br [Bg Bb]].
  pose proof (mx3_ge r g b) as XG. pose proof (mx3_in r g b) as XI. set (mx := mx3 r g b) in *.
  assert (Bm : 0 < mx <= 1) by lra.
  eapply (via_leaf to_cmyk to_rgb_deep RGB_DEEP CMYK rgb_deep_to_cmyk_f cmyk_to_rgb_deep_f h p c);
    [disp|disp|exact Hp|exact W|apply rgb_deep_to_cmyk_ok| | |].
  - unfold rgb_deep_to_cmyk_f, with3. rewrite Ec. rn. fold (mx3 r g b). fold mx. rewrite cmyk_nf.
    rewrite (alpha_std c _ W eq_refl). reflexivity.
  - instantiate (1 := Color RGB_DEEP RGB_DEEP [r; g; b] (m_alpha c) 1 0 (rgb_space c)).
    unfold cmyk_to_rgb_deep_f, with4. cbn [comps]. rn.
    assert (I : forall v, 0 <= v <= mx -> c01 ((1 - v - (1 - mx)) / (1 - (1 - mx))) = 1 - v / mx).
    { intros v Hv. replace ((1 - v - (1 - mx)) / (1 - (1 - mx))) with (1 - v / mx) by (field; lra).
      apply c01R. assert (0 <= v / mx <= 1) by (apply div_bounds; lra). lra. }
    rewrite !I by lra. rewrite (c01R (1 - mx)) by lra. apply deep_eq; try assumption; field; lra.
  - split; [reflexivity|]. apply same_deep; auto.
Qed.

(** C49 *)
Lemma range1 (c : color R) X x : wf_color X c -> comps c = [x] -> IZR (fst (comp_range X 0)) <= x <= IZR (snd (comp_range X 0)).
Proof. intros W E. pose proof (wf_range _ _ W) as H. rewrite E in H. specialize (H 0%nat x eq_refl). rewrite withinR in H. exact H. Qed.

Lemma comps1 (c : color R) X : wf_color X c -> arity X = 1%nat -> exists x, comps c = [x].
Proof. intros W A. pose proof (wf_len _ _ W) as L. rewrite A in L. destruct (comps c) as [|x [|? ?]]; try discriminate L. eauto. Qed.

Lemma grey_rgb_deep (h : heap R) p c : at_addr h p c -> wf_color GREY_DEEP c ->
  via to_rgb_deep to_grey_deep h p (fun m d => ty m = RGB_DEEP /\ same_colour c d).
Proof.
  intros Hp W. destruct (comps1 c _ W eq_refl) as [x Ec]. pose proof (range1 c _ x W Ec) as B. cbn [comp_range fst snd] in B.
  eapply (via_leaf to_rgb_deep to_grey_deep GREY_DEEP RGB_DEEP grey_deep_to_rgb_deep_f rgb_deep_to_grey_deep_f h p c);
    [disp|disp|exact Hp|exact W|apply grey_deep_to_rgb_deep_ok| | |].
  - unfold grey_deep_to_rgb_deep_f, with1. rewrite Ec. rewrite rgb_deepcolor1_nf. rewrite (alpha_std c _ W eq_refl). reflexivity.
  - unfold rgb_deep_to_grey_deep_f, with3. cbn [comps]. rn. rewrite !c01R by lra. rewrite grey_deepcolor_nf. reflexivity.
  - split; [reflexivity|]. repeat split; [symmetry; apply (wf_ty _ _ W)|].
    cbn [comps]. rewrite Ec. f_equal. rewrite c01R; lra.
Qed.

(** An 8-bit grey; reported alphas in [0,255] survive. *)
Lemma grey_rgb_true (h : heap R) p c : at_addr h p c -> wf_color GREY_TRUE c -> 0 <= m_alpha c <= 1 ->
  via to_rgb_true to_grey_true h p (fun m d => ty m = RGB_TRUE /\ same_colour c d).
Proof.
  intros Hp W A. destruct (comps1 c _ W eq_refl) as [x Ec]. pose proof (range1 c _ x W Ec) as B. cbn [comp_range fst snd] in B.
  assert (Ea : alpha c = m_alpha c * 255) by (unfold alpha; rewrite (wf_cls _ _ W); unfold base_alpha; rn; reflexivity).
  assert (S : @c01 R RArith (m_alpha c * 255 / 255) = m_alpha c).
  { replace (m_alpha c * 255 / 255) with (m_alpha c) by lra. apply c01R. lra. }
  eapply (via_leaf to_rgb_true to_grey_true GREY_TRUE RGB_TRUE grey_true_to_rgb_true_f rgb_true_to_grey_true_f h p c);
    [disp|disp|exact Hp|exact W|apply grey_true_to_rgb_true_ok| | |].
  - unfold grey_true_to_rgb_true_f, with1, rgb_truecolor1. rewrite Ec. rewrite Ea. rewrite rgb_truecolor_nf. rn. rewrite S. reflexivity.
  - unfold rgb_true_to_grey_true_f, with3. cbn [comps alpha cls m_alpha base_alpha]. rn. rewrite !c255R by lra. rewrite grey_truecolor_nf. rn. rewrite S. reflexivity.
  - split; [reflexivity|]. repeat split; [symmetry; apply (wf_ty _ _ W)|].
    cbn [comps]. rewrite Ec. f_equal. rewrite c255R; lra.
Qed.

(** RGB with equal channels. *)
Lemma rgb_grey_deep (h : heap R) p c v : at_addr h p c -> wf_color RGB_DEEP c -> comps c = [v; v; v] ->
  via to_grey_deep to_rgb_deep h p (fun m d => ty m = GREY_DEEP /\ same_colour c d).
Proof.
  intros Hp W Ec. destruct (deep_range c v v v W Ec) as [B _].
  eapply (via_leaf to_grey_deep to_rgb_deep RGB_DEEP GREY_DEEP rgb_deep_to_grey_deep_f grey_deep_to_rgb_deep_f h p c);
    [disp|disp|exact Hp|exact W|apply rgb_deep_to_grey_deep_ok| | |].
  - unfold rgb_deep_to_grey_deep_f, with3. rewrite Ec. rn. rewrite grey_deepcolor_nf. rewrite (alpha_std c _ W eq_refl). reflexivity.
  - instantiate (1 := Color RGB_DEEP RGB_DEEP [v; v; v] (m_alpha c) 1 0 (rgb_space c)).
    unfold grey_deep_to_rgb_deep_f, with1. cbn [comps]. rewrite c01R by lra. apply (deep1_eq v); lra.
  - split; [reflexivity|]. apply same_deep; auto.
Qed.

Lemma rgb_grey_true (h : heap R) p c v : at_addr h p c -> wf_color RGB_TRUE c -> comps c = [v; v; v] -> 0 <= m_alpha c <= 1 ->
  via to_grey_true to_rgb_true h p (fun m d => ty m = GREY_TRUE /\ same_colour c d).
Proof.
  intros Hp W Ec A. pose proof (wf_range _ _ W) as H. rewrite Ec in H. specialize (H 0%nat v eq_refl). cbn [comp_range fst snd] in H. rewrite withinR in H.
  assert (Ea : alpha c = m_alpha c * 255) by (unfold alpha; rewrite (wf_cls _ _ W); unfold base_alpha; rn; reflexivity).
  assert (S : @c01 R RArith (m_alpha c * 255 / 255) = m_alpha c).
  { replace (m_alpha c * 255 / 255) with (m_alpha c) by lra. apply c01R. lra. }
  eapply (via_leaf to_grey_true to_rgb_true RGB_TRUE GREY_TRUE rgb_true_to_grey_true_f grey_true_to_rgb_true_f h p c);
    [disp|disp|exact Hp|exact W|apply rgb_true_to_grey_true_ok| | |].
  - unfold rgb_true_to_grey_true_f, with3. rewrite Ec. rewrite Ea. rn. rewrite grey_truecolor_nf. rn. rewrite S. reflexivity.
  - unfold grey_true_to_rgb_true_f, with1, rgb_truecolor1. cbn [comps alpha cls m_alpha base_alpha]. rn. rewrite !c255R by lra. rewrite rgb_truecolor_nf. rn. rewrite S. reflexivity.
  - split; [reflexivity|]. repeat split; [symmetry; apply (wf_ty _ _ W)|].
    cbn [comps]. rewrite Ec. rewrite c255R by lra. replace ((v + v + v) / 3) with v by lra. reflexivity.
Qed.

(** Converting to grey twice: the second conversion is from the RGB version of the grey. *)
Lemma grey_once (h : heap R) p c : at_addr h p c -> wf_color RGB_DEEP c ->
  exists q g h1, to_grey_deep (Some p) h = (Ok (Some q), h1) /\ at_addr h1 q g /\ ty g = GREY_DEEP /\
    via to_rgb_deep to_grey_deep h1 q (fun m d => same_colour g d).
Proof.
  intros Hp W.
  destruct (rgb_deep_to_grey_deep_ok (AF := RArith) c W) as [g [E [Wg _]]].
  exists (length (colors h)), g, (pushed h g).
  assert (D : dispatches to_grey_deep RGB_DEEP (leaf RGB_DEEP rgb_deep_to_grey_deep_f)) by disp.
  split; [rewrite (D h p c Hp (wf_ty _ _ W)); apply (leaf_run RGB_DEEP _ h p c g Hp W E)|].
  split; [apply at_new|]. split; [apply (wf_ty _ _ Wg)|].
  destruct (grey_rgb_deep (pushed h g) (length (colors h)) g (at_new _ _ _) Wg) as [q [i [m [r [h1 [h2 [A1 [A2 [A3 [A4 [_ A5]]]]]]]]]]].
  exists q, i, m, r, h1, h2. auto.
Qed.
