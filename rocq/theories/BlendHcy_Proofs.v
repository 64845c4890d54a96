(** * The blend modes on hue, chroma and luma; counterexamples and examples for blending *)
From Coq Require Import ZArith QArith Reals Lra Lia List Bool.
From Flocq Require Import Core IEEE754.BinarySingleNaN.
From Verif Require Import Arith Outcome ColorModel GammaModel MatrixModel SpaceModel Heap Converter Calculation Blend
  Spec F32 RArith F32Facts Hue32 Spec32 Laws NormalForms History Core_Proofs Core2_Proofs Core3_Proofs Core4_Proofs Convert_Proofs Alpha8
  Spec_Matrix Spec_Conv Spec_Calc Spec_Blend
  Conv_Proofs Conv2_Proofs Conv3_Proofs Total_Proofs HueR_Proofs Round_Proofs Calc_Proofs Calc2_Proofs Blend_Proofs Blend2_Proofs Blend3_Proofs.
Import ListNotations.

Section Hcy.
Context {F : Type} {AF : Arith F} {AL : ArithLaws F} {A8 : Alpha8Laws F}.
Local Notation color := (color F).
Local Notation heap := (heap F).

Lemma blend_hcy_eq m s d us ud : blend_hcy (AF := AF) m s d us ud = hcy_blend (hcy_pick m) s d.
Proof. destruct m; reflexivity. Qed.

Lemma hcy_run (pick : F * F * F -> F * F * F -> F * F * F) (h : heap) X1 X2 p1 c1 p2 c2 : at_addr h p1 c1 -> at_addr h p2 c2 -> wf_color X1 c1 -> wf_color X2 c2 ->
  (cie X1 = true -> has_space h c1) -> (cie X2 = true -> has_space h c2) ->
  exists s d t h1 q sh sc sy dh dc dy, wf_color HCY s /\ wf_color HCY d /\ (X1 = HCY -> s = c1) /\ (X2 = HCY -> d = c2) /\
    (X1 <> HCY -> rel_alpha X1 HCY c1 s) /\
    comps s = [sh; sc; sy] /\ comps d = [dh; dc; dy] /\
    (let '(x, y, z) := pick (sh, sc, sy) (dh, dc, dy) in hcy x y z (alpha s) (rgb_space c1)) = Ok t /\
    wf_color HCY t /\ m_alpha t = alpha s /\ rgb_space t = rgb_space c1 /\ unchanged h h1 /\ fresh h q /\ at_addr h1 q t /\
    hcy_blend pick (Some p1) (Some p2) h = convertTo (Some q) X1 h1.
Proof.
  intros H1 H2 W1 W2 N1 N2.
  destruct (to_pure X1 HCY (wf_real _ _ W1) ltac:(discriminate) (or_intror eq_refl) h p1 c1 H1 W1)
    as [a [s [ha [Ea [Aa [Ws [Ss [Ua [_ [Rs Is]]]]]]]]]].
  { unfold needs_space. rewrite orb_false_r. exact N1. }
  destruct (to_pure X2 HCY (wf_real _ _ W2) ltac:(discriminate) (or_intror eq_refl) ha p2 c2 (proj2 Ua _ _ H2) W2)
    as [b [d [hb [Eb [Ab [Wd [Sd [Ub [_ [_ Id]]]]]]]]]].
  { unfold needs_space. rewrite orb_false_r. intros K. apply (unchanged_space h ha c2 c2 Ua); [reflexivity|]. apply N2, K. }
  destruct (comps3 _ s Ws eq_refl) as [sh [sc [sy Es]]]. destruct (comps3 _ d Wd eq_refl) as [dh [dc [dy Ed]]].
  destruct (pick (sh, sc, sy) (dh, dc, dy)) as [[x y] z] eqn:Ep.
  destruct (hcy_made x y z (alpha s) (rgb_space c1)) as [t [Et [Wt [At St]]]].
  assert (U : unchanged h hb) by (apply (unchanged_trans _ ha); assumption).
  exists s, d, t, (Heap (colors hb ++ [t]) (spaces hb)), (length (colors hb)), sh, sc, sy, dh, dc, dy.
  split; [exact Ws|]. split; [exact Wd|]. split; [intros K; apply Is, K|]. split; [intros K; apply Id, K|]. split; [exact Rs|].
  split; [exact Es|]. split; [exact Ed|]. rewrite Ep. split; [exact Et|].
  split; [exact Wt|]. split; [exact At|]. split; [exact St|].
  split; [apply (unchanged_trans _ hb); [exact U|apply unchanged_new]|].
  split; [apply (unchanged_len _ _ U)|]. split; [apply at_new|].
  unfold hcy_blend. change (to_type HCY) with (to_hcy (F := F)) in Ea, Eb.
  unfold bind at 1. rewrite Ea. unfold bind at 1. rewrite Eb. unfold bind at 1. rewrite (load_as_ok hb a s HCY (proj2 Ub _ _ Aa) Ws).
  unfold bind at 1. rewrite (load_as_ok hb b d HCY Ab Wd). unfold bind at 1, lift, with3. rewrite Es, Ed, Ep, Ss, Et.
  unfold bind at 1. rewrite alloc_at. unfold bind at 1, load.
  pose proof (at_old hb p1 c1 t (spaces hb) (proj2 U _ _ H1)) as Q. unfold at_addr in Q. rewrite Q, (wf_ty _ _ W1). reflexivity.
Qed.

Lemma hcy_total m us ud (h : heap) X1 X2 p1 c1 p2 c2 : at_addr h p1 c1 -> at_addr h p2 c2 -> wf_color X1 c1 -> wf_color X2 c2 ->
  (cie X1 = true -> has_space h c1) -> (cie X2 = true -> has_space h c2) -> convertible X1 = true ->
  exists q r h', blend_hcy m (Some p1) (Some p2) us ud h = (Ok (Some q), h') /\ fresh h q /\ at_addr h' q r /\
    wf_color X1 r /\ rgb_space r = rgb_space c1 /\ unchanged h h'.
Proof.
  intros H1 H2 W1 W2 N1 N2 C. rewrite blend_hcy_eq.
  destruct (hcy_run (hcy_pick m) h X1 X2 p1 c1 p2 c2 H1 H2 W1 W2 N1 N2)
    as [s [d [t [h1 [q [sh [sc [sy [dh [dc [dy [Ws [Wd [_ [_ [_ [Es [Ed [Et [Wt [At [St [U [Fq [Aq E]]]]]]]]]]]]]]]]]]]]]]]]].
  rewrite (convertTo_type X1 C) in E.
  assert (D1 : HCY <> UNDEFINED) by discriminate. assert (D2 : HCY <> RGB_DEEP \/ cie X1 = false) by (left; discriminate).
  destruct (to_pure HCY X1 D1 (wf_real _ _ W1) D2 h1 q t Aq Wt)
    as [q' [r [h2 [E2 [A2 [Wr [Sr [U2 [Fr [_ I]]]]]]]]]].
  { unfold needs_space. cbn [cie orb]. intros K. apply (unchanged_space h h1 c1 t U St). apply N1, K. }
  exists q', r, h2. split; [rewrite E; exact E2|]. split.
  { destruct (ctype_eq_dec HCY X1) as [K|K]; [rewrite (proj1 (I K)); exact Fq|]. pose proof (unchanged_len _ _ U). pose proof (Fr K). unfold fresh in *. lia. }
  split; [exact A2|]. split; [exact Wr|]. split; [congruence|]. apply (unchanged_trans _ h1); assumption.
Qed.

End Hcy.

Section F.
Variable o : oracle.
Local Open Scope R_scope.

Lemma hcy_makes m us ud (h : heap f32) X1 X2 p1 c1 p2 c2 : at_addr h p1 c1 -> at_addr h p2 c2 ->
  @wf_color f32 (F32 o) X1 c1 -> @wf_color f32 (F32 o) X2 c2 ->
  (cie X1 = true -> has_space h c1) -> (cie X2 = true -> has_space h c2) -> convertible X1 = true ->
  exists q r h', @blend_hcy f32 (F32 o) m (Some p1) (Some p2) us ud h = (Ok (Some q), h') /\ fresh h q /\ at_addr h' q r /\
    colour_of_type X1 r /\ rgb_space r = rgb_space c1 /\ unchanged h h'.
Proof.
  intros H1 H2 W1 W2 N1 N2 C.
  destruct (hcy_total (AF := F32 o) (AL := F32Laws o) m us ud h X1 X2 p1 c1 p2 c2 H1 H2 W1 W2 N1 N2 C) as [q [r [h' [E [Fq [A [W [S U]]]]]]]].
  exists q, r, h'. split; [exact E|]. split; [exact Fq|]. split; [exact A|]. split; [apply (wf_colour o), W|]. split; assumption.
Qed.

Lemma hcy_values m us ud (h : heap f32) p1 c1 p2 c2 sh sc sy dh dc dy : at_addr h p1 c1 -> at_addr h p2 c2 ->
  @wf_color f32 (F32 o) HCY c1 -> @wf_color f32 (F32 o) HCY c2 -> comps c1 = [sh; sc; sy] -> comps c2 = [dh; dc; dy] ->
  returns (@blend_hcy f32 (F32 o) m (Some p1) (Some p2) us ud) h (fun r => ty r = HCY /\ m_alpha r = m_alpha c1 /\
    let '(x, y, z) := @hcy_pick f32 m (sh, sc, sy) (dh, dc, dy) in
    comp_sat r 0 (fun v => is_value v (B2R x)) /\ comp_sat r 1 (fun v => is_value v (B2R y)) /\ comp_sat r 2 (fun v => is_value v (B2R z))).
Proof.
  intros H1 H2 W1 W2 E1 E2. rewrite blend_hcy_eq.
  destruct (hcy_run (AF := F32 o) (AL := F32Laws o) (hcy_pick m) h HCY HCY p1 c1 p2 c2 H1 H2 W1 W2 ltac:(discriminate) ltac:(discriminate))
    as [s [d [t [h1 [q [sh' [sc' [sy' [dh' [dc' [dy' [Ws [Wd [Is [Id [_ [Es [Ed [Et [Wt [At [St [U [Fq [Aq E]]]]]]]]]]]]]]]]]]]]]]]]].
  specialize (Is eq_refl). specialize (Id eq_refl). rewrite Is in *. rewrite Id in *.
  rewrite E1 in Es. rewrite E2 in Ed. injection Es as <- <- <-. injection Ed as <- <- <-.
  exists q, t, h1. split.
  { rewrite E. cbn [convertTo]. unfold to_hcy, bind, load. unfold at_addr in Aq. rewrite Aq, (wf_ty _ _ Wt).
    unfold cast, bind. rewrite (load_as_ok h1 q t HCY Aq Wt). reflexivity. }
  split; [exact Aq|]. split; [apply (wf_ty _ _ Wt)|].
  split. { rewrite At. unfold alpha. rewrite (wf_cls _ _ W1). reflexivity. }
  assert (R : forall x y z, in_interval 0 359 x -> in_interval 0 1 y -> in_interval 0 1 z -> @hcy f32 (F32 o) x y z (@alpha f32 (F32 o) c1) (rgb_space c1) = Ok t ->
    comp_sat t 0 (fun v => is_value v (B2R x)) /\ comp_sat t 1 (fun v => is_value v (B2R y)) /\ comp_sat t 2 (fun v => is_value v (B2R z))).
  { intros x y z Hx Hy Hz K. rewrite (hcy_nf (AL := F32Laws o)) in K. apply Ok_inj in K. rewrite <- K. unfold comp_sat. cbn [comps nth_error].
    split; [|split]; (eexists; split; [reflexivity|]).
    - apply hue_norm32_id, Hx.
    - rewrite c01_id by exact Hy. split; [apply Hy|reflexivity].
    - rewrite c01_id by exact Hz. split; [apply Hz|reflexivity]. }
  pose proof (proj1 (wf32 o HCY c1) W1) as [[_ [_ [_ [_ R1]]]] _]. pose proof (proj1 (wf32 o HCY c2) W2) as [[_ [_ [_ [_ R2]]]] _].
  rewrite E1 in R1. rewrite E2 in R2.
  pose proof (R1 0%nat _ eq_refl) as X0. pose proof (R1 1%nat _ eq_refl) as X1. pose proof (R1 2%nat _ eq_refl) as X2.
  pose proof (R2 0%nat _ eq_refl) as Y0. pose proof (R2 1%nat _ eq_refl) as Y1. pose proof (R2 2%nat _ eq_refl) as Y2.
  cbn [comp_range fst snd] in *. clear R1 R2.
  destruct m; cbn [hcy_pick] in *; apply R; assumption.
Qed.

(** C67 *)
Lemma hcy_null m p us ud (h : heap f32) : fst (@blend_hcy f32 (F32 o) m None p us ud h) = Undef.
Proof. rewrite blend_hcy_eq. reflexivity. Qed.

Lemma hcy_spaces : exists (h : heap f32) c1 c2, at_addr h 0%nat c1 /\ at_addr h 1%nat c2 /\ @wf_color f32 (F32 o) RGB_DEEP c1 /\ @wf_color f32 (F32 o) RGB_DEEP c2 /\
  rgb_space c1 <> rgb_space c2 /\
  forall m us ud, returns (@blend_hcy f32 (F32 o) m (Some 0%nat) (Some 1%nat) us ud) h (colour_of_type RGB_DEEP).
Proof.
  pose (u := @fz f32 (F32 o) 1).
  destruct (rgb_deepcolor_made (AF := F32 o) (AL := F32Laws o) u u u u (Some 0%nat)) as [c1 [E1 [W1 [A1 S1]]]].
  destruct (rgb_deepcolor_made (AF := F32 o) (AL := F32Laws o) u u u u None) as [c2 [E2 [W2 [A2 S2]]]].
  exists (Heap [c1; c2] []), c1, c2. split; [reflexivity|]. split; [reflexivity|]. split; [exact W1|]. split; [exact W2|]. split; [congruence|].
  intros m us ud. destruct (hcy_makes m us ud (Heap [c1; c2] []) RGB_DEEP RGB_DEEP 0%nat c1 1%nat c2 eq_refl eq_refl W1 W2) as [q [r [h' [E [_ [A [C _]]]]]]]; try discriminate; [reflexivity|].
  exists q, r, h'. auto.
Qed.

(** C66: white over white at alpha 1/2, linear dodge *)
Lemma dodge_out : exists (h : heap f32) c1 c2, at_addr h 0%nat c1 /\ at_addr h 1%nat c2 /\ @wf_color f32 (F32 o) RGB_DEEP c1 /\ @wf_color f32 (F32 o) RGB_DEEP c2 /\
  in_interval 0 1 (m_alpha c1) /\ in_interval 0 1 (m_alpha c2) /\ rgb_space c1 = rgb_space c2 /\
  returns (@blend f32 (F32 o) LinearDodge (Some 0%nat) (Some 1%nat) true true) h (fun r => comp_sat r 0 (fun v => is_finite v = true /\ 1 < B2R v)).
Proof.
  pose (u := @fz f32 (F32 o) 1). pose (a := lit32 (1 # 2)).
  destruct (rgb_deepcolor_made (AF := F32 o) (AL := F32Laws o) u u u a None) as [c [E [W [A S]]]].
  assert (I : in_interval 0 1 (m_alpha c)).
  { rewrite A. destruct half_val as [H V]. split; [exact H|]. change (IZR 0 <= fval (lit32 (1 # 2)) <= IZR 1). rewrite V. simpl. lra. }
  exists (Heap [c; c] []), c, c. split; [reflexivity|]. split; [reflexivity|]. split; [exact W|]. split; [exact W|]. split; [exact I|]. split; [exact I|]. split; [reflexivity|].
  rewrite blend_checked.
  destruct (checked_deep_run (AF := F32 o) true true true (@blend_function f32 (F32 o) LinearDodge) (Heap [c; c] []) 0 c 1 c eq_refl eq_refl W W eq_refl) as [q [r [h' [Er [Q B]]]]].
  exists q, r, h'. split; [exact Er|]. split; [exact Q|].
  rewrite rgb_deepcolor_nf in E. apply Ok_inj in E.
  assert (C3 : comps c = [u; u; u]).
  { rewrite <- E. cbn [comps]. destruct (one32 o) as [F1 V1]. rewrite (c01_id o u); [reflexivity|]. split; [exact F1|]. fold u in V1. rewrite V1. lra. }
  rewrite (blend_f_nf true true true _ c c u u u u u u C3 C3) in B. apply Ok_inj in B.
  assert (Al : @alpha f32 (F32 o) c = a) by (unfold alpha; rewrite (wf_cls _ _ W); exact A). rewrite Al in B.
  unfold alpha_divide in B. cbn [m_alpha] in B.
  assert (Z : @feq f32 (F32 o) (@blend_alpha f32 (F32 o) true true true a a) (@fz f32 (F32 o) 0) = false) by (vm_compute; reflexivity).
  rewrite Z in B. cbn [map comps with_comps] in B. unfold comp_sat. rewrite <- B. cbn [comps with_comps nth_error].
  eexists. split; [reflexivity|]. clear B E.
  set (v := @fdiv f32 (F32 o) _ _).
  assert (K : @flt f32 (F32 o) (@fz f32 (F32 o) 1) v = true) by (vm_compute; reflexivity).
  assert (Fv : is_finite v = true) by (vm_compute; reflexivity).
  split; [exact Fv|]. cbn [flt F32] in K. destruct (one32 o) as [F1 V1]. rewrite Bltb_fin in K by assumption. rewrite V1 in K.
  clearbody v. destruct (Rlt_bool_spec 1 (fval v)) as [L|L]; [exact L|discriminate K].
Qed.

(** Two deep colours of one RGB space. *)
Lemma blend_example : exists (h : heap f32) c1 c2, at_addr h 0%nat c1 /\ at_addr h 1%nat c2 /\ @wf_color f32 (F32 o) RGB_DEEP c1 /\ @wf_color f32 (F32 o) RGB_DEEP c2 /\
  is_value (m_alpha c1) 1 /\ is_value (m_alpha c2) 1 /\ in_interval 0 1 (m_alpha c1) /\ rgb_space c1 = rgb_space c2 /\ has_space h c1 /\ comps c1 <> comps c2.
Proof.
  destruct (space_ctor_usable (AF := F32 o) (lit32 (64 # 100)) (lit32 (33 # 100)) (lit32 (30 # 100)) (lit32 (60 # 100)) (lit32 (15 # 100)) (lit32 (6 # 100))
    0%nat (wp_D65_2Degree (AF := F32 o)) (gamma_sRGB (AF := F32 o))) as [sp [Es [U _]]].
  pose (u := @fz f32 (F32 o) 1). pose (z := @fz f32 (F32 o) 0). destruct (one32 o) as [F1 V1]. fold u in F1, V1. destruct (zero32 o) as [F0 V0]. fold z in F0, V0.
  destruct (rgb_deepcolor_made (AF := F32 o) (AL := F32Laws o) u u u u (Some 0%nat)) as [c1 [E1 [W1 [A1 S1]]]].
  destruct (rgb_deepcolor_made (AF := F32 o) (AL := F32Laws o) z z z u (Some 0%nat)) as [c2 [E2 [W2 [A2 S2]]]].
  exists (Heap [c1; c2] [sp]), c1, c2. split; [reflexivity|]. split; [reflexivity|]. split; [exact W1|]. split; [exact W2|].
  rewrite A1, A2. split; [split; assumption|]. split; [split; assumption|].
  split. { split; [exact F1|]. change (IZR 0 <= fval u <= IZR 1). rewrite V1. simpl. lra. }
  split; [congruence|]. split; [exists 0%nat, sp; auto|].
  rewrite rgb_deepcolor_nf in E1, E2. apply Ok_inj in E1. apply Ok_inj in E2. rewrite <- E1, <- E2. cbn [comps].
  rewrite (c01_id o u), (c01_id o z) by (split; [assumption|lra]). intros K.
  assert (Q : u = z) by (exact (f_equal (hd u) K)). rewrite Q, V0 in V1. lra.
Qed.

End F.

Local Open Scope R_scope.
Lemma blend_exampleR : exists (h : heap R) c1 c2, at_addr h 0%nat c1 /\ at_addr h 1%nat c2 /\ wf_color RGB_DEEP c1 /\ wf_color RGB_DEEP c2 /\
  alpha c1 = 1 /\ alpha c2 = 1 / 2 /\ rgb_space c1 = rgb_space c2 /\ comps c1 <> comps c2.
Proof.
  destruct (rgb_deepcolor_made (AF := RArith) (AL := RLaws) 0 0 0 1 None) as [c1 [E1 [W1 [A1 S1]]]].
  destruct (rgb_deepcolor_made (AF := RArith) (AL := RLaws) 1 1 1 (1 / 2) None) as [c2 [E2 [W2 [A2 S2]]]].
  exists (Heap [c1; c2] []), c1, c2. split; [reflexivity|]. split; [reflexivity|]. split; [exact W1|]. split; [exact W2|].
  unfold alpha. rewrite (wf_cls _ _ W1), (wf_cls _ _ W2). split; [exact A1|]. split; [exact A2|]. split; [congruence|].
  rewrite rgb_deepcolor_nf in E1, E2. apply Ok_inj in E1. apply Ok_inj in E2. rewrite <- E1, <- E2. cbn [comps]. rewrite !c01R by lra.
  intros K. assert (Q : 0 = 1) by exact (f_equal (hd 0) K). lra.
Qed.

(** An LCh and a CIEXYZ colour in the same RGB space. *)
Lemma lch_example o : exists (h : heap f32) c1 c2, at_addr h 0%nat c1 /\ at_addr h 1%nat c2 /\
  @wf_color f32 (F32 o) LCH_AB c1 /\ @wf_color f32 (F32 o) XYZ c2 /\ rgb_space c1 = rgb_space c2 /\ has_space h c1 /\ convertible LCH_AB = false /\
  @reachable f32 (F32 o) c1 /\ @reachable f32 (F32 o) c2 /\ in_interval 0 1 (m_alpha c2) /\ ~ @black_hsl f32 (F32 o) c2.
Proof.
  destruct (space_ctor_usable (AF := F32 o) (lit32 (64 # 100)) (lit32 (33 # 100)) (lit32 (30 # 100)) (lit32 (60 # 100)) (lit32 (15 # 100)) (lit32 (6 # 100))
    0%nat (wp_D65_2Degree (AF := F32 o)) (gamma_sRGB (AF := F32 o))) as [sp [Es [U _]]].
  pose (u := @fz f32 (F32 o) 1). destruct (fz_val o 1) as [F1 V1]; [sm|]. fold u in F1, V1.
  destruct (lch_ab_made (AF := F32 o) (AL := F32Laws o) u u u u (Some 0%nat)) as [c1 [E1 [W1 [A1 S1]]]].
  destruct (xyz_made (AF := F32 o) (AL := F32Laws o) u u u u (Some 0%nat)) as [c2 [E2 [W2 [A2 S2]]]].
  exists (Heap [c1; c2] [sp]), c1, c2. split; [reflexivity|]. split; [reflexivity|]. split; [exact W1|]. split; [exact W2|].
  split; [congruence|]. split; [exists 0%nat, sp; auto|]. split; [reflexivity|]. split; [apply r_new; eapply mk_lch_ab; exact E1|].
  split; [apply r_new; eapply mk_xyz; exact E2|].
  split. { rewrite A2. split; [exact F1|]. change (B2R u) with (fval u). rewrite V1. simpl; lra. }
  intros [T _]. rewrite (wf_ty _ _ W2) in T. discriminate T.
Qed.
