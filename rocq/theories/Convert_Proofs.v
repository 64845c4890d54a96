(** * Conversions: proofs of C08 and C28 - C35 *)
From Coq Require Import ZArith QArith Reals Lra Lia List Bool.
From Flocq Require Import Core IEEE754.BinarySingleNaN.
From Verif Require Import Arith Outcome ColorModel GammaModel MatrixModel SpaceModel Heap Converter F32 F32Facts RArith
  Spec Spec32 History Laws NormalForms Core_Proofs Core2_Proofs Core3_Proofs Core4_Proofs Alpha8 Spec_Matrix Spec_Conv Conv_Proofs Conv2_Proofs
  Conv3_Proofs Total_Proofs.
Import ListNotations.
Local Open Scope Z_scope.

Lemma types_real k : In k all_types <-> k <> UNDEFINED.
Proof.
  split.
  - intros H E. subst k. simpl in H. repeat (destruct H as [H|H]; [discriminate H|]). exact H.
  - intros N. destruct k; try contradiction; simpl; tauto.
Qed.

Lemma wf32 o k (c : color f32) : @wf_color f32 (F32 o) k c <->
  (colour_of_type k c /\ m_max c = @fz f32 (F32 o) (snd (limits k)) /\ m_min c = @fz f32 (F32 o) (fst (limits k))).
Proof.
  split.
  - intros [W0 W1 W2 W3 W4 W5 W6]. split; [|auto]. split; [apply types_real, W0|]. do 3 (split; [assumption|]).
    intros i x H. destruct (small_range k i) as [A [B _]]. apply (within_in_interval o); auto.
  - intros [[W0 [W1 [W2 [W3 W6]]]] [W4 W5]]. constructor; auto.
    + apply types_real, W0.
    + intros i x H. destruct (small_range k i) as [A [B _]]. apply within32; auto. apply (W6 i x H).
Qed.

Lemma reachable_wf o c : @reachable f32 (F32 o) c -> @wf_color f32 (F32 o) (cls c) c.
Proof. intros H. apply (reachable_inv _ H). Qed.

(** ** C28 *)

Lemma conversion_total o (h : heap f32) p c X Y : at_addr h p c -> @wf_color f32 (F32 o) X c -> In Y all_types ->
  (needs_space X Y = true -> has_space h c) ->
  exists q r h', @to_type f32 (F32 o) Y (Some p) h = (Ok (Some q), h') /\ at_addr h' q r /\
    colour_of_type Y r /\ @wf_color f32 (F32 o) Y r.
Proof.
  intros Hp W HY N. apply types_real in HY. pose proof (wf_real _ _ W) as HX.
  destruct (ctype_eq_dec X Y) as [->|D].
  - exists p, c, h. split; [apply (to_type_same Y h p c Hp W)|]. split; [exact Hp|]. split; [apply (wf32 o), W|exact W].
  - destruct (to_type_cv X Y HX HY D h p c Hp W N) as [q [r [h' [c' [E [_ [Hq [Wr _]]]]]]]].
    exists q, r, h'. split; [exact E|]. split; [exact Hq|]. split; [apply (wf32 o), Wr|exact Wr].
Qed.

Lemma convertTo_total o (h : heap f32) p c X Y : at_addr h p c -> @wf_color f32 (F32 o) X c -> In Y all_types ->
  Y <> LCH_AB -> Y <> LCH_UV -> (needs_space X Y = true -> has_space h c) ->
  exists q r h', @convertTo f32 (F32 o) (Some p) Y h = (Ok (Some q), h') /\ at_addr h' q r /\
    colour_of_type Y r /\ @wf_color f32 (F32 o) Y r.
Proof.
  intros Hp W HY N1 N2 N. rewrite convertTo_to_type by assumption. apply (conversion_total o h p c X Y); assumption.
Qed.

(** ** C29 *)

Lemma convertTo_lch o : exists (h : heap f32) p c,
  at_addr h p c /\ @reachable f32 (F32 o) c /\ has_space h c /\
  @convertTo f32 (F32 o) (Some p) LCH_AB h = (Ok None, h) /\ @convertTo f32 (F32 o) (Some p) LCH_UV h = (Ok None, h).
Proof.
  destruct (space_ctor_usable (AF := F32 o) (lit32 (64 # 100)) (lit32 (33 # 100)) (lit32 (30 # 100)) (lit32 (60 # 100)) (lit32 (15 # 100)) (lit32 (6 # 100))
    0%nat (wp_D65_2Degree (AF := F32 o)) (gamma_sRGB (AF := F32 o))) as [s [Es [U _]]].
  destruct (lab_made (AF := F32 o) (AL := F32Laws o) (lit32 50) (lit32 20) (lit32 30) (lit32 1) (Some 0%nat)) as [c [Ec [W [A S]]]].
  exists (Heap [c] [s]), 0%nat, c. split; [reflexivity|]. split; [apply r_new; eapply mk_lab; exact Ec|].
  split; [exists 0%nat, s; auto|]. split; reflexivity.
Qed.

(** ** C30, C31, C35 *)

Lemma conversion_aliasing o (h : heap f32) p c X Y : at_addr h p c -> @wf_color f32 (F32 o) X c -> In Y all_types ->
  (needs_space X Y = true -> has_space h c) ->
  (X = Y -> @to_type f32 (F32 o) Y (Some p) h = (Ok (Some p), h)) /\
  (X <> Y -> exists q h', @to_type f32 (F32 o) Y (Some p) h = (Ok (Some q), h') /\ fresh h q).
Proof.
  intros Hp W HY N. apply types_real in HY. pose proof (wf_real _ _ W) as HX. split.
  - intros <-. apply (to_type_same X h p c Hp W).
  - intros D. destruct (to_type_cv X Y HX HY D h p c Hp W N) as [q [r [h' [c' [E [Fq _]]]]]]. eauto.
Qed.

Lemma conversion_unchanged o (h : heap f32) p c X Y : at_addr h p c -> @wf_color f32 (F32 o) X c -> In Y all_types ->
  (needs_space X Y = true -> has_space h c) -> (X <> RGB_DEEP \/ cie Y = false) ->
  unchanged h (snd (@to_type f32 (F32 o) Y (Some p) h)).
Proof.
  intros Hp W HY N D0. apply types_real in HY. pose proof (wf_real _ _ W) as HX.
  destruct (ctype_eq_dec X Y) as [->|D].
  - rewrite (to_type_same Y h p c Hp W). split; auto.
  - destruct (to_type_cv X Y HX HY D h p c Hp W N) as [q [r [h' [c' [E [_ [_ [_ [_ [[S U] [P [_ [_ [_ [PU _]]]]]]]]]]]]]]].
    rewrite E. cbn [snd]. split; [exact S|]. intros i c0 H.
    destruct (Nat.eq_dec i p) as [->|Ni]; [|apply U; auto].
    assert (c0 = c) by (unfold at_addr in *; congruence). subst c0.
    rewrite <- (PU ltac:(unfold changes_source; destruct D0 as [D0|D0];
      [unfold ctype_eqb; destruct (ctype_eq_dec X RGB_DEEP); [contradiction|reflexivity]|rewrite D0, andb_false_r; reflexivity])). exact P.
Qed.

(** Whatever the types, only the converted colour can change, and it keeps its class,
    alpha, RGB space and ranges. *)
Lemma conversion_footprint o (h : heap f32) p c X Y : at_addr h p c -> @wf_color f32 (F32 o) X c -> In Y all_types ->
  (needs_space X Y = true -> has_space h c) ->
  exists c', at_addr (snd (@to_type f32 (F32 o) Y (Some p) h)) p c' /\ colour_of_type X c' /\
    m_alpha c' = m_alpha c /\ rgb_space c' = rgb_space c /\
    others_unchanged h (snd (@to_type f32 (F32 o) Y (Some p) h)) p.
Proof.
  intros Hp W HY N. apply types_real in HY. pose proof (wf_real _ _ W) as HX.
  destruct (ctype_eq_dec X Y) as [->|D].
  - rewrite (to_type_same Y h p c Hp W). exists c. split; [exact Hp|]. split; [apply (wf32 o), W|].
    split; [reflexivity|]. split; [reflexivity|]. split; auto.
  - destruct (to_type_cv X Y HX HY D h p c Hp W N) as [q [r [h' [c' [E [_ [_ [_ [_ [OU [P [WP [AP [SP _]]]]]]]]]]]]]].
    rewrite E. cbn [snd]. exists c'. split; [exact P|]. split; [apply (wf32 o), WP|]. auto.
Qed.

Lemma conversion_space o (h : heap f32) p c X Y : at_addr h p c -> @wf_color f32 (F32 o) X c -> In Y all_types ->
  (needs_space X Y = true -> has_space h c) ->
  exists q r h', @to_type f32 (F32 o) Y (Some p) h = (Ok (Some q), h') /\ at_addr h' q r /\
    rgb_space r = rgb_space c /\ spaces h' = spaces h.
Proof.
  intros Hp W HY N. apply types_real in HY. pose proof (wf_real _ _ W) as HX.
  destruct (ctype_eq_dec X Y) as [->|D].
  - exists p, c, h. split; [apply (to_type_same Y h p c Hp W)|]. auto.
  - destruct (to_type_cv X Y HX HY D h p c Hp W N) as [q [r [h' [c' [E [_ [Hq [_ [S [[SS _] _]]]]]]]]]].
    exists q, r, h'. auto.
Qed.

(** ** C33 *)

Lemma conversion_alpha_gen {F} {AF : Arith F} {AL : ArithLaws F} {A8 : Alpha8Laws F} (h : heap F) p c X Y :
  at_addr h p c -> wf_color X c -> In Y all_types ->
  (needs_space X Y = true -> has_space h c) -> within 0 1 (m_alpha c) ->
  (eight_bit X = true -> exists a, m_alpha c = scaled_alpha a) -> ~ black_hsl c ->
  exists q r h', to_type Y (Some p) h = (Ok (Some q), h') /\ at_addr h' q r /\ wf_color Y r /\
    m_alpha r = converted_alpha X Y (m_alpha c).
Proof.
  intros Hp W HY N O Fm NB. apply types_real in HY. pose proof (wf_real _ _ W) as HX.
  destruct (ctype_eq_dec X Y) as [->|D].
  - exists p, c, h. split; [apply (to_type_same Y h p c Hp W)|]. split; [exact Hp|]. split; [exact W|].
    unfold converted_alpha. rewrite andb_negb_r. reflexivity.
  - destruct (to_type_cv X Y HX HY D h p c Hp W N) as [q [r [h' [c' [E [_ [Hq [Wr [_ [_ [_ [_ [_ [_ [_ R]]]]]]]]]]]]]]].
    exists q, r, h'. split; [exact E|]. split; [exact Hq|]. split; [exact Wr|]. apply R.
    + exact O.
    + intros K. rewrite (wf_ty _ _ W) in K. apply Fm, K.
    + exact NB.
Qed.

Lemma fround_255 o (x : f32) : in_interval 0 255 x ->
  exists n, 0 <= n <= 255 /\ is_value (@fround f32 (F32 o) x) (IZR n) /\ (Rabs (IZR n - fval x) <= 1 / 2)%R.
Proof.
  intros [Fx Rx]. cbn [fround F32].
  destruct (Bnearbyint_correct 24 128 prec_lt_emax_32 mode_NA x) as [V [Fi _]].
  set (n := ZnearestA (fval x)).
  assert (E : fval (Bnearbyint mode_NA x) = IZR n).
  { rewrite V. unfold round, F2R, scaled_mantissa, cexp, FIX_exp. simpl. rewrite !Rmult_1_r. reflexivity. }
  assert (H : (Rabs (IZR n - fval x) <= 1 / 2)%R).
  { rewrite Rabs_minus_sym. replace (1 / 2)%R with (/ 2)%R by lra. apply Znearest_half. }
  exists n. split; [|split; [split; [rewrite Fi; exact Fx|exact E]|exact H]].

  assert (B : (-1 < IZR n < 256)%R).
  { pose proof (Rle_abs (IZR n - fval x)). pose proof (Rle_abs (- (IZR n - fval x))). rewrite Rabs_Ropp in *.
    lra || (split; lra). }
  destruct B as [B1 B2]. apply (lt_IZR (-1)) in B1. apply (lt_IZR n 256) in B2. lia.
Qed.

Lemma alpha_up_value o (r : color f32) (a : f32) : in_interval 0 1 a -> eight_bit (cls r) = true ->
  m_alpha r = @scaled_alpha f32 (F32 o) (@fround f32 (F32 o) (@fmul f32 (F32 o) a (@fz f32 (F32 o) 255))) ->
  exists n, 0 <= n <= 255 /\ is_value (@alpha f32 (F32 o) r) (IZR n) /\
    (Rabs (IZR n - rnd32 (255 * fval a)) <= 1 / 2)%R.
Proof.
  intros [Fa Ra] E8 E. destruct (fz_val o 255) as [F2 V2]; [sm|].
  destruct (Bmult_ok a (@fz f32 (F32 o) 255) 0 255 Fa F2) as [P1 P2]; try sm.
  { rewrite V2. change (B2R a) with (fval a) in Ra. lra. }
  set (p := @fmul f32 (F32 o) a (@fz f32 (F32 o) 255)) in *.
  change (Bmult mode_NE a (@fz f32 (F32 o) 255)) with p in *.
  assert (Rp : (IZR 0 <= fval p <= IZR 255)%R).
  { rewrite P2. apply rnd32_bounds; try sm. rewrite V2. change (B2R a) with (fval a) in Ra. lra. }
  destruct (fround_255 o p) as [n [Hn [Vn Dn]]]; [split; auto|].
  exists n. split; [exact Hn|]. split.
  - pose proof (alpha_setter_bytes o r _ n E8 Hn Vn) as B.
    assert (EQ : @alpha f32 (F32 o) (@alpha_set f32 (F32 o) r (@fround f32 (F32 o) p)) = @alpha f32 (F32 o) r).
    { destruct (alpha_set_fields (AF := F32 o) r (@fround f32 (F32 o) p)) as [K _]. unfold alpha. rewrite K.
      unfold base_alpha, alpha_set. destruct (cls r); try discriminate E8;
      cbn [base_alpha_set with_alpha m_alpha]; rewrite E; reflexivity. }
    rewrite <- EQ. exact B.
  - rewrite P2, V2 in Dn. rewrite Rmult_comm. exact Dn.
Qed.

Lemma conversion_alpha o (h : heap f32) p c X Y : at_addr h p c -> @reachable f32 (F32 o) c -> cls c = X -> In Y all_types ->
  (needs_space X Y = true -> has_space h c) -> in_interval 0 1 (m_alpha c) -> ~ @black_hsl f32 (F32 o) c ->
  exists q r h', @to_type f32 (F32 o) Y (Some p) h = (Ok (Some q), h') /\ at_addr h' q r /\
    (eight_bit Y = false \/ eight_bit X = true -> m_alpha r = m_alpha c) /\
    (eight_bit Y = true -> eight_bit X = false ->
       exists n, 0 <= n <= 255 /\ is_value (@alpha f32 (F32 o) r) (IZR n) /\
         (Rabs (IZR n - rnd32 (255 * fval (m_alpha c))) <= 1 / 2)%R).
Proof.
  intros Hp Rc <- HY N O NB.
  destruct (conversion_alpha_gen (AF := F32 o) h p c (cls c) Y Hp (reachable_wf o c Rc) HY N) as [q [r [h' [E [Hq [Wr A]]]]]]; auto.
  - apply within32; try sm. exact O.
  - intros E8. apply (reachable_alpha8 c Rc E8).
  - exists q, r, h'. split; [exact E|]. split; [exact Hq|]. split.
    + intros H. rewrite A. unfold converted_alpha. destruct H as [-> | ->]; [reflexivity|].
      rewrite andb_false_r. reflexivity.
    + intros E8 NE8. apply (alpha_up_value o r (m_alpha c) O).
      * rewrite (wf_cls _ _ Wr). exact E8.
      * rewrite A. unfold converted_alpha. rewrite E8, NE8. reflexivity.
Qed.

(** ** C34 *)
Lemma black_hsl_alpha o : exists (h : heap f32) p c q r h', at_addr h p c /\ @reachable f32 (F32 o) c /\
  @black_hsl f32 (F32 o) c /\ is_value (m_alpha c) 1 /\
  @to_rgb_deep f32 (F32 o) (Some p) h = (Ok (Some q), h') /\ at_addr h' q r /\ is_value (m_alpha r) 0.
Proof.
  destruct (fz_val o 0) as [F0 V0]; [sm|]. destruct (fz_val o 1) as [F1 V1]; [sm|].
  set (z := @fz f32 (F32 o) 0) in *. set (u := @fz f32 (F32 o) 1) in *.
  pose (c := Color HSL HSL [@hue_norm f32 (F32 o) z; @c01 f32 (F32 o) z; @c01 f32 (F32 o) z] u u z None).
  assert (Ec : @hsl f32 (F32 o) z z z u None = Ok c) by apply (hsl_nf (AF := F32 o) (AL := F32Laws o)).
  assert (C0 : @c01 f32 (F32 o) z = z).
  { unfold c01. apply (clamp_id (AF := F32 o)); try sm. apply within32; try sm. fold z. rewrite V0. split; [exact F0|]. simpl; lra. }
  assert (B0 : @feq f32 (F32 o) z (@fz f32 (F32 o) 0) = true).
  { cbn [feq F32]. fold z. rewrite Beqb_fin by assumption. apply Req_bool_true. reflexivity. }
  exists (Heap [c] []), 0%nat, c.
  pose (r := Color RGB_DEEP RGB_DEEP [@c01 f32 (F32 o) z; @c01 f32 (F32 o) z; @c01 f32 (F32 o) z] z u z None).
  exists 1%nat, r, (Heap [c; r] []).
  split; [reflexivity|]. split; [apply r_new; eapply mk_hsl; exact Ec|].
  split. { split; [reflexivity|]. eexists _, _, _. split; [reflexivity|]. rewrite C0. exact B0. }
  split; [split; assumption|]. split; [|split; [reflexivity|split; assumption]].
  unfold to_rgb_deep, bind at 1, load. cbn [colors nth_error ty c]. unfold hsl_to_rgb_deep, leaf, load_as, bind, load.
  cbn [colors nth_error cls c]. destruct (ctype_eq_dec HSL HSL) as [_|N]; [|congruence].
  unfold ret, lift, hsl_to_rgb_deep_f, with3. cbn [comps c]. rewrite C0. rewrite B0. rewrite rgb_deepcolor1_nf. rewrite alloc_at.
  cbn [rgb_space c]. unfold r. rewrite C0. reflexivity.
Qed.

(** ** C08 *)
Lemma sum_unusable o : exists (h : heap f32) p (a b s : color f32), @reachable f32 (F32 o) a /\ @reachable f32 (F32 o) b /\
  has_space h a /\ @color_add f32 (F32 o) a b = Ok s /\ at_addr h p s /\ ty s = RGB_DEEP /\
  forall Y, In Y all_types -> fst (@to_type f32 (F32 o) Y (Some p) h) = Undef.
Proof.
  destruct (space_ctor_usable (AF := F32 o) (lit32 (64 # 100)) (lit32 (33 # 100)) (lit32 (30 # 100)) (lit32 (60 # 100)) (lit32 (15 # 100)) (lit32 (6 # 100))
    0%nat (wp_D65_2Degree (AF := F32 o)) (gamma_sRGB (AF := F32 o))) as [sp [Es [U _]]].
  destruct (rgb_deepcolor_made (AF := F32 o) (AL := F32Laws o) (lit32 0) (lit32 0) (lit32 0) (lit32 1) (Some 0%nat)) as [c [Ec [W [A S]]]].
  destruct (@color_add f32 (F32 o) c c) as [s| | |] eqn:Ea.
  2,3,4: exfalso; unfold color_add in Ea; unfold ctype_eqb in Ea; destruct (ctype_eq_dec (ty c) (ty c)); [|congruence];
    rewrite Nat.eqb_refl in Ea; discriminate Ea.
  assert (T : cls s = UNDEFINED /\ ty s = RGB_DEEP).
  { unfold color_add in Ea. destruct (ctype_eqb (ty c) (ty c) && _); [|discriminate Ea]. injection Ea as <-.
    split; [reflexivity|]. apply (wf_ty _ _ W). }
  destruct T as [T1 T2].
  exists (Heap [s] [sp]), 0%nat, c, c, s. split; [apply r_new; eapply mk_rgb_deep; exact Ec|].
  split; [apply r_new; eapply mk_rgb_deep; exact Ec|]. split; [exists 0%nat, sp; auto|]. split; [exact Ea|]. split; [reflexivity|].
  split; [exact T2|].
  assert (L : @load_as f32 RGB_DEEP (Some 0%nat) (Heap [s] [sp]) = (Undef, Heap [s] [sp])).
  { unfold load_as, bind, load. cbn [colors nth_error]. destruct (ctype_eq_dec (cls s) RGB_DEEP) as [K|_]; [rewrite T1 in K; discriminate K|reflexivity]. }
  assert (LF : forall f, @leaf f32 RGB_DEEP f (Some 0%nat) (Heap [s] [sp]) = (Undef, Heap [s] [sp])).
  { intros f. unfold leaf, bind at 1. rewrite L. reflexivity. }
  assert (LX : @rgb_deep_to_xyz f32 (F32 o) (Some 0%nat) (Heap [s] [sp]) = (Undef, Heap [s] [sp])).
  { unfold rgb_deep_to_xyz, bind at 1. rewrite L. reflexivity. }
  assert (BU : forall A B (m : M f32 A) (k : A -> M f32 B) h, m h = (Undef, h) -> bind m k h = (Undef, h)).
  { intros A0 B0 m k h E. unfold bind. rewrite E. reflexivity. }
  intros Y HY. apply types_real in HY.
  assert (D : @load f32 (Some 0%nat) (Heap [s] [sp]) = (Ok s, Heap [s] [sp])) by reflexivity.
  destruct Y; try contradiction; cbn [to_type];
    unfold to_rgb_true, to_rgb_deep, to_grey_true, to_grey_deep, to_cmyk, to_hsi, to_hsv, to_hsl, to_hcy,
    to_xyz, to_xyy, to_cieluv, to_lab, to_lch_ab, to_lch_uv; unfold bind at 1; rewrite D, T2.
  - unfold rgb_deep_to_rgb_true. rewrite LF. reflexivity.
  - unfold cast. rewrite BU; [reflexivity|exact L].
  - unfold rgb_deep_to_grey_true, rgb_deep_to_rgb_true. rewrite BU; [reflexivity|apply LF].
  - unfold rgb_deep_to_grey_deep. rewrite LF. reflexivity.
  - unfold rgb_deep_to_cmyk. rewrite LF. reflexivity.
  - unfold rgb_deep_to_hsi. rewrite LF. reflexivity.
  - unfold rgb_deep_to_hsv. rewrite LF. reflexivity.
  - unfold rgb_deep_to_hsl. rewrite LF. reflexivity.
  - unfold rgb_deep_to_hcy. rewrite LF. reflexivity.
  - rewrite LX. reflexivity.
  - unfold rgb_deep_to_xyy. rewrite BU; [reflexivity|exact LX].
  - unfold rgb_deep_to_cieluv. rewrite BU; [reflexivity|exact LX].
  - unfold rgb_deep_to_lab. rewrite BU; [reflexivity|exact LX].
  - unfold rgb_deep_to_lch_ab, rgb_deep_to_lab. rewrite BU; [reflexivity|]. apply BU, LX.
  - unfold rgb_deep_to_lch_uv, rgb_deep_to_cieluv. rewrite BU; [reflexivity|]. apply BU, LX.
Qed.
