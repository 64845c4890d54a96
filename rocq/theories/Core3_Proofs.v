(** * Refuting witnesses and remaining lemmas for colour objects *)
From Coq Require Import ZArith QArith Reals Lra Lia List Bool Ascii String.
From Flocq Require Import Core IEEE754.BinarySingleNaN.
From Verif Require Import Arith Outcome ColorModel HexModel GammaModel MatrixModel SpaceModel Heap.
From Verif Require Import Spec Spec32 History F32 F32Facts RArith Laws Core_Proofs Core2_Proofs Hex_Proofs Scale255 NormalForms.
Import ListNotations.
Local Open Scope Z_scope.

(** C05: alpha 7 is stored unchanged. *)
Lemma fresh_alpha_refuted o : exists c, @constructed f32 (F32 o) c /\ cls c = HSV /\ is_value (@alpha f32 (F32 o) c) 7.
Proof.
  destruct (@hsv_made f32 (F32 o) _ (@fz f32 (F32 o) 0) (@fz f32 (F32 o) 0) (@fz f32 (F32 o) 0) (@fz f32 (F32 o) 7) None)
    as [c [E [W [A S]]]].
  exists c. split; [eapply mk_hsv; exact E|]. split; [apply (wf_cls _ _ W)|].
  unfold alpha. rewrite (wf_cls _ _ W). unfold base_alpha. rewrite A. apply fz_val. sm.
Qed.

(** For the 8-bit classes a fresh alpha is always in range. *)
Lemma fresh_alpha8 o (c : color f32) : @constructed f32 (F32 o) c -> eight_bit (cls c) = true ->
  in_interval 0 255 (@alpha f32 (F32 o) c).
Proof. intros H E. apply eight_bit_alpha; auto. apply r_new, H. Qed.

Lemma constructed_hsl o (x y z a : f32) sp : exists c, @constructed f32 (F32 o) c /\ cls c = HSL /\ m_alpha c = a /\ rgb_space c = sp.
Proof.
  destruct (@hsl_made f32 (F32 o) _ x y z a sp) as [c [E [W [A S]]]].
  exists c. split; [eapply mk_hsl; exact E|]. split; [apply (wf_cls _ _ W)|]. auto.
Qed.

(** C10: alpha and space are not assigned. *)
Lemma assign_refuted o : exists x y, @reachable f32 (F32 o) x /\ @reachable f32 (F32 o) y /\ cls x = cls y /\
  is_value (@alpha f32 (F32 o) y) 0 /\ is_value (@alpha f32 (F32 o) (assign x y)) 1 /\
  rgb_space y = Some 0%nat /\ rgb_space (assign x y) = None.
Proof.
  destruct (constructed_hsl o (@fz f32 (F32 o) 0) (@fz f32 (F32 o) 0) (@fz f32 (F32 o) 0) (@fz f32 (F32 o) 1) None) as [x [Cx [Kx [Ax Sx]]]].
  destruct (constructed_hsl o (@fz f32 (F32 o) 0) (@fz f32 (F32 o) 0) (@fz f32 (F32 o) 0) (@fz f32 (F32 o) 0) (Some 0%nat)) as [y [Cy [Ky [Ay Sy]]]].
  exists x, y. split; [apply r_new, Cx|]. split; [apply r_new, Cy|]. split; [congruence|].
  unfold alpha. cbn [assign cls]. rewrite Kx, Ky. unfold base_alpha. cbn [assign m_alpha rgb_space]. rewrite Ax, Ay.
  split; [apply fz_val; sm|]. split; [apply fz_val; sm|]. auto.
Qed.

Lemma assign_copies {F} (x y : color F) :
  ty (assign x y) = ty y /\ comps (assign x y) = comps y /\ m_max (assign x y) = m_max y /\
  m_min (assign x y) = m_min y /\ cls (assign x y) = cls x.
Proof. cbn. auto. Qed.

(** A concrete float is known from its SpecFloat image (which carries no proof). *)
Lemma fval_SF (x : f32) s m e : B2SF x = SpecFloat.S754_finite s m e ->
  is_finite x = true /\ fval x = F2R (Float radix2 (cond_Zopp s (Zpos m)) e).
Proof. destruct x; try discriminate. intros H. injection H as -> -> ->. split; reflexivity. Qed.

Lemma half_val : is_finite (lit32 (1 # 2)) = true /\ fval (lit32 (1 # 2)) = (1 / 2)%R.
Proof.
  destruct (fval_SF (lit32 (1 # 2)) false 8388608 (-24)) as [A B]; [vm_compute; reflexivity|].
  split; auto. rewrite B. unfold F2R. simpl. lra.
Qed.

(** C16: half transparent white overflows. *)
Lemma alpha_divide_refuted o : exists c, @reachable f32 (F32 o) c /\ cls c = RGB_DEEP /\
  in_interval 0 1 (m_alpha c) /\ comp_sat (@alpha_divide f32 (F32 o) c) 0 (fun x => is_value x 2).
Proof.
  destruct half_val as [H V].
  destruct (fz_val o 0) as [F0 V0]; [sm|]. destruct (fz_val o 1) as [F1 V1]; [sm|].
  assert (E : @c01 f32 (F32 o) (@fz f32 (F32 o) 1) = @fz f32 (F32 o) 1).
  { apply clamp_id; try sm. apply within32; try sm. rewrite V1. split; auto. lra. }
  pose proof (@rgb_deepcolor_nf f32 (F32 o) (@fz f32 (F32 o) 1) (@fz f32 (F32 o) 1) (@fz f32 (F32 o) 1) (lit32 (1 # 2)) None) as N.
  eexists. split; [apply r_new; eapply mk_rgb_deep; exact N|]. split; [reflexivity|].
  split.
  - split; auto. cbn [m_alpha]. rewrite V. lra.
  - unfold alpha_divide. cbn [m_alpha].
    assert (Z : @feq f32 (F32 o) (lit32 (1 # 2)) (@fz f32 (F32 o) 0) = false).
    { cbn [feq F32]. rewrite Beqb_fin by auto. apply Req_bool_false. rewrite V, V0. lra. }
    rewrite Z. eexists. split; [reflexivity|]. rewrite E.
    cbn [fdiv F32].
    destruct (Bdiv_ok (@fz f32 (F32 o) 1) (lit32 (1 # 2)) 2 2 F1 H) as [P Q]; try sm.
    + rewrite V. lra.
    + rewrite V, V1. split; lra.
    + split; auto. change (fval (Bdiv mode_NE (@fz f32 (F32 o) 1) (lit32 (1 # 2))) = 2%R).
      rewrite Q, V, V1. replace (1 / (1 / 2))%R with (IZR 2) by lra. apply rnd32_int. sm.
Qed.

(** The generic setter lets the luminance of a Lab colour go below its range. *)
Lemma index_set_refuted o : exists c c', @reachable f32 (F32 o) c /\ cls c = LAB /\
  @set_component f32 (F32 o) c (@fz f32 (F32 o) (-128)) 0 = Ok c' /\
  comp_sat c' 0 (fun x => is_value x (-128)).
Proof.
  destruct (@lab_made f32 (F32 o) _ (@fz f32 (F32 o) 0) (@fz f32 (F32 o) 0) (@fz f32 (F32 o) 0) (@fz f32 (F32 o) 1) None)
    as [c [E [W [A S]]]].
  destruct (set_component_spec (AF := F32 o) c (@fz f32 (F32 o) (-128)) 0) as [_ [S2 S3]].
  destruct S3 as [c' E']. { rewrite (wf_len _ _ W). simpl. lia. }
  exists c, c'. split; [apply r_new; eapply mk_lab; exact E|]. split; [apply (wf_cls _ _ W)|]. split; auto.
  destruct (S2 _ E') as [_ [_ [_ [_ [_ [_ [_ [G _]]]]]]]].
  apply get_component_spec in G. destruct G as [_ G]. eexists. split; [exact G|].
  rewrite (wf_max _ _ W), (wf_min _ _ W). cbn [limits fst snd].
  rewrite clamp_F32. destruct (fz_val o (-128)) as [F1 V1]; [sm|]. destruct (fz_val o 128) as [F2 V2]; [sm|].
  rewrite clamp32_id; auto.
  - split; auto.
  - rewrite V1, V2. lra.
Qed.

(** C06 *)
Lemma eq_equivalence o (a b c : color f32) :
  @reachable f32 (F32 o) a -> @reachable f32 (F32 o) b -> @reachable f32 (F32 o) c ->
  @color_eq f32 (F32 o) a a = true /\
  (@color_eq f32 (F32 o) a b = @color_eq f32 (F32 o) b a) /\
  (@color_eq f32 (F32 o) a b = true -> @color_eq f32 (F32 o) b c = true -> @color_eq f32 (F32 o) a c = true) /\
  (@color_neq f32 (F32 o) a b = negb (@color_eq f32 (F32 o) a b)) /\
  (@color_eq f32 (F32 o) a b = true <-> ty a = ty b /\ map (@B2R 24 128) (comps a) = map (@B2R 24 128) (comps b)).
Proof.
  intros Ra Rb Rc. apply reachable_finite in Ra, Rb, Rc.
  pose proof (color_eq_iff o a a Ra Ra). pose proof (color_eq_iff o a b Ra Rb). pose proof (color_eq_iff o b a Rb Ra).
  pose proof (color_eq_iff o b c Rb Rc). pose proof (color_eq_iff o a c Ra Rc).
  split; [tauto|]. split; [|split; [|split; [reflexivity|tauto]]].
  - destruct (@color_eq f32 (F32 o) a b), (@color_eq f32 (F32 o) b a); auto.
    + exfalso. assert (X : false = true); [|discriminate]. apply H1. destruct H0 as [H0 _].
      destruct (H0 eq_refl). split; congruence.
    + exfalso. assert (X : false = true); [|discriminate]. apply H0. destruct H1 as [H1 _].
      destruct (H1 eq_refl). split; congruence.
  - intros E1 E2. apply H3. apply H0 in E1. apply H2 in E2. destruct E1, E2. split; congruence.
Qed.

(** C07: commutativity of the components *)
Lemma Bplus_comm (x y : f32) lo hi : is_finite x = true -> is_finite y = true -> small lo -> small hi ->
  (IZR lo <= fval x + fval y <= IZR hi)%R -> fval (Bplus mode_NE x y) = fval (Bplus mode_NE y x).
Proof.
  intros Fx Fy Sl Sh B. destruct (Bplus_ok x y lo hi) as [_ E1]; auto.
  destruct (Bplus_ok y x lo hi) as [_ E2]; auto; [rewrite Rplus_comm; auto|].
  rewrite E1, E2, Rplus_comm. reflexivity.
Qed.

Lemma add_comm o (a b : color f32) : @reachable f32 (F32 o) a -> @reachable f32 (F32 o) b -> ty a = ty b ->
  exists s t, @color_add f32 (F32 o) a b = Ok s /\ @color_add f32 (F32 o) b a = Ok t /\
    map (@B2R 24 128) (comps s) = map (@B2R 24 128) (comps t).
Proof.
  intros Ha Hb E.
  destruct (add_result o a b Ha Hb E) as [s [Es [_ [_ [_ [Ls Rs]]]]]].
  destruct (add_result o b a Hb Ha (eq_sym E)) as [t [Et [_ [_ [_ [Lt Rt]]]]]].
  exists s, t. split; auto. split; auto.
  destruct (components_in_range o a Ha) as [_ [Ta [La _]]].
  destruct (components_in_range o b Hb) as [_ [Tb [Lb _]]].
  assert (K : cls b = cls a) by congruence.
  assert (G : forall (l r : list f32), List.length l = List.length r ->
     (forall i x y, nth_error l i = Some x -> nth_error r i = Some y -> fval x = fval y) ->
     map (@B2R 24 128) l = map (@B2R 24 128) r).
  { induction l as [|x l IH]; intros [|y r] L H; try discriminate; auto. cbn [map]. f_equal.
    - apply (H 0%nat x y); reflexivity.
    - apply IH; [injection L; auto|]. intros i. apply (H (S i)). }
  apply G; [congruence|].
  intros i x y Hx Hy.
  assert (I : (i < List.length (comps a))%nat).
  { rewrite <- Ls. apply nth_error_Some. rewrite Hx. discriminate. }
  assert (I' : (i < List.length (comps b))%nat) by (rewrite Lb, K, <- La; exact I).
  destruct (nth_error (comps a) i) as [u|] eqn:Na; [|apply nth_error_None in Na; unfold f32 in *; lia].
  destruct (nth_error (comps b) i) as [v|] eqn:Nb; [|apply nth_error_None in Nb; unfold f32 in *; lia].
  destruct (Rs i u v Na Nb) as [x' [Hx' [_ Vx]]]. destruct (Rt i v u Nb Na) as [y' [Hy' [_ Vy]]].
  assert (x' = x) by congruence. assert (y' = y) by congruence. subst x' y'.
  rewrite Vx, Vy, K, (Rplus_comm (fval v)). reflexivity.
Qed.

(** C12 - C14 in binary32 *)
Lemma hex6_channels o pre c1 c2 c3 c4 c5 c6 v1 v2 v3 v4 v5 v6 sp : hash_prefix pre ->
  digit_value c1 v1 -> digit_value c2 v2 -> digit_value c3 v3 ->
  digit_value c4 v4 -> digit_value c5 v5 -> digit_value c6 v6 ->
  exists c, @rgb_truecolor_hex f32 (F32 o) (pre ++ [c1; c2; c3; c4; c5; c6]) sp = Ok c /\
    has_channels c o 255 (byte v1 v2) (byte v3 v4) (byte v5 v6) sp.
Proof.
  intros P D1 D2 D3 D4 D5 D6. rewrite (hex6_fill pre c1 c2 c3 c4 c5 c6 v1 v2 v3 v4 v5 v6) by assumption.
  apply fill_channels; try lia; eapply byte_range; eassumption.
Qed.

Lemma hex8_channels o pre c1 c2 c3 c4 c5 c6 c7 c8 v1 v2 v3 v4 v5 v6 v7 v8 sp : hash_prefix pre ->
  digit_value c1 v1 -> digit_value c2 v2 -> digit_value c3 v3 -> digit_value c4 v4 ->
  digit_value c5 v5 -> digit_value c6 v6 -> digit_value c7 v7 -> digit_value c8 v8 ->
  exists c, @rgb_truecolor_hex f32 (F32 o) (pre ++ [c1; c2; c3; c4; c5; c6; c7; c8]) sp = Ok c /\
    has_channels c o (byte v1 v2) (byte v3 v4) (byte v5 v6) (byte v7 v8) sp.
Proof.
  intros P D1 D2 D3 D4 D5 D6 D7 D8. rewrite (hex8_fill pre c1 c2 c3 c4 c5 c6 c7 c8 v1 v2 v3 v4 v5 v6 v7 v8) by assumption.
  apply fill_channels; eapply byte_range; eassumption.
Qed.

Lemma int_channels o h sp : exists a r g b c, 0 <= a <= 255 /\ 0 <= r <= 255 /\ 0 <= g <= 255 /\ 0 <= b <= 255 /\
  h mod 4294967296 = argb a r g b /\
  @rgb_truecolor_int f32 (F32 o) h sp = Ok c /\ has_channels c o a r g b sp.
Proof.
  destruct (argb_complete h) as [a [r [g [b [Ha [Hr [Hg [Hb E]]]]]]]].
  destruct (fill_channels o a r g b sp Ha Hr Hg Hb) as [c [Ec Hc]].
  exists a, r, g, b, c. do 5 (split; auto). split; auto.
  rewrite (int_fill h a r g b sp Ha Hr Hg Hb E). exact Ec.
Qed.

Lemma int_string_agree o pre c1 c2 c3 c4 c5 c6 c7 c8 v1 v2 v3 v4 v5 v6 v7 v8 h sp : hash_prefix pre ->
  digit_value c1 v1 -> digit_value c2 v2 -> digit_value c3 v3 -> digit_value c4 v4 ->
  digit_value c5 v5 -> digit_value c6 v6 -> digit_value c7 v7 -> digit_value c8 v8 ->
  h mod 4294967296 = argb (byte v1 v2) (byte v3 v4) (byte v5 v6) (byte v7 v8) ->
  @rgb_truecolor_int f32 (F32 o) h sp = @rgb_truecolor_hex f32 (F32 o) (pre ++ [c1; c2; c3; c4; c5; c6; c7; c8]) sp.
Proof.
  intros P D1 D2 D3 D4 D5 D6 D7 D8 E.
  rewrite (hex8_fill pre c1 c2 c3 c4 c5 c6 c7 c8 v1 v2 v3 v4 v5 v6 v7 v8) by assumption.
  apply int_fill; auto; eapply byte_range; eassumption.
Qed.

Lemma predefined_channels o n v sp : In (n, v) hexcode_colors ->
  exists a r g b c, 0 <= r <= 255 /\ 0 <= g <= 255 /\ 0 <= b <= 255 /\ v = argb a r g b /\
    a = (if string_dec n "Transparent" then 0 else 255) /\
    @predefined_color f32 (F32 o) v sp = Ok c /\ has_channels c o a r g b sp.
Proof.
  intros I. unfold predefined_color.
  assert (H : exists a r g b, 0 <= a <= 255 /\ 0 <= r <= 255 /\ 0 <= g <= 255 /\ 0 <= b <= 255 /\ v = argb a r g b /\
     a = if string_dec n "Transparent" then 0 else 255).
  { destruct (string_dec n "Transparent") as [E|E].
    - subst n. apply predefined_transparent in I. exists 0, 255, 255, 255. subst v. repeat split; lia.
    - destruct (predefined_bytes n v I E) as [r [g [b [Hr [Hg [Hb Ev]]]]]]. exists 255, r, g, b. repeat split; try lia; auto. }
  destruct H as [a [r [g [b [Ha [Hr [Hg [Hb [Ev Ea]]]]]]]]].
  destruct (fill_channels o a r g b sp Ha Hr Hg Hb) as [c [Ec Hc]].
  exists a, r, g, b, c. do 5 (split; auto). split; auto.
  rewrite (int_fill (to_int32 v) a r g b sp Ha Hr Hg Hb); [exact Ec|].
  rewrite to_int32_mod. rewrite Z.mod_small; auto. unfold argb in Ev. lia.
Qed.

Lemma malformed_undefined o sp : @rgb_truecolor_hex f32 (F32 o) (list_ascii_of_string "12#456") sp = Undef.
Proof. reflexivity. Qed.

(** ** C09: the alpha of a copy *)

Lemma reachable_alpha8 {F} {AF : Arith F} {AL : ArithLaws F} (c : color F) :
  reachable c -> eight_bit (cls c) = true -> exists a, m_alpha c = alpha8 a.
Proof.
  assert (SA : forall (c : color F) a, eight_bit (cls c) = true -> m_alpha (alpha_set c a) = alpha8 a).
  { intros c0 a E. unfold alpha_set. destruct (cls c0); try discriminate; reflexivity. }
  assert (MA : forall k a sp m (c : color F), made k a sp m -> m = Ok c -> m_alpha c = a).
  { intros k a sp m c0 M E. destruct (made_inv _ _ _ _ _ M E) as [_ [A _]]. exact A. }
  assert (CL : forall k a sp m (c : color F), made k a sp m -> m = Ok c -> cls c = k).
  { intros k a sp m c0 M E. destruct (made_inv _ _ _ _ _ M E) as [W _]. apply (wf_cls _ _ W). }
  intros H. induction H as [c H|c H IH|k c c' H IH E|x y Hx IHx Hy IHy E|c v i c' H IH E|c v i c' H IH OF E|c a H IH|c sp H IH|c h c' h' H IH OF E|c h c' h' H IH OF E]; intros EB.
  - destruct H as [r g b a sp c E|v a sp c E|s sp c E|n sp c E|r g b a sp c E|v a sp c E|v a sp c E|v a sp c E|x y z k a sp c E|
     x y z a sp c E|x y z a sp c E|x y z a sp c E|x y z a sp c E|x y z a sp c E|x y z a sp c E|x y z a sp c E|x y z a sp c E|x y z a sp c E|x y z a sp c E].
    + exists a. apply (MA _ _ _ _ _ (rgb_truecolor_made r g b a sp) E).
    + exists a. apply (MA _ _ _ _ _ (rgb_truecolor1_made v a sp) E).
    + assert (T : exists a r g b, truecolor_fill a r g b sp = Ok c).
      { unfold rgb_truecolor_hex in E.
        destruct (negb (regex_ok s)); try discriminate.
        set (s' := match s with [] => s | c0 :: t => if is_hash c0 then t else s end) in E.
        destruct (Nat.eqb (List.length s') 6).
        - destruct (scan_many 3 s') as [|r [|g [|b [|]]]]; try discriminate. eauto.
        - destruct (Nat.eqb (List.length s') 8); try discriminate.
          destruct (scan_many 4 s') as [|a [|r [|g [|b [|]]]]]; try discriminate. eauto. }
      destruct T as [a [r [g [b T]]]]. exists (fofZ a). apply (MA _ _ _ _ _ (truecolor_fill_made a r g b sp) T).
    + unfold rgb_truecolor_int in E.
      match type of E with truecolor_fill ?a ?r ?g ?b ?sp = _ => exists (fofZ a); apply (MA _ _ _ _ _ (truecolor_fill_made a r g b sp) E) end.
    + rewrite (CL _ _ _ _ _ (rgb_deepcolor_made _ _ _ _ _) E) in EB. discriminate.
    + rewrite (CL _ _ _ _ _ (rgb_deepcolor1_made _ _ _) E) in EB. discriminate.
    + exists a. apply (MA _ _ _ _ _ (grey_truecolor_made v a sp) E).
    + rewrite (CL _ _ _ _ _ (grey_deepcolor_made _ _ _) E) in EB. discriminate.
    + rewrite (CL _ _ _ _ _ (cmyk_made _ _ _ _ _ _) E) in EB. discriminate.
    + rewrite (CL _ _ _ _ _ (hsi_made _ _ _ _ _) E) in EB. discriminate.
    + rewrite (CL _ _ _ _ _ (hsv_made _ _ _ _ _) E) in EB. discriminate.
    + rewrite (CL _ _ _ _ _ (hsl_made _ _ _ _ _) E) in EB. discriminate.
    + rewrite (CL _ _ _ _ _ (hcy_made _ _ _ _ _) E) in EB. discriminate.
    + rewrite (CL _ _ _ _ _ (xyz_made _ _ _ _ _) E) in EB. discriminate.
    + rewrite (CL _ _ _ _ _ (xyy_made _ _ _ _ _) E) in EB. discriminate.
    + rewrite (CL _ _ _ _ _ (cieluv_made _ _ _ _ _) E) in EB. discriminate.
    + rewrite (CL _ _ _ _ _ (lab_made _ _ _ _ _) E) in EB. discriminate.
    + rewrite (CL _ _ _ _ _ (lch_ab_made _ _ _ _ _) E) in EB. discriminate.
    + rewrite (CL _ _ _ _ _ (lch_uv_made _ _ _ _ _) E) in EB. discriminate.
  - destruct (copy_ctor_fields (cls c) c) as [B _]. rewrite B in EB.
    unfold copy_ctor. rewrite SA; eauto.
  - pose proof (reachable_inv _ H) as [W _]. destruct (from_base_wf _ _ _ W E) as [W' [K N]].
    rewrite (wf_cls _ _ W') in EB. congruence.
  - apply IHx. exact EB.
  - destruct (named_set_fields _ _ _ _ _ E) as [K L]. rewrite L. apply IH. congruence.
  - unfold set_component in E. apply set_lim_spec in E. destruct E as [_ ->]. apply IH, EB.
  - destruct (alpha_set_fields c a) as [K _]. rewrite K in EB. rewrite SA; eauto.
  - apply IH, EB.
  - pose proof (reachable_inv _ H) as [W _]. destruct (correct_with_wf _ _ _ _ _ _ W OF E) as [W' [L _]].
    rewrite L. apply IH. rewrite (wf_cls _ _ W') in EB. exact EB.
  - pose proof (reachable_inv _ H) as [W _]. destruct (correct_with_wf _ _ _ _ _ _ W OF E) as [W' [L _]].
    rewrite L. apply IH. rewrite (wf_cls _ _ W') in EB. exact EB.
Qed.

Lemma clamp32_ninf hi lo : is_finite hi = true -> is_finite lo = true -> clamp32 (B754_infinity true) hi lo = lo.
Proof. destruct hi; try discriminate; destruct lo; try discriminate; reflexivity. Qed.
Lemma fmin32_inf hi : is_finite hi = true -> fmin32 (B754_infinity false) hi = hi.
Proof. destruct hi; try discriminate; reflexivity. Qed.
Lemma fmax32_ge hi lo : is_finite hi = true -> is_finite lo = true -> (fval lo <= fval hi)%R -> fmax32 hi lo = hi.
Proof.
  intros Fh Fl L. unfold fmax32. rewrite !fin_not_nan by assumption. rewrite Bltb_fin by assumption.
  rewrite Rlt_bool_false by assumption. reflexivity.
Qed.
Lemma clamp32_inf hi lo : is_finite hi = true -> is_finite lo = true -> (fval lo <= fval hi)%R ->
  clamp32 (B754_infinity false) hi lo = hi.
Proof. intros Fh Fl L. unfold clamp32. rewrite fmin32_inf by assumption. apply fmax32_ge; assumption. Qed.
Lemma clamp32_nan hi lo : is_finite hi = true -> is_finite lo = true -> (fval lo <= fval hi)%R ->
  clamp32 B754_nan hi lo = hi.
Proof. intros Fh Fl L. unfold clamp32. change (fmin32 B754_nan hi) with hi. apply fmax32_ge; assumption. Qed.

(** Scaling a stored 8-bit alpha up and down again does not change it. *)
Lemma alpha8_stable o a :
  let m := @alpha8 f32 (F32 o) a in
  in_interval 0 1 m /\ is_value (@alpha8 f32 (F32 o) (@fmul f32 (F32 o) m (@fz f32 (F32 o) 255))) (fval m).
Proof.
  intros m.
  destruct (fz_val o 0) as [F0 V0]; [sm|]. destruct (fz_val o 1) as [F1 V1]; [sm|]. destruct (fz_val o 255) as [F2 V2]; [sm|].
  assert (W : in_interval 0 1 m).
  { apply (within_in_interval o); try sm. unfold m, alpha8. apply clamp_within; sm || lia. }
  split; auto. destruct W as [Fm Rm].
  (* the product *)
  assert (B : (IZR 0 <= fval m * fval (@fz f32 (F32 o) 255) <= IZR 255)%R) by (rewrite V2; lra).
  destruct (Bmult_ok m (@fz f32 (F32 o) 255) 0 255 Fm F2) as [P1 P2]; try sm; auto.
  set (p := Bmult mode_NE m (@fz f32 (F32 o) 255)) in *.
  assert (Rp : (IZR 0 <= fval p <= IZR 255)%R) by (rewrite P2; apply rnd32_bounds; try sm; auto).
  (* the quotient *)
  assert (B3 : (IZR 0 <= fval p / fval (@fz f32 (F32 o) 255) <= IZR 1)%R) by (rewrite V2; lra).
  destruct (Bdiv_ok p (@fz f32 (F32 o) 255) 0 1 P1 F2) as [P3 P4]; try sm; auto; [rewrite V2; lra|].
  set (q := Bdiv mode_NE p (@fz f32 (F32 o) 255)) in *.
  assert (Rq : (IZR 0 <= fval q <= IZR 1)%R) by (rewrite P4; apply rnd32_bounds; try sm; auto).
  assert (E : fval q = fval m).
  { rewrite P4, P2, V2. 
    assert (EXACT : forall n, small n -> small (n * 255) -> fval m = IZR n -> rnd32 (rnd32 (fval m * 255) / 255) = fval m).
    { intros n S1 S2 En. rewrite En. rewrite <- mult_IZR, (rnd32_int _ S2), mult_IZR.
      replace (IZR n * 255 / 255)%R with (IZR n) by field. apply rnd32_int, S1. }
    assert (D : fval m = 0%R \/ fval m = 1%R \/ exists b, generic_format radix2 (SpecFloat.fexp 24 128) b /\ fval m = rnd32 (b / 255)).
    { unfold m, alpha8. rewrite clamp_F32. cbn [fdiv F32].
      set (d := Bdiv mode_NE a (@fz f32 (F32 o) 255)).
      destruct (is_finite d) eqn:Fd.
      - rewrite clamp32_val by (auto; rewrite V0, V1; lra). rewrite V0, V1.
        destruct (Rle_lt_dec (fval d) 0) as [L|L]; [left; rewrite Rmin_left by lra; apply Rmax_right; lra|].
        destruct (Rle_lt_dec 1 (fval d)) as [L1|L1]; [right; left; rewrite Rmin_right by lra; apply Rmax_left; lra|].
        right. right. exists (fval a). split; [apply generic_format_B2R|].
        rewrite Rmin_left by lra. rewrite Rmax_left by lra.
        assert (N2 : fval (@fz f32 (F32 o) 255) <> 0%R) by (rewrite V2; lra).
        pose proof (Bdiv_correct 24 128 _ _ mode_NE a (@fz f32 (F32 o) 255) N2) as C. cbv zeta in C.
        destruct (Rlt_bool_spec (Rabs (round radix2 (SpecFloat.fexp 24 128) (round_mode mode_NE) (fval a / fval (@fz f32 (F32 o) 255)))) (bpow radix2 128)) as [LT|GE].
        + destruct C as [C _]. unfold d. rewrite C, V2. reflexivity.
        + exfalso. fold d in C. destruct d as [s|s| |s mm ee Hh]; try discriminate;
            unfold binary_overflow in C; simpl in C; discriminate.
      - destruct d as [s|s| |s mm ee Hh]; try discriminate Fd.
        + destruct s.
          * left. rewrite <- V0. apply (f_equal fval). apply clamp32_ninf; auto.
          * right; left. rewrite <- V1. apply (f_equal fval). apply clamp32_inf; auto. rewrite V0, V1. lra.
        + right; left. rewrite <- V1. apply (f_equal fval). apply clamp32_nan; auto. rewrite V0, V1. lra. }
    destruct D as [D|[D|[b [Gb D]]]].
    - apply (EXACT 0); try sm. exact D.
    - apply (EXACT 1); try sm. exact D.
    - rewrite D. apply (scale_255 b Gb). }
  change (@fmul f32 (F32 o) m (@fz f32 (F32 o) 255)) with p.
  unfold alpha8. rewrite clamp_F32. change (@fdiv f32 (F32 o) p (@fz f32 (F32 o) 255)) with q.
  rewrite clamp32_id; auto.
  - split; auto.
  - rewrite V0, V1. exact Rq.
Qed.

Lemma copy_alpha_preserved o (c : color f32) : @reachable f32 (F32 o) c -> in_interval 0 1 (m_alpha c) ->
  is_value (m_alpha (@copy_ctor f32 (F32 o) (cls c) c)) (fval (m_alpha c)).
Proof.
  intros H I. destruct (eight_bit (cls c)) eqn:E.
  - destruct (reachable_alpha8 _ H E) as [a A].
    assert (M : m_alpha (@copy_ctor f32 (F32 o) (cls c) c) = @alpha8 f32 (F32 o) (@fmul f32 (F32 o) (m_alpha c) (@fz f32 (F32 o) 255))).
    { unfold copy_ctor, alpha_set, with_comps, with_type, color_base_ctor, alpha. cbn [cls].
      destruct (cls c); try discriminate; reflexivity. }
    rewrite M, A. apply alpha8_stable.
  - rewrite copy_alpha_same; auto.
    + split; auto. apply I.
    + apply (within_in_interval o); try sm. exact I.
Qed.
