(** * What constructors and setters store, in binary32 *)
From Coq Require Import ZArith QArith Reals Lra Lia List Bool.
From Flocq Require Import Core IEEE754.BinarySingleNaN.
From Verif Require Import Arith Outcome ColorModel Spec Spec32 History F32 F32Facts Laws NormalForms
  Core_Proofs Core2_Proofs Core3_Proofs Hex_Proofs Hue32.
Import ListNotations.
Local Open Scope Z_scope.

(** The constructor of class [k] that takes one number per component. *)
Definition ctor_of {F} {AF : Arith F} (k : ctype) (l : list F) (a : F) (sp : option nat) : outcome (color F) :=
  match k, l with
  | RGB_TRUE, [x; y; z] => rgb_truecolor x y z a sp
  | RGB_DEEP, [x; y; z] => rgb_deepcolor x y z a sp
  | GREY_TRUE, [x] => grey_truecolor x a sp
  | GREY_DEEP, [x] => grey_deepcolor x a sp
  | CMYK, [x; y; z; w] => cmyk x y z w a sp
  | HSI, [x; y; z] => hsi x y z a sp
  | HSV, [x; y; z] => hsv x y z a sp
  | HSL, [x; y; z] => hsl x y z a sp
  | HCY, [x; y; z] => hcy x y z a sp
  | XYZ, [x; y; z] => xyz x y z a sp
  | XYY, [x; y; z] => xyy x y z a sp
  | CIELUV, [x; y; z] => cieluv x y z a sp
  | LAB, [x; y; z] => lab x y z a sp
  | LCH_AB, [x; y; z] => lch_ab x y z a sp
  | LCH_UV, [x; y; z] => lch_uv x y z a sp
  | _, _ => Undef
  end.

(** Component [i] of type [k] is an angle that is wrapped around. *)
Definition wraps (k : ctype) (i : nat) : bool :=
  match k, i with (HSI | HSV | HSL | HCY), O => true | _, _ => false end.

(** [y] is what has to be stored when [x] is given for component [i] of type [k]. *)
Definition stored (k : ctype) (i : nat) (x y : f32) : Prop :=
  let lo := IZR (fst (comp_range k i)) in
  let hi := IZR (snd (comp_range k i)) in
  (in_interval (fst (comp_range k i)) (snd (comp_range k i)) x -> is_value y (B2R x)) /\
  (wraps k i = false -> is_finite x = true -> is_value y (Rmax (Rmin (B2R x) hi) lo)) /\
  (wraps k i = true -> is_finite x = true -> exists (n : Z) (m : R),
     B2R x = (360 * IZR n + m)%R /\ (0 <= m < 360)%R /\ is_value y (Rmin (rnd32 m) 359)) /\
  (is_nan x = true -> is_value y hi).

Lemma clamp_val o x lo hi : small lo -> small hi -> lo <= hi -> is_finite x = true ->
  is_value (@clamp f32 (F32 o) x (@fz f32 (F32 o) hi) (@fz f32 (F32 o) lo)) (Rmax (Rmin (fval x) (IZR hi)) (IZR lo)).
Proof.
  intros Sl Sh L Fx. destruct (fz_val o lo Sl) as [Fl Vl]. destruct (fz_val o hi Sh) as [Fh Vh].
  rewrite clamp_F32. apply IZR_le in L. rewrite <- Vl, <- Vh in *. split.
  - apply clamp32_range; auto.
  - apply clamp32_val; auto.
Qed.

Lemma clamp_nan o x lo hi : small lo -> small hi -> lo <= hi -> is_nan x = true ->
  is_value (@clamp f32 (F32 o) x (@fz f32 (F32 o) hi) (@fz f32 (F32 o) lo)) (IZR hi).
Proof.
  intros Sl Sh L Fx. destruct (fz_val o lo Sl) as [Fl Vl]. destruct (fz_val o hi Sh) as [Fh Vh].
  rewrite clamp_F32. apply IZR_le in L. destruct x; try discriminate.
  rewrite clamp32_nan by (auto; rewrite Vl, Vh; exact L). split; auto.
Qed.

Lemma stored_clamp o k i x lo hi : wraps k i = false -> comp_range k i = (lo, hi) ->
  stored k i x (@clamp f32 (F32 o) x (@fz f32 (F32 o) hi) (@fz f32 (F32 o) lo)).
Proof.
  intros W E. destruct (small_range k i) as [Sl [Sh L]]. unfold stored. rewrite W. rewrite E in *. cbn [fst snd] in *.
  split; [|split; [|split]]; try discriminate.
  - intros [Fx R]. destruct (clamp_val o x lo hi Sl Sh L Fx) as [A B]. split; auto. rewrite B.
    change (B2R x) with (fval x). rewrite Rmin_left, Rmax_left by lra. reflexivity.
  - intros _ Fx. apply clamp_val; auto.
  - intros N. apply clamp_nan; auto.
Qed.

Lemma stored_hue o k x : wraps k 0 = true -> stored k 0 x (@hue_norm f32 (F32 o) x).
Proof.
  intros W. assert (E : comp_range k 0 = (0, 359)) by (destruct k; try discriminate; reflexivity).
  unfold stored. rewrite W, E. cbn [fst snd]. split; [|split; [|split]]; try discriminate.
  - apply hue_norm32_id.
  - intros _ Fx. destruct (hue_norm32 o x Fx) as [n [m [A [B [C _]]]]]. eauto.
  - intros N. apply hue_norm32_nonfinite. destruct x; try discriminate; reflexivity.
Qed.

Ltac st := first [apply (stored_clamp _ _ _ _ _ _); reflexivity | apply stored_hue; reflexivity].

Lemma Bsign_pos (x : f32) : (0 < fval x)%R -> Bsign x = false.
Proof.
  destruct x as [s|s| |s m e H]; try (simpl; lra).
  destruct s; auto. intros P. exfalso. apply (Rlt_irrefl 0). eapply Rlt_le_trans; [exact P|].
  apply F2R_le_0. simpl. lia.
Qed.

Lemma ctor_stores o k (l : list f32) a sp : In k all_types -> List.length l = arity k ->
  exists c, @ctor_of f32 (F32 o) k l a sp = Ok c /\ cls c = k /\ ty c = k /\ rgb_space c = sp /\
    List.length (comps c) = arity k /\
    (forall i x, nth_error l i = Some x -> comp_sat c i (stored k i x)) /\
    (eight_bit k = false -> @alpha f32 (F32 o) c = a) /\
    (eight_bit k = true -> forall n, 0 <= n <= 255 -> is_value a (IZR n) -> is_value (@alpha f32 (F32 o) c) (IZR n)).
Proof.
  intros Ik Ll.
  assert (A8 : forall n, 0 <= n <= 255 -> is_value a (IZR n) ->
    is_value (@fmul f32 (F32 o) (@c01 f32 (F32 o) (@fdiv f32 (F32 o) a (@fz f32 (F32 o) 255))) (@fz f32 (F32 o) 255)) (IZR n)).
  { intros n Hn [Fa Va].
    pose proof (byte_check_ok n Hn) as B. unfold byte_check in B. cbv zeta in B.
    unfold c01. rewrite clamp_F32, !fz32. cbn [fmul fdiv F32].
    destruct (ofZ32 n) as [Fn Vn]; [unfold small; lia|].
    set (x := normalize n 0 false) in *.
    assert (Q : Bdiv mode_NE a (lit32 (inject_Z 255)) = Bdiv mode_NE x (lit32 (inject_Z 255)) \/ n = 0).
    { destruct (Z.eq_dec n 0) as [Z0|Z0]; auto. left. f_equal. apply B2R_Bsign_inj; auto; [congruence|].
      assert (P : (0 < IZR n)%R) by (apply IZR_lt; lia).
      change (B2R a) with (fval a) in Va. rewrite (Bsign_pos a), (Bsign_pos x); auto; [rewrite Vn|rewrite Va]; exact P. }
    destruct Q as [->|Z0].
    - apply andb_prop in B. destruct B as [B1 B2]. rewrite Beqb_fin in B1 by assumption.
      split; auto. destruct (Req_bool_spec (fval (Bmult mode_NE (clamp32 (Bdiv mode_NE x (lit32 (inject_Z 255))) (lit32 (inject_Z 1)) (lit32 (inject_Z 0))) (lit32 (inject_Z 255)))) (fval x)); [|discriminate].
      congruence.
    - subst n.
      destruct (lit32_int 255) as [V2 F2]; [sm|]. destruct (lit32_int 0) as [V0 F0]; [sm|]. destruct (lit32_int 1) as [V1 F1]; [sm|].
      change (B2R a) with (fval a) in Va.
      destruct (Bdiv_ok a (lit32 (inject_Z 255)) 0 1 Fa F2) as [D1 D2]; try sm; [rewrite V2; lra|rewrite Va, V2; simpl; lra|].
      assert (DV : fval (Bdiv mode_NE a (lit32 (inject_Z 255))) = 0%R).
      { rewrite D2, Va, V2. replace (0 / 255)%R with 0%R by lra. apply rnd32_0. }
      rewrite clamp32_id; auto; [|rewrite V0, V1, DV; lra].
      destruct (Bmult_ok (Bdiv mode_NE a (lit32 (inject_Z 255))) (lit32 (inject_Z 255)) 0 255) as [M1 M2]; auto; try sm.
      { rewrite DV, V2. simpl; lra. }
      split; auto. change (fval (Bmult mode_NE (Bdiv mode_NE a (lit32 (inject_Z 255))) (lit32 (inject_Z 255))) = 0%R).
      rewrite M2, DV, Rmult_0_l. apply rnd32_0. }
  assert (CS : forall (c : color f32) i x y, nth_error (comps c) i = Some y -> stored k i x y -> comp_sat c i (stored k i x)) by (intros; eexists; eauto).
  unfold all_types in Ik. cbn [In] in Ik.
  repeat match type of Ik with _ \/ _ => destruct Ik as [Ik|Ik] end; try contradiction; subst k;
  cbn [arity] in Ll;
  (destruct l as [|x [|y [|z [|w [|? l]]]]]; try discriminate Ll); cbn [ctor_of];
  rewrite ?rgb_truecolor_nf, ?rgb_deepcolor_nf, ?grey_truecolor_nf, ?grey_deepcolor_nf, ?cmyk_nf,
    ?(hsi_nf (AL := F32Laws o)), ?(hsv_nf (AL := F32Laws o)), ?(hsl_nf (AL := F32Laws o)), ?(hcy_nf (AL := F32Laws o)), ?xyz_nf, ?xyy_nf, ?cieluv_nf, ?lab_nf, ?lch_ab_nf, ?lch_uv_nf;
  (eexists; split; [reflexivity|]; do 4 (split; [reflexivity|]); split; [|split];
  [ intros i v Hv; destruct i as [|[|[|[|i]]]]; cbn [nth_error] in Hv; try (destruct i; discriminate Hv); try discriminate Hv;
     injection Hv as <-; (eapply CS; [reflexivity|st])
  | first [discriminate | intros _; reflexivity]
  | first [discriminate | intros _ n Hn Va; exact (A8 n Hn Va)]]).
Qed.

(** Named setters *)
Lemma named_set_stores o (c : color f32) v i : wf_color (AF := F32 o) (cls c) c -> (i < arity (cls c))%nat ->
  exists c', @named_set f32 (F32 o) (cls c) c v i = Ok c' /\ cls c' = cls c /\ ty c' = ty c /\
    m_alpha c' = m_alpha c /\ rgb_space c' = rgb_space c /\ List.length (comps c') = List.length (comps c) /\
    comp_sat c' i (stored (cls c) i v) /\
    forall j, j <> i -> nth_error (comps c') j = nth_error (comps c) j.
Proof.
  intros W I. pose proof (wf_len _ _ W) as L. pose proof (wf_max _ _ W) as MX. pose proof (wf_min _ _ W) as MN.
  assert (G : forall j x mx mn, j = Z.of_nat i -> exists c', @set_component_lim f32 (F32 o) c x j mx mn = Ok c' /\
    cls c' = cls c /\ ty c' = ty c /\ m_alpha c' = m_alpha c /\ rgb_space c' = rgb_space c /\
    List.length (comps c') = List.length (comps c) /\
    nth_error (comps c') i = Some (@clamp f32 (F32 o) x mx mn) /\
    forall j, j <> i -> nth_error (comps c') j = nth_error (comps c) j).
  { intros j x mx mn ->. unfold set_component_lim.
    assert (B : bad_index c (Z.of_nat i) = false).
    { destruct (bad_index c (Z.of_nat i)) eqn:B; auto. apply bad_index_iff in B. rewrite L in B. lia. }
    rewrite B. eexists. split; [reflexivity|]. cbn [with_comps cls ty m_alpha rgb_space comps].
    rewrite Nat2Z.id. do 4 (split; [reflexivity|]). split; [apply upd_length|].
    split; [apply upd_nth_same; rewrite L; exact I|]. intros j Hj. apply upd_nth_other. auto. }
  assert (P : forall x mx mn, stored (cls c) i v (@clamp f32 (F32 o) x mx mn) ->
    exists c', @set_component_lim f32 (F32 o) c x (Z.of_nat i) mx mn = Ok c' /\
    cls c' = cls c /\ ty c' = ty c /\ m_alpha c' = m_alpha c /\ rgb_space c' = rgb_space c /\
    List.length (comps c') = List.length (comps c) /\ comp_sat c' i (stored (cls c) i v) /\
    forall j, j <> i -> nth_error (comps c') j = nth_error (comps c) j).
  { intros x mx mn S. destruct (G (Z.of_nat i) x mx mn eq_refl) as [c' [E [E1 [E2 [E3 [E4 [E5 [E6 E7]]]]]]]].
    exists c'. do 6 (split; auto). split; auto. eexists; split; [exact E6|exact S]. }
  assert (HUE : wraps (cls c) i = true -> exists h, @wrap_negative f32 (F32 o) hue_fuel (@ffmod f32 (F32 o) v (@fz f32 (F32 o) 360)) = Ok h /\
     stored (cls c) i v (@clamp f32 (F32 o) h (@fz f32 (F32 o) 359) (@fz f32 (F32 o) 0))).
  { intros Wr. destruct (wrap_total (AF := F32 o) v) as [h E]. exists h. split; auto.
    assert (i = 0%nat) by (clear - Wr; destruct (cls c); try discriminate Wr; destruct i; auto; discriminate Wr). subst i.
    pose proof (stored_hue o (cls c) v Wr) as S. unfold hue_norm in S. rewrite E in S. exact S. }
  destruct (cls c) eqn:K; cbn [arity] in I; destruct i as [|[|[|[|i]]]]; try lia;
  cbn [named_set];
  try (destruct (HUE eq_refl) as [h [Eh Sh]]; unfold set_hue; rewrite Eh; cbn [obind]; apply P; exact Sh);
  unfold set_component; rewrite ?MX, ?MN; cbn [limits fst snd];
  apply P; apply stored_clamp; reflexivity.
Qed.

(** Alpha setters *)
Lemma alpha_setter_stores o (c : color f32) a :
  (eight_bit (cls c) = false -> is_finite a = true ->
     is_value (@alpha f32 (F32 o) (@alpha_set f32 (F32 o) c a)) (Rmax (Rmin (B2R a) 1) 0)) /\
  (eight_bit (cls c) = false -> in_interval 0 1 a -> @alpha f32 (F32 o) (@alpha_set f32 (F32 o) c a) = a).
Proof.
  assert (E : eight_bit (cls c) = false -> @alpha f32 (F32 o) (@alpha_set f32 (F32 o) c a) = @c01 f32 (F32 o) a).
  { intros N. destruct (alpha_set_fields (AF := F32 o) c a) as [K _]. unfold alpha at 1. rewrite K. unfold alpha_set.
    destruct (cls c); try discriminate; reflexivity. }
  split; intros N H; rewrite (E N).
  - apply clamp_val; auto; sm || lia.
  - apply (clamp_id (AF := F32 o)); try sm. apply within_in_interval; auto; sm.
Qed.

Lemma alpha_setter_bytes o (c : color f32) (a : f32) n : eight_bit (cls c) = true -> 0 <= n <= 255 -> is_value a (IZR n) ->
  is_value (@alpha f32 (F32 o) (@alpha_set f32 (F32 o) c a)) (IZR n).
Proof.
  intros N Hn Va.
  assert (E : @alpha f32 (F32 o) (@alpha_set f32 (F32 o) c a) =
    @fmul f32 (F32 o) (@c01 f32 (F32 o) (@fdiv f32 (F32 o) a (@fz f32 (F32 o) 255))) (@fz f32 (F32 o) 255)).
  { destruct (alpha_set_fields (AF := F32 o) c a) as [K _]. unfold alpha at 1. rewrite K. unfold alpha_set.
    destruct (cls c); try discriminate; reflexivity. }
  rewrite E.
  destruct (ctor_stores o GREY_TRUE [a] a None) as [c' [E' [_ [_ [_ [_ [_ [_ A]]]]]]]]; [simpl; tauto|reflexivity|].
  cbn [ctor_of] in E'. rewrite grey_truecolor_nf in E'. injection E' as <-.
  exact (A eq_refl n Hn Va).
Qed.

Lemma ctor_constructed {F} {AF : Arith F} k (l : list F) a sp c : ctor_of k l a sp = Ok c -> constructed c.
Proof.
  destruct k; cbn [ctor_of]; (destruct l as [|x [|y [|z [|w [|? l]]]]]; try discriminate); intros E;
  [eapply mk_rgb_true|eapply mk_rgb_deep|eapply mk_grey_true|eapply mk_grey_deep|eapply mk_cmyk|eapply mk_hsi
  |eapply mk_hsv|eapply mk_hsl|eapply mk_hcy|eapply mk_xyz|eapply mk_xyy|eapply mk_cieluv|eapply mk_lab
  |eapply mk_lch_ab|eapply mk_lch_uv]; exact E.
Qed.

(** A reachable colour of every type, with a component that is strictly inside its range. *)
Lemma example_color o k : In k all_types -> exists c, @reachable f32 (F32 o) c /\ cls c = k /\ ty c = k /\
  in_interval 0 1 (m_alpha c) /\ rgb_space c = Some 3%nat /\
  comp_sat c 0 (fun x => is_value x (1 / 2)).
Proof.
  intros I. destruct half_val as [H V].
  destruct (fz_val o 1) as [F1 V1]; [sm|].
  destruct (ctor_stores o k (repeat (lit32 (1 # 2)) (arity k)) (@fz f32 (F32 o) 1) (Some 3%nat) I) as [c [E [K [T [S [L [C [A _]]]]]]]].
  { apply repeat_length. }
  pose proof (r_new _ (ctor_constructed _ _ _ _ _ E)) as RC.
  exists c. split; auto. split; auto. split; auto. split; [|split; auto].
  - destruct (eight_bit k) eqn:B.
    + destruct (reachable_inv (AF := F32 o) _ RC) as [_ AO]. rewrite K in AO. specialize (AO B).
      apply (within_in_interval o); try sm. exact AO.
    + specialize (A eq_refl). unfold alpha in A. rewrite K in A.
      assert (M : m_alpha c = @fz f32 (F32 o) 1) by (clear - A B; destruct k; try discriminate B; exact A).
      rewrite M. split; auto. rewrite V1. lra.
  - destruct (C 0%nat (lit32 (1 # 2))) as [y [Ny [Sy _]]].
    { destruct k; try reflexivity. exfalso. clear - I. revert I. simpl. intuition discriminate. }
    exists y. split; auto. change (B2R (lit32 (1 # 2))) with (fval (lit32 (1 # 2))) in Sy. rewrite V in Sy. apply Sy. split; auto.
    rewrite V. destruct k; cbn [comp_range fst snd]; try lra. exfalso. clear - I. revert I. cbn. intuition discriminate.
Qed.

Lemma reachable_set_stores o (c : color f32) v i : @reachable f32 (F32 o) c -> (i < arity (cls c))%nat ->
  exists c', @named_set f32 (F32 o) (cls c) c v i = Ok c' /\ cls c' = cls c /\ ty c' = ty c /\
    m_alpha c' = m_alpha c /\ rgb_space c' = rgb_space c /\ List.length (comps c') = List.length (comps c) /\
    comp_sat c' i (stored (cls c) i v) /\
    forall j, j <> i -> nth_error (comps c') j = nth_error (comps c) j.
Proof. intros H. apply named_set_stores. apply (reachable_inv (AF := F32 o) _ H). Qed.
