(** * Invariants of colour objects *)
From Coq Require Import ZArith QArith Reals Lra Lia List Bool Ascii.
From Flocq Require Import Core IEEE754.BinarySingleNaN.
From Verif Require Import Arith Outcome ColorModel HexModel GammaModel MatrixModel SpaceModel Heap.
From Verif Require Import Spec History F32 F32Facts RArith Laws.
Import ListNotations.
Local Open Scope Z_scope.

(** ** Lists *)
Lemma upd_length {A} i (v : A) l : length (upd i v l) = length l.
Proof. revert i. induction l; intros [|i]; simpl; auto. Qed.

Lemma upd_nth_same {A} i (v : A) l : (i < length l)%nat -> nth_error (upd i v l) i = Some v.
Proof. revert i. induction l; intros [|i]; simpl; intros; try lia; auto. apply IHl. lia. Qed.

Lemma upd_nth_other {A} i j (v : A) l : i <> j -> nth_error (upd i v l) j = nth_error l j.
Proof. revert i j. induction l; intros [|i] [|j]; simpl; intros; auto; try lia. Qed.

Lemma upd_id {A} i (v : A) l : nth_error l i = Some v -> upd i v l = l.
Proof.
  revert i. induction l as [|x l IH]; intros [|i] H; simpl in *; auto; try congruence.
  rewrite IH; auto.
Qed.

Lemma small_limits k : small (fst (limits k)) /\ small (snd (limits k)) /\ fst (limits k) <= snd (limits k).
Proof. unfold small. destruct k; simpl; lia. Qed.

Lemma small_range k i : small (fst (comp_range k i)) /\ small (snd (comp_range k i)) /\ fst (comp_range k i) <= snd (comp_range k i).
Proof. unfold small. destruct k; simpl; try lia; destruct i as [|[|[|i]]]; simpl; lia. Qed.

Section Generic.
Context {F : Type} {AF : Arith F} {AL : ArithLaws F}.

(** ** Setting a component *)

Lemma set_lim_spec (c : color F) v i mx mn c' :
  set_component_lim c v i mx mn = Ok c' ->
  0 <= i < Z.of_nat (length (comps c)) /\
  c' = with_comps c (upd (Z.to_nat i) (clamp v mx mn) (comps c)).
Proof.
  unfold set_component_lim, bad_index. intros H.
  destruct (i <? 0) eqn:A; simpl in H; try discriminate.
  destruct (Z.of_nat (length (comps c)) <=? i) eqn:B; simpl in H; try discriminate.
  inversion H. split; auto. lia.
Qed.

Lemma wf_upd k (c : color F) i v lo hi :
  wf_color k c -> (i < arity k)%nat -> small lo -> small hi -> lo <= hi ->
  fst (comp_range k i) <= lo -> hi <= snd (comp_range k i) ->
  wf_color k (with_comps c (upd i (clamp v (fz hi) (fz lo)) (comps c))).
Proof.
  intros [W0 W1 W2 W3 W4 W5 W6] Hi Sl Sh L H1 H2. constructor; cbn [cls ty comps m_max m_min with_comps]; auto.
  - rewrite upd_length. auto.
  - intros j x Hj. destruct (Nat.eq_dec i j) as [->|N].
    + rewrite upd_nth_same in Hj by lia. injection Hj as <-.
      destruct (small_range k j) as [A [B _]].
      apply (within_weaken _ lo hi); auto. apply clamp_within; auto.
    + rewrite upd_nth_other in Hj by assumption. auto.
Qed.

(** The named setters keep a colour well-formed. *)
Lemma named_set_wf k (c : color F) v i :
  wf_color k c -> (i < arity k)%nat ->
  exists c', named_set k c v i = Ok c' /\ wf_color k c' /\ m_alpha c' = m_alpha c /\ rgb_space c' = rgb_space c.
Proof.
  intros W Hi.
  assert (SC : forall lo hi w, small lo -> small hi -> lo <= hi ->
     fst (comp_range k i) <= lo -> hi <= snd (comp_range k i) ->
     exists c', set_component_lim c w (Z.of_nat i) (fz hi) (fz lo) = Ok c' /\ wf_color k c' /\
       m_alpha c' = m_alpha c /\ rgb_space c' = rgb_space c).
  { intros lo hi w Sl Sh L A B. unfold set_component_lim, bad_index.
    replace (Z.of_nat i <? 0) with false by (symmetry; apply Z.ltb_ge; lia).
    replace (Z.of_nat (length (comps c)) <=? Z.of_nat i) with false
      by (symmetry; apply Z.leb_gt; rewrite (wf_len _ _ W); lia).
    simpl. eexists. split; [reflexivity|]. split; [|split; reflexivity].
    rewrite Nat2Z.id. apply wf_upd; auto. }
  destruct (small_limits k) as [S1 [S2 S3]].
  assert (HUE : k = HSI \/ k = HSV \/ k = HSL \/ k = HCY -> i = O ->
     exists c', set_hue c v = Ok c' /\ wf_color k c' /\ m_alpha c' = m_alpha c /\ rgb_space c' = rgb_space c).
  { intros K ->. unfold set_hue. destruct (wrap_total v) as [h' E]. rewrite E. simpl.
    apply (SC 0 359 h'); unfold small; try lia; destruct K as [->|[->|[->| ->]]]; simpl; lia. }
  unfold named_set, set_component. rewrite (wf_max _ _ W), (wf_min _ _ W).
  destruct k; try (simpl in Hi; lia);
    destruct i as [|[|[|[|i]]]]; try (simpl in Hi; lia);
    try (apply SC; auto; simpl; lia);
    try (apply HUE; tauto);
    try (match goal with |- exists c', set_component_lim c v ?z (fz ?hi) (fz ?lo) = _ /\ _ =>
        apply (SC lo hi v); unfold small; simpl; lia end).
Qed.

(** The generic setter by index. *)
Lemma index_set_wf k (c : color F) v i c' :
  wf_color k c -> (own_first_limit k = false \/ i <> 0) -> set_component c v i = Ok c' -> wf_color k c'.
Proof.
  intros W OF H. unfold set_component in H. apply set_lim_spec in H. destruct H as [Hi ->].
  rewrite (wf_max _ _ W), (wf_min _ _ W). rewrite (wf_len _ _ W) in Hi.
  destruct (small_limits k) as [S1 [S2 S3]].
  assert (N : i <> 0 -> Z.to_nat i <> O) by lia.
  apply wf_upd; auto; try lia.
  - destruct k; simpl in *; try lia; destruct (Z.to_nat i) as [|[|[|n]]] eqn:E; simpl; try lia;
      destruct OF; try discriminate; exfalso; apply N; auto.
  - destruct k; simpl in *; try lia; destruct (Z.to_nat i) as [|[|[|n]]] eqn:E; simpl; try lia;
      destruct OF; try discriminate; exfalso; apply N; auto.
Qed.

(** A freshly initialised object before its components are set satisfies everything
    but the ranges; setting all its components makes it well-formed. *)
Record pre_wf (k : ctype) (n : nat) (c : color F) : Prop := {
  pw_real : k <> UNDEFINED;
  pw_cls : cls c = k;
  pw_ty : ty c = k;
  pw_len : length (comps c) = arity k;
  pw_max : m_max c = fz (snd (limits k));
  pw_min : m_min c = fz (fst (limits k));
  pw_range : forall i x, (i < n)%nat -> nth_error (comps c) i = Some x ->
      within (fst (comp_range k i)) (snd (comp_range k i)) x
}.

Lemma pre_wf_done k c : pre_wf k (arity k) c -> wf_color k c.
Proof.
  intros [P0 P1 P2 P3 P4 P5 P6]. constructor; auto.
  intros i x H. apply P6; auto. rewrite <- P3. apply nth_error_Some. congruence.
Qed.

Lemma pre_wf_start k a sp : k <> UNDEFINED ->
  pre_wf k 0 (with_type (color_base_ctor k a sp (arity k) (fz (snd (limits k))) (fz (fst (limits k)))) k).
Proof.
  intros N. constructor; auto.
  - simpl. apply repeat_length.
  - intros i x H. lia.
Qed.

Lemma pre_upd k n (c : color F) v lo hi :
  pre_wf k n c -> (n < arity k)%nat -> small lo -> small hi -> lo <= hi ->
  fst (comp_range k n) <= lo -> hi <= snd (comp_range k n) ->
  pre_wf k (S n) (with_comps c (upd n (clamp v (fz hi) (fz lo)) (comps c))).
Proof.
  intros [W0 W1 W2 W3 W4 W5 W6] Hi Sl Sh L H1 H2. constructor; cbn [cls ty comps m_max m_min with_comps]; auto.
  - rewrite upd_length. auto.
  - intros j x Lj Hj. destruct (Nat.eq_dec n j) as [->|N].
    + rewrite upd_nth_same in Hj by lia. injection Hj as <-.
      destruct (small_range k j) as [A [B _]].
      apply (within_weaken _ lo hi); auto. apply clamp_within; auto.
    + rewrite upd_nth_other in Hj by assumption. apply W6; auto. lia.
Qed.

Lemma named_set_pre k (c : color F) v i :
  pre_wf k i c -> (i < arity k)%nat ->
  exists c', named_set k c v i = Ok c' /\ pre_wf k (S i) c' /\ m_alpha c' = m_alpha c /\ rgb_space c' = rgb_space c.
Proof.
  intros W Hi. 
  assert (SC : forall lo hi w, small lo -> small hi -> lo <= hi ->
     fst (comp_range k i) <= lo -> hi <= snd (comp_range k i) ->
     exists c', set_component_lim c w (Z.of_nat i) (fz hi) (fz lo) = Ok c' /\ pre_wf k (S i) c' /\
       m_alpha c' = m_alpha c /\ rgb_space c' = rgb_space c).
  { intros lo hi w Sl Sh L A B. unfold set_component_lim, bad_index.
    replace (Z.of_nat i <? 0) with false by (symmetry; apply Z.ltb_ge; lia).
    replace (Z.of_nat (length (comps c)) <=? Z.of_nat i) with false
      by (symmetry; apply Z.leb_gt; rewrite (pw_len _ _ _ W); lia).
    simpl. eexists. split; [reflexivity|]. split; [|split; reflexivity].
    rewrite Nat2Z.id. apply pre_upd; auto. }
  destruct (small_limits k) as [S1 [S2 S3]].
  assert (HUE : k = HSI \/ k = HSV \/ k = HSL \/ k = HCY -> i = O ->
     exists c', set_hue c v = Ok c' /\ pre_wf k (S i) c' /\ m_alpha c' = m_alpha c /\ rgb_space c' = rgb_space c).
  { intros K ->. unfold set_hue. destruct (wrap_total v) as [h' E]. rewrite E. simpl.
    apply (SC 0 359 h'); unfold small; try lia; destruct K as [->|[->|[->| ->]]]; simpl; lia. }
  unfold named_set, set_component. rewrite (pw_max _ _ _ W), (pw_min _ _ _ W).
  destruct k; try (simpl in Hi; lia);
    destruct i as [|[|[|[|i]]]]; try (simpl in Hi; lia);
    try (apply SC; auto; simpl; lia);
    try (apply HUE; tauto);
    try (match goal with |- exists c', set_component_lim c v ?z (fz ?hi) (fz ?lo) = _ /\ _ =>
        apply (SC lo hi v); unfold small; simpl; lia end).
Qed.

(** ** Constructors *)

Definition made (k : ctype) (a : F) (sp : option nat) (m : outcome (color F)) : Prop :=
  exists c, m = Ok c /\ wf_color k c /\ m_alpha c = a /\ rgb_space c = sp.

Lemma ctor3_made k mx mn x y z a sp :
  k <> UNDEFINED -> arity k = 3%nat -> mx = snd (limits k) -> mn = fst (limits k) ->
  made k a sp (ctor3 k (fz mx) (fz mn) x y z a sp).
Proof.
  intros N A -> ->. unfold ctor3.
  pose proof (pre_wf_start k a sp N) as P. rewrite A in P.
  destruct (named_set_pre k _ x 0 P) as [c1 [E1 [P1 [A1 S1]]]]; [lia|]. rewrite E1. simpl.
  destruct (named_set_pre k _ y 1 P1) as [c2 [E2 [P2 [A2 S2]]]]; [lia|]. rewrite E2. simpl.
  destruct (named_set_pre k _ z 2 P2) as [c3 [E3 [P3 [A3 S3]]]]; [lia|].
  exists c3. split; [exact E3|]. split; [|split].
  - apply pre_wf_done. rewrite A. exact P3.
  - rewrite A3, A2, A1. reflexivity.
  - rewrite S3, S2, S1. reflexivity.
Qed.

Lemma wf_alpha_set k (c : color F) a : wf_color k c -> wf_color k (alpha_set c a).
Proof.
  intros [W0 W1 W2 W3 W4 W5 W6]. unfold alpha_set.
  assert (B : forall b, wf_color k (base_alpha_set c b)) by (constructor; auto).
  destruct (cls c); apply B.
Qed.

Lemma wf_space k (c : color F) sp : wf_color k c -> wf_color k (set_rgb_color_space c sp).
Proof. intros [W0 W1 W2 W3 W4 W5 W6]. constructor; auto. Qed.

Lemma rgb_deepcolor_made r g b a sp : made RGB_DEEP a sp (rgb_deepcolor r g b a sp).
Proof. apply (ctor3_made RGB_DEEP 1 0); auto; discriminate. Qed.
Lemma rgb_deepcolor1_made v a sp : made RGB_DEEP a sp (rgb_deepcolor1 v a sp).
Proof. apply rgb_deepcolor_made. Qed.

Definition alpha8 (a : F) : F := clamp (fdiv a (fz 255)) (fz 1) (fz 0).

Lemma rgb_truecolor_made r g b a sp : made RGB_TRUE (alpha8 a) sp (rgb_truecolor r g b a sp).
Proof.
  destruct (ctor3_made RGB_TRUE 255 0 r g b a sp) as [c [E [W [A S]]]]; auto; try discriminate.
  unfold ctor3 in E. apply obind_ok in E. destruct E as [c1 [E1 E]].
  apply obind_ok in E. destruct E as [c2 [E2 E]].
  unfold rgb_truecolor. rewrite E1. cbn [obind]. rewrite E2. cbn [obind]. rewrite E. cbn [obind].
  exists (alpha_set c a). split; auto. split; [apply wf_alpha_set, W|].
  unfold alpha_set. rewrite (wf_cls _ _ W). split; auto.
Qed.
Lemma rgb_truecolor1_made v a sp : made RGB_TRUE (alpha8 a) sp (rgb_truecolor1 v a sp).
Proof. apply rgb_truecolor_made. Qed.

Lemma grey_truecolor_made v a sp : made GREY_TRUE (alpha8 a) sp (grey_truecolor v a sp).
Proof.
  assert (P : pre_wf GREY_TRUE 0 (with_type (color_base_ctor GREY_TRUE a sp 1 (fz 255) (fz 0)) GREY_TRUE))
    by (apply (pre_wf_start GREY_TRUE); discriminate).
  destruct (named_set_pre GREY_TRUE _ v 0 P) as [c [E [W [A S]]]]; [simpl; lia|].
  unfold grey_truecolor. rewrite E. cbn [obind].
  exists (alpha_set c a). split; auto. apply pre_wf_done in W. split; [apply wf_alpha_set, W|].
  unfold alpha_set. rewrite (wf_cls _ _ W). split; auto.
Qed.

Lemma grey_deepcolor_made v a sp : made GREY_DEEP a sp (grey_deepcolor v a sp).
Proof.
  assert (P : pre_wf GREY_DEEP 0 (with_type (color_base_ctor GREY_DEEP a sp 1 (fz 1) (fz 0)) GREY_DEEP))
    by (apply (pre_wf_start GREY_DEEP); discriminate).
  destruct (named_set_pre GREY_DEEP _ v 0 P) as [c [E [W [A S]]]]; [simpl; lia|].
  unfold grey_deepcolor. exists c. split; auto. split; [apply pre_wf_done, W|]. auto.
Qed.

Lemma cmyk_made x y z w a sp : made CMYK a sp (cmyk x y z w a sp).
Proof.
  assert (P : pre_wf CMYK 0 (with_type (color_base_ctor CMYK a sp 4 (fz 1) (fz 0)) CMYK))
    by (apply (pre_wf_start CMYK); discriminate).
  unfold cmyk.
  destruct (named_set_pre CMYK _ x 0 P) as [c1 [E1 [P1 [A1 S1]]]]; [simpl; lia|]. rewrite E1. cbn [obind].
  destruct (named_set_pre CMYK _ y 1 P1) as [c2 [E2 [P2 [A2 S2]]]]; [simpl; lia|]. rewrite E2. cbn [obind].
  destruct (named_set_pre CMYK _ z 2 P2) as [c3 [E3 [P3 [A3 S3]]]]; [simpl; lia|]. rewrite E3. cbn [obind].
  destruct (named_set_pre CMYK _ w 3 P3) as [c4 [E4 [P4 [A4 S4]]]]; [simpl; lia|].
  exists c4. split; auto. split; [apply pre_wf_done, P4|].
  split.
  - rewrite A4, A3, A2, A1. reflexivity.
  - rewrite S4, S3, S2, S1. reflexivity.
Qed.

Ltac c3 k mx mn := apply (ctor3_made k mx mn); auto; discriminate.
Lemma hsi_made x y z a sp : made HSI a sp (hsi x y z a sp). Proof. c3 HSI 1 0. Qed.
Lemma hsv_made x y z a sp : made HSV a sp (hsv x y z a sp). Proof. c3 HSV 1 0. Qed.
Lemma hsl_made x y z a sp : made HSL a sp (hsl x y z a sp). Proof. c3 HSL 1 0. Qed.
Lemma hcy_made x y z a sp : made HCY a sp (hcy x y z a sp). Proof. c3 HCY 1 0. Qed.
Lemma xyz_made x y z a sp : made XYZ a sp (xyz x y z a sp). Proof. c3 XYZ 100 0. Qed.
Lemma xyy_made x y z a sp : made XYY a sp (xyy x y z a sp). Proof. c3 XYY 100 0. Qed.
Lemma cieluv_made x y z a sp : made CIELUV a sp (cieluv x y z a sp). Proof. c3 CIELUV 100 (-100). Qed.
Lemma lab_made x y z a sp : made LAB a sp (lab x y z a sp). Proof. c3 LAB 128 (-128). Qed.
Lemma lch_ab_made x y z a sp : made LCH_AB a sp (lch_ab x y z a sp). Proof. c3 LCH_AB 100 0. Qed.
Lemma lch_uv_made x y z a sp : made LCH_UV a sp (lch_uv x y z a sp). Proof. c3 LCH_UV 100 0. Qed.

Lemma truecolor_fill_made a r g b sp : made RGB_TRUE (alpha8 (fofZ a)) sp (truecolor_fill a r g b sp).
Proof.
  unfold truecolor_fill.
  set (c0 := alpha_set _ _).
  assert (P : pre_wf RGB_TRUE 0 c0).
  { destruct (pre_wf_start RGB_TRUE (fz 0) sp) as [P0 P1 P2 P3 P4 P5 P6]; [discriminate|].
    constructor; auto; intros; lia. }
  destruct (named_set_pre RGB_TRUE _ (fofZ r) 0 P) as [c1 [E1 [P1 [A1 S1]]]]; [simpl; lia|]. rewrite E1. cbn [obind].
  destruct (named_set_pre RGB_TRUE _ (fofZ g) 1 P1) as [c2 [E2 [P2 [A2 S2]]]]; [simpl; lia|]. rewrite E2. cbn [obind].
  destruct (named_set_pre RGB_TRUE _ (fofZ b) 2 P2) as [c3 [E3 [P3 [A3 S3]]]]; [simpl; lia|].
  exists c3. split; auto. split; [apply pre_wf_done, P3|]. split.
  - rewrite A3, A2, A1. reflexivity.
  - rewrite S3, S2, S1. reflexivity.
Qed.

Lemma made_inv k a sp m c : made k a sp m -> m = Ok c -> wf_color k c /\ m_alpha c = a /\ rgb_space c = sp.
Proof. intros [c' [E H]] E'. rewrite E in E'. inversion E'; subst. exact H. Qed.

Lemma alpha8_ok (c : color F) a : m_alpha c = alpha8 a -> alpha_ok c.
Proof. intros H. unfold alpha_ok. rewrite H. apply clamp_within; unfold small; lia. Qed.

(** Every constructed colour is well-formed; the alpha of the 8-bit classes is in range. *)
Definition inv (c : color F) : Prop :=
  wf_color (cls c) c /\ (eight_bit (cls c) = true -> alpha_ok c).

Lemma made_inv' k a sp m c : made k a sp m -> m = Ok c -> (eight_bit k = true -> alpha_ok c) -> inv c.
Proof.
  intros M E H. destruct (made_inv _ _ _ _ _ M E) as [W [A S]]. unfold inv.
  rewrite (wf_cls _ _ W). auto.
Qed.

Lemma constructed_inv c : constructed c -> inv c.
Proof.
  intros H; destruct H as [r g b a sp c E|v a sp c E|s sp c E|n sp c E|r g b a sp c E|v a sp c E|v a sp c E|v a sp c E|x y z k a sp c E|
     x y z a sp c E|x y z a sp c E|x y z a sp c E|x y z a sp c E|x y z a sp c E|x y z a sp c E|x y z a sp c E|x y z a sp c E|x y z a sp c E|x y z a sp c E].
  - pose proof (rgb_truecolor_made r g b a sp) as M. apply (made_inv' _ _ _ _ _ M E). intros _.
    destruct (made_inv _ _ _ _ _ M E) as [_ [A _]]. apply (alpha8_ok _ _ A).
  - pose proof (rgb_truecolor1_made v a sp) as M. apply (made_inv' _ _ _ _ _ M E). intros _.
    destruct (made_inv _ _ _ _ _ M E) as [_ [A _]]. apply (alpha8_ok _ _ A).
  - assert (T : exists a r g b, truecolor_fill a r g b sp = Ok c).
    { unfold rgb_truecolor_hex in E.
      destruct (negb (regex_ok s)); try discriminate.
      set (s' := match s with [] => s | c0 :: t => if is_hash c0 then t else s end) in E.
      destruct (Nat.eqb (length s') 6).
      - destruct (scan_many 3 s') as [|r [|g [|b [|]]]]; try discriminate. eauto.
      - destruct (Nat.eqb (length s') 8); try discriminate.
        destruct (scan_many 4 s') as [|a [|r [|g [|b [|]]]]]; try discriminate. eauto. }
    destruct T as [a [r [g [b T]]]].
    pose proof (truecolor_fill_made a r g b sp) as M. apply (made_inv' _ _ _ _ _ M T). intros _.
    destruct (made_inv _ _ _ _ _ M T) as [_ [A _]]. apply (alpha8_ok _ _ A).
  - unfold rgb_truecolor_int in E.
    match type of E with truecolor_fill ?a ?r ?g ?b ?sp = _ => pose proof (truecolor_fill_made a r g b sp) as M end.
    apply (made_inv' _ _ _ _ _ M E). intros _.
    destruct (made_inv _ _ _ _ _ M E) as [_ [A _]]. apply (alpha8_ok _ _ A).
  - apply (made_inv' _ _ _ _ _ (rgb_deepcolor_made _ _ _ _ _) E); discriminate.
  - apply (made_inv' _ _ _ _ _ (rgb_deepcolor1_made _ _ _) E); discriminate.
  - pose proof (grey_truecolor_made v a sp) as M. apply (made_inv' _ _ _ _ _ M E). intros _.
    destruct (made_inv _ _ _ _ _ M E) as [_ [A _]]. apply (alpha8_ok _ _ A).
  - apply (made_inv' _ _ _ _ _ (grey_deepcolor_made _ _ _) E); discriminate.
  - apply (made_inv' _ _ _ _ _ (cmyk_made _ _ _ _ _ _) E); discriminate.
  - apply (made_inv' _ _ _ _ _ (hsi_made _ _ _ _ _) E); discriminate.
  - apply (made_inv' _ _ _ _ _ (hsv_made _ _ _ _ _) E); discriminate.
  - apply (made_inv' _ _ _ _ _ (hsl_made _ _ _ _ _) E); discriminate.
  - apply (made_inv' _ _ _ _ _ (hcy_made _ _ _ _ _) E); discriminate.
  - apply (made_inv' _ _ _ _ _ (xyz_made _ _ _ _ _) E); discriminate.
  - apply (made_inv' _ _ _ _ _ (xyy_made _ _ _ _ _) E); discriminate.
  - apply (made_inv' _ _ _ _ _ (cieluv_made _ _ _ _ _) E); discriminate.
  - apply (made_inv' _ _ _ _ _ (lab_made _ _ _ _ _) E); discriminate.
  - apply (made_inv' _ _ _ _ _ (lch_ab_made _ _ _ _ _) E); discriminate.
  - apply (made_inv' _ _ _ _ _ (lch_uv_made _ _ _ _ _) E); discriminate.
Qed.

(** ** Copies and assignment *)

Lemma alpha_set_fields (c : color F) a :
  cls (alpha_set c a) = cls c /\ ty (alpha_set c a) = ty c /\ comps (alpha_set c a) = comps c /\
  m_max (alpha_set c a) = m_max c /\ m_min (alpha_set c a) = m_min c /\ rgb_space (alpha_set c a) = rgb_space c.
Proof. unfold alpha_set. destruct (cls c) eqn:E; unfold base_alpha_set, with_alpha; simpl; auto 10. Qed.

Lemma alpha_set_ok (c : color F) a : alpha_ok (alpha_set c a).
Proof.
  unfold alpha_ok, alpha_set. assert (S0 : small 0) by (unfold small; lia). assert (S1 : small 1) by (unfold small; lia).
  destruct (cls c); unfold base_alpha_set, with_alpha; cbn [m_alpha]; apply clamp_within; auto; lia.
Qed.

Lemma copy_ctor_fields k (c : color F) :
  cls (copy_ctor k c) = k /\ ty (copy_ctor k c) = ty c /\ comps (copy_ctor k c) = comps c /\
  m_max (copy_ctor k c) = m_max c /\ m_min (copy_ctor k c) = m_min c /\ rgb_space (copy_ctor k c) = rgb_space c.
Proof.
  unfold copy_ctor. set (c0 := with_comps _ _).
  destruct (alpha_set_fields c0 (alpha c)) as [A [B [C [D [E G]]]]]. rewrite A, B, C, D, E, G. auto 10.
Qed.

Lemma copy_wf k (c : color F) : wf_color k c -> wf_color k (copy_ctor k c).
Proof.
  intros [W0 W1 W2 W3 W4 W5 W6]. destruct (copy_ctor_fields k c) as [A [B [C [D [E G]]]]].
  constructor; try congruence. rewrite C. exact W6.
Qed.

Lemma from_base_wf k (c c' : color F) : wf_color (cls c) c -> from_base_ctor k c = Ok c' ->
  wf_color k c' /\ k = cls c /\ eight_bit k = false.
Proof.
  intros [W0 W1 W2 W3 W4 W5 W6] H. unfold from_base_ctor in H.
  unfold ctype_eqb in H. destruct (ctype_eq_dec (ty c) k) as [E|]; try discriminate.
  destruct (Nat.eqb_spec (length (comps c)) (from_base_size k)) as [L|]; try discriminate.
  cbn [andb] in H. inversion H; subst c'. assert (K : k = cls c) by congruence. rewrite <- K in *.
  split; [constructor; auto|]. split; auto. rewrite W3 in L. destruct k; auto; discriminate.
Qed.

Lemma assign_wf k (x y : color F) : wf_color k x -> wf_color k y -> wf_color k (assign x y).
Proof.
  intros [W0 W1 W2 W3 W4 W5 W6] [V0 V1 V2 V3 V4 V5 V6]. constructor; auto.
Qed.

Lemma correct_with_wf k curve (c c' : color F) h h' :
  wf_color k c -> own_first_limit k = false -> correct_with curve c h = (Ok c', h') ->
  wf_color k c' /\ m_alpha c' = m_alpha c /\ rgb_space c' = rgb_space c /\ h' = h.
Proof.
  intros W OF H. unfold correct_with in H.
  destruct (comps c) as [|x l] eqn:E.
  - inversion H; subst. auto.
  - unfold bind, load_gamma, load_space in H.
    destruct (rgb_space c) as [sp|] eqn:ES; try discriminate. unfold bind in H.
    destruct (nth_error (spaces h) sp) as [s|]; try discriminate.
    destruct (s_gamma s) as [g|]; try discriminate.
    unfold ret in H.
    inversion H; subst. cbn [m_alpha rgb_space with_comps]. split; [|auto].
    destruct W as [W0 W1 W2 W3 W4 W5 W6]. rewrite E in *.
      constructor; cbn [cls ty comps m_max m_min with_comps]; auto.
      * rewrite <- W3. simpl. rewrite map_length. reflexivity.
      * intros i y Hy.
        change (nth_error (map (fun v : F => clamp (curve g v) (m_max c) (m_min c)) (x :: l)) i = Some y) in Hy.
        rewrite nth_error_map in Hy. destruct (nth_error (x :: l) i) as [v|] eqn:N; try discriminate.
        cbn [option_map] in Hy. injection Hy as <-. rewrite W4, W5.
        destruct (small_limits k) as [S1 [S2 S3]]. destruct (small_range k i) as [S4 [S5 S6]].
        apply (within_weaken _ (fst (limits k)) (snd (limits k))); auto.
        -- destruct k; simpl in *; try discriminate; try lia; destruct i as [|[|[|]]]; simpl; lia.
        -- destruct k; simpl in *; try discriminate; try lia; destruct i as [|[|[|]]]; simpl; lia.
        -- apply clamp_within; auto.
Qed.

Lemma named_set_fields k (c c' : color F) v i : named_set k c v i = Ok c' -> cls c' = cls c /\ m_alpha c' = m_alpha c.
Proof.
  assert (S : forall w j mx mn, set_component_lim c w j mx mn = Ok c' -> cls c' = cls c /\ m_alpha c' = m_alpha c).
  { intros w j mx mn H. apply set_lim_spec in H. destruct H as [_ ->]. auto. }
  assert (Hh : set_hue c v = Ok c' -> cls c' = cls c /\ m_alpha c' = m_alpha c).
  { unfold set_hue. intros H. apply obind_ok in H. destruct H as [h [_ H]]. eapply S, H. }
  intros H. unfold named_set, set_component in H.
  destruct k; destruct i as [|[|[|[|i]]]]; try (eapply S; eassumption); auto.
Qed.

(** ** The invariant *)
Lemma reachable_inv c : reachable c -> inv c.
Proof.
  intros H. induction H as [c H|c H IH|k c c' H IH E|x y Hx IHx Hy IHy E|c v i c' H IH E|c v i c' H IH O E|c a H IH|c sp H IH|c h c' h' H IH O E|c h c' h' H IH O E].
  - apply constructed_inv, H.
  - destruct IH as [W A]. destruct (copy_ctor_fields (cls c) c) as [B _]. unfold inv. rewrite B. split.
    + apply copy_wf, W.
    + intros _. apply alpha_set_ok.
  - destruct IH as [W A]. destruct (from_base_wf _ _ _ W E) as [W' [K N]].
    unfold inv. rewrite (wf_cls _ _ W'). split; auto. congruence.
  - destruct IHx as [Wx Ax]. destruct IHy as [Wy Ay]. split.
    + change (cls (assign x y)) with (cls x). apply assign_wf; auto. rewrite E. auto.
    + exact Ax.
  - destruct IH as [W A]. destruct (named_set_fields _ _ _ _ _ E) as [K L].
    unfold inv. rewrite K. split.
    + destruct (Nat.lt_ge_cases i (arity (cls c))) as [Hi|Hi].
      * destruct (named_set_wf (cls c) c v i W Hi) as [c2 [E2 [W2 _]]]. congruence.
      * exfalso. assert (SL := wf_len _ _ W). unfold named_set, set_component in E.
        destruct (cls c); destruct i as [|[|[|[|i]]]]; simpl in Hi; try lia;
          unfold set_hue in E; try (apply obind_ok in E; destruct E as [h0 [_ E]]);
          apply set_lim_spec in E; rewrite SL in E; cbn [arity] in E; lia.
    + unfold alpha_ok. rewrite L. exact A.
  - destruct IH as [W A]. pose proof (index_set_wf _ _ _ _ _ W O E) as W'.
    unfold inv. rewrite (wf_cls _ _ W'). split; auto.
    unfold set_component in E. apply set_lim_spec in E. destruct E as [_ ->]. exact A.
  - destruct IH as [W A]. unfold inv. destruct (alpha_set_fields c a) as [K _]. rewrite K.
    split; [apply wf_alpha_set, W|]. intros _. apply alpha_set_ok.
  - destruct IH as [W A]. unfold inv. change (cls (set_rgb_color_space c sp)) with (cls c).
    split; [apply wf_space, W|]. exact A.
  - destruct IH as [W A]. destruct (correct_with_wf _ _ _ _ _ _ W O E) as [W' [L _]].
    unfold inv. rewrite (wf_cls _ _ W'). split; auto. unfold alpha_ok. rewrite L. exact A.
  - destruct IH as [W A]. destruct (correct_with_wf _ _ _ _ _ _ W O E) as [W' [L _]].
    unfold inv. rewrite (wf_cls _ _ W'). split; auto. unfold alpha_ok. rewrite L. exact A.
Qed.

End Generic.
