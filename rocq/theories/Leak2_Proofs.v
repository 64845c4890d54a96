(** * How many objects the other operations allocate (C202) *)
From Coq Require Import ZArith QArith Reals Lra Lia List Bool.
From Flocq Require Import Core IEEE754.BinarySingleNaN.
From Verif Require Import Arith Outcome ColorModel GammaModel MatrixModel SpaceModel Heap Converter Calculation Blend Adjust Combine Adapt
  Spec F32 RArith F32Facts Hue32 Spec32 Laws NormalForms History Core_Proofs Core2_Proofs Core3_Proofs Core4_Proofs Convert_Proofs Alpha8
  Spec_Matrix Spec_Conv Spec_Calc Spec_Blend Spec_Adjust Spec_Combine Spec_Adapt Spec_Leak
  Conv_Proofs Conv2_Proofs Conv3_Proofs Total_Proofs HueR_Proofs Round_Proofs Calc_Proofs Calc2_Proofs Blend_Proofs Blend2_Proofs Blend3_Proofs
  BlendHcy_Proofs Adjust_Proofs Adjust2_Proofs Combine_Proofs Combine2_Proofs Adapt_Proofs Run_Proofs Leak_Proofs.
Import ListNotations.

Section Leak2.
Context {F : Type} {AF : Arith F} {AL : ArithLaws F} {A8 : Alpha8Laws F}.
Local Notation color := (color F).
Local Notation heap := (heap F).

Lemma bind_inv A B (m : M F A) (f : A -> M F B) h r h' : bind m f h = (Ok r, h') -> exists x h1, m h = (Ok x, h1) /\ f x h1 = (Ok r, h').
Proof. unfold bind. intros E. destruct (m h) as [[x | e | |] h1]; try discriminate E. exists x, h1. auto. Qed.
Lemma lift_inv A (x : outcome A) (h : heap) r h' : lift x h = (Ok r, h') -> x = Ok r /\ h' = h.
Proof. unfold lift. intros E. destruct x; try discriminate E. injection E as -> ->. auto. Qed.
Lemma load_inv (h : heap) p c r h' : at_addr h p c -> load (Some p) h = (Ok r, h') -> r = c /\ h' = h.
Proof. intros H E. rewrite (load_ok h p c H) in E. injection E as <- <-. auto. Qed.
Lemma load_as_inv (h : heap) X p c r h' : at_addr h p c -> wf_color X c -> load_as X (Some p) h = (Ok r, h') -> r = c /\ h' = h.
Proof. intros H W E. rewrite (load_as_ok h p c X H W) in E. injection E as <- <-. auto. Qed.

Lemma type_in X : X <> UNDEFINED -> In X all_types.
Proof. destruct X; cbn; intros H; try (exfalso; apply H; reflexivity); tauto. Qed.
Lemma grows_trans m n k (h h1 h2 : heap) : grows_by m h h1 -> grows_by n h1 h2 -> (m + n = k)%nat -> grows_by k h h2.
Proof. unfold grows_by. lia. Qed.
Lemma grows_new (h : heap) (t : color) s : grows_by 1 h (Heap (colors h ++ [t]) s).
Proof. unfold grows_by. cbn [colors]. rewrite app_length. reflexivity. Qed.

(** the last conversion *)
Lemma last_count T X (h : heap) q t r h' : at_addr h q t -> ty t = T -> T <> UNDEFINED -> convertible X = true ->
  convertTo (Some q) X h = (Ok r, h') -> grows_by (chain T X) h h'.
Proof.
  intros A E N C R. rewrite (convertTo_type X C) in R. apply (type_adds T X q h r h' t); try assumption.
  apply type_in, convertible_real, C.
Qed.

(** a first conversion *)
Lemma first_count X Y (h : heap) p c : Y <> UNDEFINED -> cie Y = false -> at_addr h p c -> wf_color X c -> (cie X = true -> has_space h c) ->
  exists q r h', to_type Y (Some p) h = (Ok (Some q), h') /\ at_addr h' q r /\ wf_color Y r /\ rgb_space r = rgb_space c /\ unchanged h h' /\
    grows_by (chain X Y) h h' /\ (X <> Y -> fresh h q) /\ (X = Y -> q = p /\ r = c).
Proof.
  intros NY CY H W N. destruct (to_pure X Y (wf_real _ _ W) NY (or_intror CY) h p c H W)
    as [a [d [h1 [Ea [Aa [Wd [Sd [Ua [Fa [_ Id]]]]]]]]]].
  { unfold needs_space. rewrite CY, orb_false_r. exact N. }
  exists a, d, h1. do 5 (split; [assumption|]). split; [|auto].
  apply (type_adds X Y p h (Some a) h1 c); [apply type_in, NY|apply (wf_ty _ _ W)|apply (wf_real _ _ W)|exact H|exact Ea].
Qed.

(** ** Adjustments *)
Lemma rgb_count f X (h : heap) p c r h' : rgb_step f -> at_addr h p c -> wf_color X c -> convertible X = true -> (cie X = true -> has_space h c) ->
  adjust_rgb f (Some p) h = (Ok r, h') -> grows_by (chain X RGB_DEEP + 1 + chain RGB_DEEP X) h h'.
Proof.
  intros St H W C N E.
  destruct (first_count X RGB_DEEP h p c ltac:(discriminate) eq_refl H W N) as [a [d [h1 [Ea [Aa [Wd [_ [Ua [G _]]]]]]]]].
  unfold adjust_rgb in E. change (convertTo (Some p) RGB_DEEP) with (to_type (F := F) RGB_DEEP (Some p)) in E.
  apply bind_inv in E. destruct E as [a' [h1' [E1 E]]]. rewrite Ea in E1. injection E1 as <- <-.
  apply bind_inv in E. destruct E as [d' [h2 [E2 E]]]. apply (load_as_inv _ _ _ _ _ _ Aa Wd) in E2. destruct E2 as [-> ->].
  apply bind_inv in E. destruct E as [c' [h3 [E3 E]]]. apply (load_inv _ _ _ _ _ (proj2 Ua _ _ H)) in E3. destruct E3 as [-> ->].
  apply bind_inv in E. destruct E as [t [h4 [E4 E]]]. apply lift_inv in E4. destruct E4 as [E4 ->].
  destruct (St (rgb_space c) d Wd) as [t' [Et [Wt _]]]. rewrite Et in E4. apply Ok_inj in E4. subst t'.
  apply bind_inv in E. destruct E as [q [h5 [E5 E]]]. rewrite alloc_at in E5. injection E5 as <- <-.
  rewrite (wf_ty _ _ W) in E.
  apply (last_count RGB_DEEP X _ _ t) in E; [|apply at_new|apply (wf_ty _ _ Wt)|discriminate|exact C].
  pose proof (grows_new h1 t (spaces h1)) as Gn. unfold grows_by in *. lia.
Qed.

Lemma hsl_count i X (h : heap) p c pc r h' : (i < 3)%nat -> feq pc (fz 0) = false -> at_addr h p c -> wf_color X c -> convertible X = true ->
  (cie X = true -> has_space h c) -> adjust_hsl i (Some p) pc h = (Ok r, h') -> grows_by (chain X HSL + chain HSL X) h h'.
Proof.
  intros Hi P H W C N E.
  destruct (first_count X HSL h p c ltac:(discriminate) eq_refl H W N) as [a [d [h1 [Ea [Aa [Wd [_ [Ua [G [Fa Id]]]]]]]]]].
  destruct (adjust_hsl_run i h X p c pc Hi P H W N) as [a' [d' [x [v [h1' [Wd' [_ [_ [_ [Ex [Ev [Wv [_ [_ [_ [Aa' R]]]]]]]]]]]]]]]].
  unfold adjust_hsl in E. rewrite P in E. change (convertTo (Some p) HSL) with (to_type (F := F) HSL (Some p)) in E.
  apply bind_inv in E. destruct E as [a2 [h2 [E1 E]]]. rewrite Ea in E1. injection E1 as <- <-.
  apply bind_inv in E. destruct E as [d2 [h2 [E2 E]]]. apply (load_as_inv _ _ _ _ _ _ Aa Wd) in E2. destruct E2 as [-> ->].
  apply bind_inv in E. destruct E as [t [h2 [E4 E]]]. apply lift_inv in E4. destruct E4 as [E4 ->].
  apply obind_ok in E4. destruct E4 as [y [_ E4]].
  destruct (named_set_ok HSL d (fmul y (fadd (fz 1) pc)) i Wd ltac:(simpl; lia)) as [t' [Et [Wt _]]]. rewrite Et in E4. apply Ok_inj in E4. subst t'.
  apply bind_inv in E. destruct E as [[] [h2 [E5 E]]]. rewrite (store_ok h1 a d t Aa) in E5. injection E5 as <-.
  apply bind_inv in E. destruct E as [c' [h2 [E6 E]]].
  assert (K : ty c' = X /\ h2 = Heap (upd a t (colors h1)) (spaces h1)).
  { destruct (ctype_eq_dec X HSL) as [->|D].
    - destruct (Id eq_refl) as [-> _]. apply (load_inv _ p t) in E6; [|apply (at_upd h1 p d t Aa)]. destruct E6 as [-> ->]. split; [apply (wf_ty _ _ Wt)|reflexivity].
    - apply (load_inv _ p c) in E6; [|apply (proj2 (unchanged_upd h h1 a t Ua (Fa D))), H]. destruct E6 as [-> ->]. split; [apply (wf_ty _ _ W)|reflexivity]. }
  destruct K as [Kt ->]. rewrite Kt in E.
  apply (last_count HSL X _ _ t) in E; [|apply (at_upd h1 a d t Aa)|apply (wf_ty _ _ Wt)|discriminate|exact C].
  apply (grows_trans (chain X HSL) (chain HSL X) _ h h1 h'); [exact G| |reflexivity].
  unfold grows_by in *. cbn [colors] in E.
  assert (L : forall (l : list color) i, length (upd i t l) = length l).
  { induction l as [| a0 l IH]; intros [| j]; cbn; try reflexivity. f_equal. apply IH. }
  rewrite L in E. exact E.
Qed.

(** ** Blending *)
Lemma checked_count us ud ub f (h : heap) X1 X2 p1 c1 p2 c2 r h' : at_addr h p1 c1 -> at_addr h p2 c2 -> wf_color X1 c1 -> wf_color X2 c2 ->
  rgb_space c1 = rgb_space c2 -> (cie X1 || cie X2 = true -> has_space h c1) -> convertible X1 = true ->
  checked_blend us ud ub f (Some p1) (Some p2) h = (Ok r, h') ->
  grows_by (chain X1 RGB_DEEP + chain X2 RGB_DEEP + 1 + chain RGB_DEEP X1) h h'.
Proof.
  intros H1 H2 W1 W2 SP N C E.
  destruct (first_count X1 RGB_DEEP h p1 c1 ltac:(discriminate) eq_refl H1 W1) as [a [s [ha [Ea [Aa [Ws [Ss [Ua [Ga _]]]]]]]]].
  { intros K. apply N. rewrite K. reflexivity. }
  destruct (first_count X2 RGB_DEEP ha p2 c2 ltac:(discriminate) eq_refl (proj2 Ua _ _ H2) W2) as [b [d [hb [Eb [Ab [Wd [Sd [Ub [Gb _]]]]]]]]].
  { intros K. apply (unchanged_space h ha c1 c2 Ua); [congruence|]. apply N. rewrite K. apply orb_true_r. }
  unfold checked_blend in E. change (to_type RGB_DEEP) with (to_rgb_deep (F := F)) in Ea, Eb.
  apply bind_inv in E. destruct E as [x [g [E1 E]]]. apply (load_inv _ _ _ _ _ H1) in E1. destruct E1 as [-> ->].
  apply bind_inv in E. destruct E as [x [g [E1 E]]]. apply (load_inv _ _ _ _ _ H2) in E1. destruct E1 as [-> ->].
  rewrite SP, ptr_same in E. cbn [negb] in E.
  apply bind_inv in E. destruct E as [x [g [E1 E]]]. rewrite Ea in E1. injection E1 as <- <-.
  apply bind_inv in E. destruct E as [x [g [E1 E]]]. rewrite Eb in E1. injection E1 as <- <-.
  apply bind_inv in E. destruct E as [q [g [E1 E]]].
  unfold general_porter_duff in E1. apply bind_inv in E1. destruct E1 as [x [g1 [E2 E1]]].
  apply (load_as_inv _ _ _ _ _ _ (proj2 Ub _ _ Aa) Ws) in E2. destruct E2 as [-> ->].
  apply bind_inv in E1. destruct E1 as [x [g1 [E2 E1]]]. apply (load_as_inv _ _ _ _ _ _ Ab Wd) in E2. destruct E2 as [-> ->].
  rewrite Ss, Sd, SP, ptr_same in E1. cbn [negb] in E1.
  apply bind_inv in E1. destruct E1 as [t [g1 [E2 E1]]]. apply lift_inv in E2. destruct E2 as [E2 ->].
  destruct (blend_shape us ud ub (f c1 c2) s d (wf_len _ _ Ws) (wf_len _ _ Wd)) as [t' [Et [Dt _]]]. rewrite Et in E2. apply Ok_inj in E2. subst t'.
  rewrite alloc_at in E1. injection E1 as <- <-. rewrite (wf_ty _ _ W1) in E.
  apply (last_count RGB_DEEP X1 _ _ t) in E; [|apply at_new|apply (ds_ty _ Dt)|discriminate|exact C].
  pose proof (grows_new hb t (spaces hb)) as Gn. unfold grows_by in *. lia.
Qed.

Lemma hcy_count pick (h : heap) X1 X2 p1 c1 p2 c2 r h' : at_addr h p1 c1 -> at_addr h p2 c2 -> wf_color X1 c1 -> wf_color X2 c2 ->
  (cie X1 = true -> has_space h c1) -> (cie X2 = true -> has_space h c2) -> convertible X1 = true ->
  hcy_blend pick (Some p1) (Some p2) h = (Ok r, h') ->
  grows_by (chain X1 HCY + chain X2 HCY + 1 + chain HCY X1) h h'.
Proof.
  intros H1 H2 W1 W2 N1 N2 C E.
  destruct (first_count X1 HCY h p1 c1 ltac:(discriminate) eq_refl H1 W1 N1) as [a [s [ha [Ea [Aa [Ws [Ss [Ua [Ga _]]]]]]]]].
  destruct (first_count X2 HCY ha p2 c2 ltac:(discriminate) eq_refl (proj2 Ua _ _ H2) W2) as [b [d [hb [Eb [Ab [Wd [Sd [Ub [Gb _]]]]]]]]].
  { intros K. apply (unchanged_space h ha c2 c2 Ua); [reflexivity|]. apply N2, K. }
  unfold hcy_blend in E. change (to_type HCY) with (to_hcy (F := F)) in Ea, Eb.
  apply bind_inv in E. destruct E as [x [g [E1 E]]]. rewrite Ea in E1. injection E1 as <- <-.
  apply bind_inv in E. destruct E as [x [g [E1 E]]]. rewrite Eb in E1. injection E1 as <- <-.
  apply bind_inv in E. destruct E as [x [g [E1 E]]]. apply (load_as_inv _ _ _ _ _ _ (proj2 Ub _ _ Aa) Ws) in E1. destruct E1 as [-> ->].
  apply bind_inv in E. destruct E as [x [g [E1 E]]]. apply (load_as_inv _ _ _ _ _ _ Ab Wd) in E1. destruct E1 as [-> ->].
  apply bind_inv in E. destruct E as [t [g [E1 E]]]. apply lift_inv in E1. destruct E1 as [E1 ->].
  destruct (comps3 _ s Ws eq_refl) as [sh [sc [sy Es]]]. destruct (comps3 _ d Wd eq_refl) as [dh [dc [dy Ed]]].
  unfold with3 in E1. rewrite Es, Ed in E1. destruct (pick (sh, sc, sy) (dh, dc, dy)) as [[x y] z].
  destruct (hcy_made x y z (alpha s) (rgb_space s)) as [t' [Et [Wt _]]]. rewrite Et in E1. apply Ok_inj in E1. subst t'.
  apply bind_inv in E. destruct E as [q [g [E1 E]]]. rewrite alloc_at in E1. injection E1 as <- <-.
  apply bind_inv in E. destruct E as [c' [g [E1 E]]].
  assert (U : unchanged h hb) by (apply (unchanged_trans _ ha); assumption).
  apply (load_inv _ p1 c1) in E1; [|exact (at_old hb p1 c1 t (spaces hb) (proj2 U _ _ H1))]. destruct E1 as [-> ->]. rewrite (wf_ty _ _ W1) in E.
  apply (last_count HCY X1 _ _ t) in E; [|apply at_new|apply (wf_ty _ _ Wt)|discriminate|exact C].
  pose proof (grows_new hb t (spaces hb)) as Gn. unfold grows_by in *. lia.
Qed.

(** ** Combinations *)
Lemma turned_count f (h : heap) X a d p c r h' : at_addr h a d -> wf_color HSL d -> at_addr h p c -> wf_color X c -> convertible X = true ->
  turned f (Some a) (Some p) h = (Ok r, h') -> grows_by (1 + chain HSL X) h h'.
Proof.
  intros Ha Wd Hp W C E. destruct (comps3 _ d Wd eq_refl) as [x [y [z Ed]]].
  unfold turned in E.
  apply bind_inv in E. destruct E as [u [g [E1 E]]]. apply (load_as_inv _ _ _ _ _ _ Ha Wd) in E1. destruct E1 as [-> ->].
  apply bind_inv in E. destruct E as [u [g [E1 E]]]. apply (load_inv _ _ _ _ _ Hp) in E1. destruct E1 as [-> ->].
  apply bind_inv in E. destruct E as [t [g [E1 E]]]. apply lift_inv in E1. destruct E1 as [E1 ->].
  unfold with3 in E1. rewrite Ed in E1. destruct (hsl_made (f x) y z (alpha c) (rgb_space c)) as [t' [Et [Wt _]]]. rewrite Et in E1. apply Ok_inj in E1. subst t'.
  apply bind_inv in E. destruct E as [q [g [E1 E]]]. rewrite alloc_at in E1. injection E1 as <- <-. rewrite (wf_ty _ _ W) in E.
  apply (last_count HSL X _ _ t) in E; [|apply at_new|apply (wf_ty _ _ Wt)|discriminate|exact C].
  pose proof (grows_new h t (spaces h)) as Gn. unfold grows_by in *. lia.
Qed.

Lemma loop_count X a d p c deg : wf_color HSL d -> wf_color X c -> convertible X = true ->
  forall is acc (h : heap), at_addr h a d -> at_addr h p c -> (cie X = true -> has_space h c) -> forall r h',
  combination_loop deg (Some a) (Some p) acc is h = (Ok r, h') -> grows_by (length is * (1 + chain HSL X)) h h'.
Proof.
  intros Wd W C. destruct (comps3 _ d Wd eq_refl) as [x [y [z Ed]]]. induction is as [|i is IH]; intros acc h Ha Hp N r h' E.
  - cbn in E. injection E as _ <-. unfold grows_by. cbn. lia.
  - cbn [combination_loop] in E. apply bind_inv in E. destruct E as [q [g [E1 E]]].
    destruct (turned_ok (fun t => fadd t (fmul (fofZ i) deg)) h X a d p c x y z Ha Wd Ed Hp W C N) as [q' [r' [v [g' [E2 [_ [_ [_ [_ [U _]]]]]]]]]].
    pose proof (turned_count _ h X a d p c q g Ha Wd Hp W C E1) as G1. rewrite E1 in E2. injection E2 as -> ->.
    assert (G2 := IH (acc ++ [Some q']) g' (proj2 U _ _ Ha) (proj2 U _ _ Hp) (fun K => unchanged_space h g' c c U eq_refl (N K)) r h' E).
    unfold grows_by in *. cbn [length]. lia.
Qed.

Lemma combination_count X n (h : heap) p c r h' : (2 <= n <= 360)%Z -> at_addr h p c -> wf_color X c -> convertible X = true -> (cie X = true -> has_space h c) ->
  create_combination (Some p) n h = (Ok r, h') -> grows_by (chain X HSL + Z.to_nat (n - 1) * (1 + chain HSL X)) h h'.
Proof.
  intros Hn H W C N E.
  destruct (first_count X HSL h p c ltac:(discriminate) eq_refl H W N) as [a [d [h1 [Ea [Aa [Wd [_ [Ua [G _]]]]]]]]].
  unfold create_combination in E. replace (n =? 0)%Z with false in E by (symmetry; apply Z.eqb_neq; lia).
  replace (n =? 1)%Z with false in E by (symmetry; apply Z.eqb_neq; lia). replace (360 <? n)%Z with false in E by (symmetry; apply Z.ltb_ge; lia).
  change (convertTo (Some p) HSL) with (to_type (F := F) HSL (Some p)) in E.
  apply bind_inv in E. destruct E as [x [g [E1 E]]]. rewrite Ea in E1. injection E1 as <- <-.
  replace (n - 1 <? -2147483648)%Z with false in E by (symmetry; apply Z.ltb_ge; lia).
  apply (loop_count X a d p c _ Wd W C _ _ _ Aa (proj2 Ua _ _ H)) in E; [|intros K; exact (unchanged_space h h1 c c Ua eq_refl (N K))].
  rewrite upto_length in E. unfold grows_by in *. lia.
Qed.

Lemma analogous_count X dist (h : heap) p c r h' : feq dist (fz 0) = false -> flt (fdiv (fz 360) (fz 3)) dist = false ->
  at_addr h p c -> wf_color X c -> convertible X = true -> (cie X = true -> has_space h c) ->
  create_analogous (Some p) dist h = (Ok r, h') -> grows_by (chain X HSL + 2 * (1 + chain HSL X)) h h'.
Proof.
  intros D1 D2 H W C N E.
  destruct (first_count X HSL h p c ltac:(discriminate) eq_refl H W N) as [a [d [h1 [Ea [Aa [Wd [_ [Ua [G _]]]]]]]]].
  destruct (comps3 _ d Wd eq_refl) as [x [y [z Ed]]].
  unfold create_analogous in E. rewrite D1, D2 in E. change (convertTo (Some p) HSL) with (to_type (F := F) HSL (Some p)) in E.
  apply bind_inv in E. destruct E as [u [g [E1 E]]]. rewrite Ea in E1. injection E1 as <- <-.
  apply bind_inv in E. destruct E as [u [g [E1 E]]].
  assert (N1 : cie X = true -> has_space h1 c) by (intros K; exact (unchanged_space h h1 c c Ua eq_refl (N K))).
  destruct (turned_ok (fun t => fsub t dist) h1 X a d p c x y z Aa Wd Ed (proj2 Ua _ _ H) W C N1) as [q' [r' [v [g' [E2 [_ [_ [_ [_ [U _]]]]]]]]]].
  pose proof (turned_count _ h1 X a d p c u g Aa Wd (proj2 Ua _ _ H) W C E1) as G1. rewrite E1 in E2. injection E2 as -> ->.
  apply bind_inv in E. destruct E as [u [g [E3 E]]].
  pose proof (turned_count _ g' X a d p c u g (proj2 U _ _ Aa) Wd (proj2 U _ _ (proj2 Ua _ _ H)) W C E3) as G2.
  unfold ret in E. injection E as _ <-. unfold grows_by in *. lia.
Qed.

(** ** Chromatic adaptation *)
Lemma adapt_count m X (h : heap) p c s a w0 b w r h' : at_addr h p c -> wf_color X c -> convertible X = true -> has_white h c s a w0 -> a <> b ->
  adaptation m (Some p) (Some (b, w)) h = (Ok r, h') ->
  grows_by (chain X XYZ + 1 + chain XYZ X) h h'.
Proof.
  intros Hp W C HW N E. rewrite adaptation_eq in E.
  destruct (adapt_prefix (method_f m) X h p c s a w0 b w Hp W HW N) as [t [x [h1 [c1 [Et [Ht [Wx [Hp1 [Wc1 [_ [_ [_ [_ [_ [_ [_ Run]]]]]]]]]]]]]]]].
  rewrite Run in E. destruct (method_f m w0 w x c1) as [[[u0 u1] u2] | | |]; try discriminate E.
  destruct (set_white_point s (Some (b, w))) as [s' | | |]; try discriminate E. cbv zeta in E.
  change (to_xyz (Some p)) with (to_type (F := F) XYZ (Some p)) in Et.
  apply (type_adds X XYZ p h _ h1 c) in Et; [|apply type_in; discriminate|apply (wf_ty _ _ W)|apply (wf_real _ _ W)|exact Hp].
  match type of E with convertTo _ _ (Heap (_ ++ [?n]) ?sp) = _ => pose proof (grows_new h1 n sp) as Gn; apply (last_count XYZ X _ _ n) in E end.
  - unfold grows_by in *. lia.
  - unfold at_addr. cbn [colors]. rewrite nth_error_app2, Nat.sub_diag; [reflexivity|lia].
  - reflexivity.
  - discriminate.
  - exact C.
Qed.
End Leak2.

Section Leak32.
Variable o : oracle.
Local Notation wf := (@wf_color f32 (F32 o)).

Lemma adjust_leak a pc (h : heap f32) X p c : at_addr h p c -> wf X c -> convertible X = true -> (cie X = true -> has_space h c) ->
  (in_hsl a = true -> ~ is_value pc 0) ->
  exists q h', @adjust f32 (F32 o) a (Some p) pc h = (Ok (Some q), h') /\
    grows_by (if in_hsl a then chain X HSL + chain HSL X else chain X RGB_DEEP + 1 + chain RGB_DEEP X) h h'.
Proof.
  intros H W C N P. destruct (adjust_typed o a pc h X p c H W C N) as [q [r [h' [E _]]]]. exists q, h'. split; [exact E|].
  destruct (in_hsl a) eqn:Ha.
  - destruct (adjust_is_hsl o a Ha) as [Ea Hi]. rewrite Ea in E.
    apply (hsl_count (AF := F32 o) (AL := F32Laws o) (hsl_component a) X h p c pc (Some q) h'); try assumption. apply nonzero_ne, P, eq_refl.
  - destruct (adjust_is_rgb o a Ha pc) as [g [Sg Eg]]. rewrite Eg in E.
    apply (rgb_count (AF := F32 o) (AL := F32Laws o) g X h p c (Some q) h'); assumption.
Qed.

Lemma composite_leak op (h : heap f32) X1 X2 p1 c1 p2 c2 us ud : at_addr h p1 c1 -> at_addr h p2 c2 -> wf X1 c1 -> wf X2 c2 ->
  rgb_space c1 = rgb_space c2 -> (cie X1 || cie X2 = true -> has_space h c1) -> convertible X1 = true ->
  (exists q h', @composite f32 (F32 o) op (Some p1) (Some p2) h = (Ok (Some q), h') /\ grows_by (chain X1 RGB_DEEP + chain X2 RGB_DEEP + 1 + chain RGB_DEEP X1) h h') /\
  forall m, exists q h', @blend f32 (F32 o) m (Some p1) (Some p2) us ud h = (Ok (Some q), h') /\ grows_by (chain X1 RGB_DEEP + chain X2 RGB_DEEP + 1 + chain RGB_DEEP X1) h h'.
Proof.
  intros H1 H2 W1 W2 SP N C. split; [|intros m].
  - rewrite (composite_checked (AF := F32 o)).
    destruct (checked_total (AF := F32 o) (AL := F32Laws o) (op_s op) (op_d op) (op_b op) (op_f (AF := F32 o) op) h X1 X2 p1 c1 p2 c2 H1 H2 W1 W2 SP N C) as [q [r [h' [E _]]]].
    exists q, h'. split; [exact E|]. exact (checked_count (AF := F32 o) (AL := F32Laws o) _ _ _ _ h X1 X2 p1 c1 p2 c2 _ h' H1 H2 W1 W2 SP N C E).
  - rewrite (blend_checked (AF := F32 o)).
    destruct (checked_total (AF := F32 o) (AL := F32Laws o) us ud true (@blend_function f32 (F32 o) m) h X1 X2 p1 c1 p2 c2 H1 H2 W1 W2 SP N C) as [q [r [h' [E _]]]].
    exists q, h'. split; [exact E|]. exact (checked_count (AF := F32 o) (AL := F32Laws o) _ _ _ _ h X1 X2 p1 c1 p2 c2 _ h' H1 H2 W1 W2 SP N C E).
Qed.

Lemma hcy_leak m us ud (h : heap f32) X1 X2 p1 c1 p2 c2 : at_addr h p1 c1 -> at_addr h p2 c2 -> wf X1 c1 -> wf X2 c2 ->
  (cie X1 = true -> has_space h c1) -> (cie X2 = true -> has_space h c2) -> convertible X1 = true ->
  exists q h', @blend_hcy f32 (F32 o) m (Some p1) (Some p2) us ud h = (Ok (Some q), h') /\ grows_by (chain X1 HCY + chain X2 HCY + 1 + chain HCY X1) h h'.
Proof.
  intros H1 H2 W1 W2 N1 N2 C.
  destruct (hcy_total (AF := F32 o) (AL := F32Laws o) m us ud h X1 X2 p1 c1 p2 c2 H1 H2 W1 W2 N1 N2 C) as [q [r [h' [E _]]]].
  exists q, h'. split; [exact E|]. rewrite (blend_hcy_eq (AF := F32 o)) in E. exact (hcy_count (AF := F32 o) (AL := F32Laws o) _ h X1 X2 p1 c1 p2 c2 _ h' H1 H2 W1 W2 N1 N2 C E).
Qed.

Lemma combination_leak n (h : heap f32) X p c : (2 <= n <= 360)%Z -> at_addr h p c -> wf X c -> convertible X = true -> (cie X = true -> has_space h c) ->
  exists qs h', @create_combination f32 (F32 o) (Some p) n h = (Ok (Some p :: map Some qs), h') /\ length qs = Z.to_nat (n - 1) /\
    grows_by (chain X HSL + length qs * (1 + chain HSL X)) h h'.
Proof.
  intros Hn H W C N. destruct (combination_shape o n h X p c Hn H W C N) as [qs [h' [E [L _]]]]. exists qs, h'. split; [exact E|]. split; [exact L|].
  rewrite L. exact (combination_count (AF := F32 o) (AL := F32Laws o) X n h p c _ h' Hn H W C N E).
Qed.

Lemma analogous_leak w (h : heap f32) X p c : ~ is_value w 0 -> ~ above 120 w -> at_addr h p c -> wf X c -> convertible X = true -> (cie X = true -> has_space h c) ->
  exists q1 q2 h', @create_analogous f32 (F32 o) (Some p) w h = (Ok [Some q1; Some p; Some q2], h') /\ grows_by (chain X HSL + 2 * (1 + chain HSL X)) h h'.
Proof.
  intros D1 D2 H W C N. destruct (analogous_shape o w h X p c D1 D2 H W C N) as [q1 [q2 [h' [E _]]]]. exists q1, q2, h'. split; [exact E|].
  exact (analogous_count (AF := F32 o) (AL := F32Laws o) X w h p c _ h' (nonzero_ne o w D1) (not_above_third o w D2) H W C N E).
Qed.

Lemma adaptation_leak (m : method f32) X (h : heap f32) p c s a w0 b w : at_addr h p c -> wf X c -> convertible X = true -> has_white h c s a w0 -> a <> b ->
  second_component m && grey X = false ->
  exists q h', @adaptation f32 (F32 o) m (Some p) (Some (b, w)) h = (Ok (Some q), h') /\ grows_by (chain X XYZ + 1 + chain XYZ X) h h' /\
    length (spaces h') = S (length (spaces h)).
Proof.
  intros Hp W C HW N G.
  destruct (adapt_run (AF := F32 o) (AL := F32Laws o) m X h p c s a w0 b w Hp W C HW N G) as [q [r [s' [h' [E [_ [_ [_ [_ [_ [SA _]]]]]]]]]]].
  exists q, h'. split; [exact E|]. split; [exact (adapt_count (AF := F32 o) (AL := F32Laws o) m X h p c s a w0 b w _ h' Hp W C HW N E)|].
  destruct SA as [SA _]. rewrite SA, app_length. cbn. lia.
Qed.
End Leak32.
