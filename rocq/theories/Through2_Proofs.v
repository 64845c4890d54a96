(** * HCY blending, adjustments and distances of any types go through one conversion *)
From Coq Require Import ZArith QArith Reals Lra Lia List Bool.
From Flocq Require Import Core IEEE754.BinarySingleNaN.
From Verif Require Import Arith Outcome ColorModel GammaModel MatrixModel SpaceModel Heap Converter Calculation Blend Adjust Distance
  Spec F32 RArith F32Facts Hue32 Spec32 Laws NormalForms History Core_Proofs Core2_Proofs Core3_Proofs Core4_Proofs Convert_Proofs Alpha8
  Spec_Matrix Spec_Conv Spec_Calc Spec_Blend Spec_Adjust Spec_Distance
  Conv_Proofs Conv2_Proofs Conv3_Proofs Total_Proofs HueR_Proofs Round_Proofs Calc_Proofs Calc2_Proofs Blend_Proofs Blend2_Proofs Blend3_Proofs
  Adjust_Proofs Adjust2_Proofs Distance_Proofs.
Import ListNotations.
Local Open Scope monad_scope.

Section Through2.
Context {F : Type} {AF : Arith F} {AL : ArithLaws F} {A8 : Alpha8Laws F} {A9 : Alpha8Wide F}.
Local Notation color := (color F).
Local Notation heap := (heap F).

(** ** HCY blend modes *)
Lemma hcy_through pick (h : heap) X1 X2 p1 c1 p2 c2 : at_addr h p1 c1 -> at_addr h p2 c2 -> wf_color X1 c1 -> wf_color X2 c2 ->
  (cie X1 = true -> has_space h c1) -> (cie X2 = true -> has_space h c2) ->
  hcy_blend pick (Some p1) (Some p2) h =
  (a <- to_hcy (Some p1) ;; b <- to_hcy (Some p2) ;; r <- hcy_blend pick a b ;; convertTo r X1) h.
Proof.
  intros H1 H2 W1 W2 N1 N2.
  destruct (to_pure X1 HCY (wf_real _ _ W1) ltac:(discriminate) (or_intror eq_refl) h p1 c1 H1 W1)
    as [a [s [ha [Ea [Aa [Ws [Ss [Ua _]]]]]]]].
  { unfold needs_space. rewrite orb_false_r. exact N1. }
  destruct (to_pure X2 HCY (wf_real _ _ W2) ltac:(discriminate) (or_intror eq_refl) ha p2 c2 (proj2 Ua _ _ H2) W2)
    as [b [d [hb [Eb [Ab [Wd [Sd [Ub _]]]]]]]].
  { unfold needs_space. rewrite orb_false_r. intros K. apply (unchanged_space h ha c2 c2 Ua eq_refl). apply N2. exact K. }
  pose proof (proj2 Ub _ _ Aa) as Aa'. pose proof (proj2 Ub _ _ (proj2 Ua _ _ H1)) as H1'.
  pose proof (to_type_same HCY hb a s Aa' Ws) as Ta. pose proof (to_type_same HCY hb b d Ab Wd) as Tb.
  change (to_type HCY) with (to_hcy (F := F)) in Ea, Eb, Ta, Tb.
  destruct (comps3 _ s Ws eq_refl) as [s0 [s1 [s2 Es]]]. destruct (comps3 _ d Wd eq_refl) as [d0 [d1 [d2 Ed]]].
  destruct (pick (s0, s1, s2) (d0, d1, d2)) as [[u0 u1] u2] eqn:Ep.
  destruct (hcy_made u0 u1 u2 (alpha s) (rgb_space s)) as [r [Er [Wr _]]].
  set (h1 := Heap (colors hb ++ [r]) (spaces hb)). set (q := length (colors hb)).
  assert (Aq : at_addr h1 q r) by apply at_new.
  assert (L : hcy_blend pick (Some p1) (Some p2) h = convertTo (Some q) X1 h1).
  { unfold hcy_blend. unfold bind at 1. rewrite Ea. unfold bind at 1. rewrite Eb.
    unfold bind at 1. rewrite (load_as_ok hb a s HCY Aa' Ws). unfold bind at 1. rewrite (load_as_ok hb b d HCY Ab Wd).
    unfold bind at 1, lift at 1. unfold with3. rewrite Es, Ed, Ep, Er. unfold bind at 1. rewrite alloc_at. fold h1 q.
    unfold bind at 1, load. pose proof (at_old hb p1 c1 r (spaces hb) H1') as T. fold h1 in T. unfold at_addr in T. rewrite T.
    rewrite (wf_ty _ _ W1). reflexivity. }
  assert (R : hcy_blend pick (Some a) (Some b) hb = (Ok (Some q), h1)).
  { unfold hcy_blend. unfold bind at 1. rewrite Ta. unfold bind at 1. rewrite Tb.
    unfold bind at 1. rewrite (load_as_ok hb a s HCY Aa' Ws). unfold bind at 1. rewrite (load_as_ok hb b d HCY Ab Wd).
    unfold bind at 1, lift at 1. unfold with3. rewrite Es, Ed, Ep, Er. unfold bind at 1. rewrite alloc_at. fold h1 q.
    unfold bind at 1, load. pose proof (at_old hb a s r (spaces hb) Aa') as T. fold h1 in T. unfold at_addr in T. rewrite T.
    rewrite (wf_ty _ _ Ws). rewrite (convertTo_type HCY eq_refl). apply (to_type_same HCY h1 q r Aq Wr). }
  rewrite L. unfold bind at 1. rewrite Ea. unfold bind at 1. rewrite Eb. unfold bind at 1. rewrite R. reflexivity.
Qed.
Lemma blend_hcy_through m us ud (h : heap) X1 X2 p1 c1 p2 c2 : at_addr h p1 c1 -> at_addr h p2 c2 -> wf_color X1 c1 -> wf_color X2 c2 ->
  (cie X1 = true -> has_space h c1) -> (cie X2 = true -> has_space h c2) ->
  blend_hcy m (Some p1) (Some p2) us ud h =
  (a <- to_hcy (Some p1) ;; b <- to_hcy (Some p2) ;; r <- blend_hcy m a b us ud ;; convertTo r X1) h.
Proof. intros H1 H2 W1 W2 N1 N2. destruct m; exact (hcy_through _ h X1 X2 p1 c1 p2 c2 H1 H2 W1 W2 N1 N2). Qed.

(** ** Adjustments *)
Lemma adjust_rgb_through f (h : heap) X p c : rgb_step f -> at_addr h p c -> wf_color X c -> (cie X = true -> has_space h c) ->
  adjust_rgb f (Some p) h = (a <- to_rgb_deep (Some p) ;; r <- adjust_rgb f a ;; convertTo r X) h.
Proof.
  intros S H W N.
  destruct (to_pure X RGB_DEEP (wf_real _ _ W) ltac:(discriminate) (or_intror eq_refl) h p c H W)
    as [a [d [ha [Ea [Aa [Wd [Sd [Ua _]]]]]]]].
  { unfold needs_space. rewrite orb_false_r. exact N. }
  destruct (S (rgb_space c) d Wd) as [t [Et [Wt _]]].
  pose proof (to_type_same RGB_DEEP ha a d Aa Wd) as Ta.
  pose proof (proj2 Ua _ _ H) as H'.
  set (h1 := Heap (colors ha ++ [t]) (spaces ha)). set (q := length (colors ha)).
  assert (Aq : at_addr h1 q t) by apply at_new.
  assert (L : adjust_rgb f (Some p) h = convertTo (Some q) X h1).
  { unfold adjust_rgb. unfold bind at 1. rewrite (convertTo_type RGB_DEEP eq_refl), Ea. unfold bind at 1. rewrite (load_as_ok ha a d RGB_DEEP Aa Wd).
    unfold bind at 1, load. unfold at_addr in H'. rewrite H'. unfold bind at 1, lift. rewrite Et. unfold bind at 1. rewrite alloc_at.
    rewrite (wf_ty _ _ W). reflexivity. }
  assert (R : adjust_rgb f (Some a) ha = (Ok (Some q), h1)).
  { unfold adjust_rgb. unfold bind at 1. rewrite (convertTo_type RGB_DEEP eq_refl), Ta. unfold bind at 1. rewrite (load_as_ok ha a d RGB_DEEP Aa Wd).
    unfold bind at 1, load. unfold at_addr in Aa. rewrite Aa. rewrite Sd. unfold bind at 1, lift. rewrite Et. unfold bind at 1. rewrite alloc_at.
    rewrite (wf_ty _ _ Wd), (convertTo_type RGB_DEEP eq_refl). apply (to_type_same RGB_DEEP h1 q t Aq Wt). }
  rewrite L. change (to_type RGB_DEEP) with (to_rgb_deep (F := F)) in Ea. unfold bind at 1. rewrite Ea. unfold bind at 1. rewrite R. reflexivity.
Qed.
Lemma adjust_hsl_through i (h : heap) X p c pc : (i < 3)%nat -> feq pc (fz 0) = false -> at_addr h p c -> wf_color X c -> (cie X = true -> has_space h c) ->
  adjust_hsl i (Some p) pc h = (a <- to_hsl (Some p) ;; r <- adjust_hsl i a pc ;; convertTo r X) h.
Proof.
  intros Hi P H W N.
  destruct (to_pure X HSL (wf_real _ _ W) ltac:(discriminate) (or_intror eq_refl) h p c H W)
    as [a [d [h1 [Ea [Aa [Wd [Sd [Ua [Fa [_ Id]]]]]]]]]].
  { unfold needs_space. rewrite orb_false_r. exact N. }
  destruct (adjust_hsl_self i h1 a d pc Hi P Aa Wd) as [x [v [Ex [Ev [Wv [_ [_ R]]]]]]].
  transitivity (convertTo (Some a) X (Heap (upd a v (colors h1)) (spaces h1))).
  - unfold adjust_hsl. rewrite P. unfold bind at 1. rewrite (convertTo_type HSL eq_refl), Ea. unfold bind at 1. rewrite (load_as_ok h1 a d HSL Aa Wd).
    unfold bind at 1, lift at 1. rewrite Ex. cbn [obind]. rewrite Ev. unfold bind at 1. rewrite (store_ok h1 a d v Aa). unfold bind, load.
    destruct (ctype_eq_dec X HSL) as [->|D].
    + destruct (Id eq_refl) as [-> _]. pose proof (at_upd h1 p d v Aa) as T. unfold at_addr in T. rewrite T, (wf_ty _ _ Wv). reflexivity.
    + pose proof (proj2 (unchanged_upd h h1 a v Ua (Fa D)) _ _ H) as T. unfold at_addr in T. rewrite T, (wf_ty _ _ W). reflexivity.
  - change (to_type HSL) with (to_hsl (F := F)) in Ea. unfold bind at 1. rewrite Ea. unfold bind at 1. rewrite R. reflexivity.
Qed.

(** ** Distances *)
Lemma ptr_eqb_ne (a b : nat) : a <> b -> ptr_eqb (Some a) (Some b) = false.
Proof. intros N. cbn. apply Nat.eqb_neq, N. Qed.
Lemma measure_through Y conv f (h : heap) X1 X2 p1 c1 p2 c2 : conv = to_type Y -> Y <> UNDEFINED -> p1 <> p2 -> at_addr h p1 c1 -> at_addr h p2 c2 ->
  wf_color X1 c1 -> wf_color X2 c2 -> (needs_space X1 Y = true -> has_space h c1) -> (needs_space X2 Y = true -> has_space h c2) ->
  measure Y conv f (Some p1) (Some p2) h = (a <- to_type Y (Some p1) ;; b <- to_type Y (Some p2) ;; measure Y conv f a b) h.
Proof.
  intros -> UY D H1 H2 W1 W2 N1 N2.
  destruct (to_step X1 Y h p1 c1 UY H1 W1 N1) as [a [s [ha [Ea [Aa [Ws [_ [Oa [Fa [Ia _]]]]]]]]]].
  pose proof (proj2 Oa p2 c2 (not_eq_sym D) H2) as H2'.
  assert (N2' : needs_space X2 Y = true -> has_space ha c2).
  { intros K. destruct (N2 K) as [i [sp [A [B C]]]]. exists i, sp. rewrite (proj1 Oa). auto. }
  destruct (to_step X2 Y ha p2 c2 UY H2' W2 N2') as [b [d [hb [Eb [Ab [Wd [_ [Ob [Fb [Ib _]]]]]]]]]].
  assert (Na : a <> p2).
  { destruct (ctype_eq_dec X1 Y) as [Q|Q]; [destruct (Ia Q) as [-> _]; exact D|]. specialize (Fa Q). pose proof (at_addr_lt h p2 c2 H2). unfold fresh in Fa. lia. }
  assert (Nab : a <> b).
  { destruct (ctype_eq_dec X2 Y) as [Q|Q]; [destruct (Ib Q) as [-> _]; exact Na|]. specialize (Fb Q). pose proof (at_addr_lt ha a s Aa). unfold fresh in Fb. lia. }
  pose proof (proj2 Ob a s Na Aa) as Aa'.
  pose proof (to_type_same Y hb a s Aa' Ws) as Ta. pose proof (to_type_same Y hb b d Ab Wd) as Tb.
  unfold measure at 1. rewrite (ptr_eqb_ne p1 p2 D). unfold bind at 1. rewrite Ea. unfold bind at 1. rewrite Eb. rewrite (ptr_eqb_ne a b Nab).
  symmetry. unfold bind at 1. rewrite Ea. unfold bind at 1. rewrite Eb.
  unfold measure. rewrite (ptr_eqb_ne a b Nab). unfold bind at 1. rewrite Ta. unfold bind at 1. rewrite Tb. rewrite (ptr_eqb_ne a b Nab). reflexivity.
Qed.
Lemma distance_through (d : distance_fun F) (h : heap) X1 X2 p1 c1 p2 c2 : p1 <> p2 -> at_addr h p1 c1 -> at_addr h p2 c2 ->
  wf_color X1 c1 -> wf_color X2 c2 -> (needs_space X1 (compared_in d) = true -> has_space h c1) -> (needs_space X2 (compared_in d) = true -> has_space h c2) ->
  distance d (Some p1) (Some p2) h = (a <- to_type (compared_in d) (Some p1) ;; b <- to_type (compared_in d) (Some p2) ;; distance d a b) h.
Proof.
  intros D H1 H2 W1 W2 N1 N2.
  assert (G : forall Y conv f, conv = to_type Y -> Y <> UNDEFINED -> Y = compared_in d ->
    measure Y conv f (Some p1) (Some p2) h = (a <- to_type (compared_in d) (Some p1) ;; b <- to_type (compared_in d) (Some p2) ;; measure Y conv f a b) h).
  { intros Y conv f Ec U Q. rewrite <- Q in *. exact (measure_through Y conv f h X1 X2 p1 c1 p2 c2 Ec U D H1 H2 W1 W2 N1 N2). }
  destruct d as [s|s| | |kL k1 k2 kC kH|kL k1 k2 kC kH|l c]; cbn [distance].
  2: { cbn [compared_in] in *. unfold euclidean_distance. rewrite (ptr_eqb_ne p1 p2 D). unfold euclidean_distance_squared. unfold bind at 1.
    rewrite (G RGB_DEEP to_rgb_deep squared_f eq_refl ltac:(discriminate) eq_refl).
    destruct (to_step X1 RGB_DEEP h p1 c1 ltac:(discriminate) H1 W1 N1) as [a [t [ha [Ea [Aa [_ [_ [Oa [Fa [Ia _]]]]]]]]]].
    pose proof (proj2 Oa p2 c2 (not_eq_sym D) H2) as H2'.
    assert (N2' : needs_space X2 RGB_DEEP = true -> has_space ha c2).
    { intros K. destruct (N2 K) as [i [sp [A [B C]]]]. exists i, sp. rewrite (proj1 Oa). auto. }
    destruct (to_step X2 RGB_DEEP ha p2 c2 ltac:(discriminate) H2' W2 N2') as [b [u [hb [Eb [Ab [_ [_ [Ob [Fb [Ib _]]]]]]]]]].
    assert (Na : a <> p2).
    { destruct (ctype_eq_dec X1 RGB_DEEP) as [Q|Q]; [destruct (Ia Q) as [-> _]; exact D|]. specialize (Fa Q). pose proof (at_addr_lt h p2 c2 H2). unfold fresh in Fa. lia. }
    assert (Nab : a <> b).
    { destruct (ctype_eq_dec X2 RGB_DEEP) as [Q|Q]; [destruct (Ib Q) as [-> _]; exact Na|]. specialize (Fb Q). pose proof (at_addr_lt ha a t Aa). unfold fresh in Fb. lia. }
    unfold bind. rewrite Ea, Eb. rewrite (ptr_eqb_ne a b Nab). reflexivity. }
  all: try (exact (G LAB to_lab _ eq_refl ltac:(discriminate) eq_refl)); try (exact (G RGB_DEEP to_rgb_deep _ eq_refl ltac:(discriminate) eq_refl)).
  destruct s; first [exact (G CIELUV to_cieluv _ eq_refl ltac:(discriminate) eq_refl) | exact (G RGB_DEEP to_rgb_deep _ eq_refl ltac:(discriminate) eq_refl)].
Qed.

(** The type in which an adjustment works. *)
Lemma adjust_through a (h : heap) X p c pc : at_addr h p c -> wf_color X c -> (cie X = true -> has_space h c) -> (in_hsl a = true -> feq pc (fz 0) = false) ->
  adjust a (Some p) pc h = (t <- to_type (if in_hsl a then HSL else RGB_DEEP) (Some p) ;; r <- adjust a t pc ;; convertTo r X) h.
Proof.
  intros H W N P. destruct a; cbn [adjust in_hsl].
  all: try (exact (adjust_rgb_through _ h X p c (saturate_step pc) H W N)); try (exact (adjust_rgb_through _ h X p c (luminate_step pc) H W N)).
  all: apply (adjust_hsl_through _ h X p c pc); auto.
Qed.
End Through2.

Lemma adjust_through32 o a (h : heap f32) X p c pc : at_addr h p c -> @wf_color f32 (F32 o) X c -> (cie X = true -> has_space h c) -> (in_hsl a = true -> ~ is_value pc 0) ->
  @adjust f32 (F32 o) a (Some p) pc h = (t <- @to_type f32 (F32 o) (if in_hsl a then HSL else RGB_DEEP) (Some p) ;; r <- @adjust f32 (F32 o) a t pc ;; @convertTo f32 (F32 o) r X) h.
Proof.
  intros H W N P. apply (adjust_through (AF := F32 o) a h X p c pc H W N). intros K. apply (nonzero_ne o pc (P K)).
Qed.
Lemma adjust_through_exact a (h : heap R) X p c pc : at_addr h p c -> wf_color X c -> (cie X = true -> has_space h c) -> (in_hsl a = true -> pc <> 0%R) ->
  adjust a (Some p) pc h = (t <- to_type (if in_hsl a then HSL else RGB_DEEP) (Some p) ;; r <- adjust a t pc ;; convertTo r X) h.
Proof.
  intros H W N P. apply (adjust_through a h X p c pc H W N). intros K. specialize (P K).
  destruct (feq pc (fz 0)) eqn:E; [|reflexivity]. exfalso. apply P. rewrite fzR in E. cbn [feq RArith] in E.
  unfold Reqb in E. match type of E with (if ?b then _ else _) = _ => destruct b; [assumption|discriminate E] end.
Qed.
