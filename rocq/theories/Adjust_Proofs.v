(** * color_adjustments: the structure of the adjustments *)
From Coq Require Import ZArith QArith Reals Lra Lia List Bool.
From Flocq Require Import Core IEEE754.BinarySingleNaN.
From Verif Require Import Arith Outcome ColorModel GammaModel MatrixModel SpaceModel Heap Converter Calculation Blend Adjust
  Spec F32 RArith F32Facts Hue32 Spec32 Laws NormalForms History Core_Proofs Core2_Proofs Core3_Proofs Core4_Proofs Convert_Proofs Alpha8
  Spec_Matrix Spec_Conv Spec_Calc Spec_Blend
  Conv_Proofs Conv2_Proofs Conv3_Proofs Total_Proofs HueR_Proofs Round_Proofs Calc_Proofs Calc2_Proofs Blend_Proofs Blend2_Proofs Blend3_Proofs.
Import ListNotations.

Section Adjust.
Context {F : Type} {AF : Arith F} {AL : ArithLaws F} {A8 : Alpha8Laws F}.
Local Notation color := (color F).
Local Notation heap := (heap F).

Lemma convertible_real X : convertible X = true -> X <> UNDEFINED.
Proof. intros C ->. discriminate C. Qed.

(** Converting a new colour: only new objects are affected. *)
Lemma back X Y (h h1 : heap) q t : unchanged h h1 -> fresh h q -> at_addr h1 q t -> wf_color X t -> convertible Y = true ->
  (needs_space X Y = true -> has_space h1 t) ->
  exists u r h2, convertTo (Some q) Y h1 = (Ok (Some u), h2) /\ fresh h u /\ at_addr h2 u r /\ wf_color Y r /\
    rgb_space r = rgb_space t /\ unchanged h h2 /\ (X <> Y -> rel_alpha X Y t r) /\ (X = Y -> r = t /\ u = q /\ h2 = h1).
Proof.
  intros U Fq At W C N. rewrite (convertTo_type Y C).
  destruct (ctype_eq_dec X Y) as [<-|D].
  - exists q, t, h1. split; [apply (to_type_same X h1 q t At W)|]. split; [exact Fq|]. split; [exact At|]. split; [exact W|].
    split; [reflexivity|]. split; [exact U|]. split; [congruence|auto].
  - destruct (to_type_cv X Y (wf_real _ _ W) (convertible_real Y C) D h1 q t At W N)
      as [u [r [h2 [c' [E [Fu [Hu [Wr [S [[SS OU] [P' [_ [_ [_ [_ R]]]]]]]]]]]]]]].
    exists u, r, h2. split; [exact E|].
    split. { pose proof (unchanged_len _ _ U). unfold fresh in *. lia. }
    split; [exact Hu|]. split; [exact Wr|]. split; [exact S|]. split.
    + destruct U as [SU UU]. split; [congruence|]. intros i c0 H. apply OU; [|apply UU, H].
      intros ->. pose proof (at_addr_lt h q c0 H). unfold fresh in Fq. lia.
    + split; [auto|]. intros; contradiction.
Qed.

(** ** The RGB adjustments *)

Definition rgb_step (f : option nat -> color -> outcome color) : Prop :=
  forall sp d, wf_color RGB_DEEP d -> exists t, f sp d = Ok t /\ wf_color RGB_DEEP t /\ m_alpha t = alpha d /\ rgb_space t = sp.

Lemma adjust_rgb_run f (h : heap) X p c : rgb_step f -> at_addr h p c -> wf_color X c -> (cie X = true -> has_space h c) ->
  exists d t h1 q, wf_color RGB_DEEP d /\ (X <> RGB_DEEP -> rel_alpha X RGB_DEEP c d) /\ (X = RGB_DEEP -> d = c) /\
    f (rgb_space c) d = Ok t /\ wf_color RGB_DEEP t /\ m_alpha t = alpha d /\ rgb_space t = rgb_space c /\
    unchanged h h1 /\ fresh h q /\ at_addr h1 q t /\ adjust_rgb f (Some p) h = convertTo (Some q) X h1.
Proof.
  intros S H W N.
  destruct (to_pure X RGB_DEEP (wf_real _ _ W) ltac:(discriminate) (or_intror eq_refl) h p c H W)
    as [a [d [ha [Ea [Aa [Wd [Sd [Ua [_ [Rd Id]]]]]]]]]].
  { unfold needs_space. rewrite orb_false_r. exact N. }
  destruct (S (rgb_space c) d Wd) as [t [Et [Wt [At St]]]].
  exists d, t, (Heap (colors ha ++ [t]) (spaces ha)), (length (colors ha)).
  split; [exact Wd|]. split; [exact Rd|]. split; [intros K; apply (Id K)|]. split; [exact Et|]. split; [exact Wt|].
  split; [exact At|]. split; [exact St|].
  split. { apply (unchanged_trans _ ha); [exact Ua|apply unchanged_new]. }
  split. { unfold fresh. pose proof (unchanged_len _ _ Ua). lia. }
  split; [apply at_new|].
  unfold adjust_rgb, bind. change (convertTo (Some p) RGB_DEEP) with (to_type (F := F) RGB_DEEP (Some p)). rewrite Ea.
  rewrite (load_as_ok ha a d RGB_DEEP Aa Wd). unfold load. pose proof (proj2 Ua _ _ H) as H'. unfold at_addr in H'. rewrite H'.
  unfold lift. rewrite Et. unfold alloc. rewrite (wf_ty _ _ W). reflexivity.
Qed.

(** The stored alpha is kept, but rounded to a multiple of 1/255 for 8-bit types. *)
Definition keeps_alpha8 (X : ctype) (c r : color) : Prop :=
  alpha_ok c -> alpha_form c -> ~ black_hsl c -> m_alpha r = converted_alpha RGB_DEEP X (m_alpha c).

Lemma adjust_rgb_total f (h : heap) X p c : rgb_step f -> at_addr h p c -> wf_color X c -> convertible X = true ->
  (cie X = true -> has_space h c) ->
  exists q r h', adjust_rgb f (Some p) h = (Ok (Some q), h') /\ fresh h q /\ at_addr h' q r /\ wf_color X r /\
    rgb_space r = rgb_space c /\ unchanged h h' /\ keeps_alpha8 X c r.
Proof.
  intros S H W C N.
  destruct (adjust_rgb_run f h X p c S H W N) as [d [t [h1 [q [Wd [Rd [Id [_ [Wt [At [St [U [Fq [Aq E]]]]]]]]]]]]]].
  destruct (back RGB_DEEP X h h1 q t U Fq Aq Wt C) as [u [r [h2 [E2 [Fu [Au [Wr [Sr [U2 [R2 I2]]]]]]]]]].
  { intros K. apply (unchanged_space h h1 c t U St). apply N. unfold needs_space in K. simpl in K. exact K. }
  exists u, r, h2. split; [rewrite E; exact E2|]. split; [exact Fu|]. split; [exact Au|]. split; [exact Wr|].
  split; [congruence|]. split; [exact U2|].
  intros O Fm NB. rewrite (alpha_std d RGB_DEEP Wd eq_refl) in At.
  destruct (ctype_eq_dec X RGB_DEEP) as [->|D].
  - destruct (I2 eq_refl) as [-> _]. rewrite (Id eq_refl) in At. exact At.
  - destruct (Rd D O Fm NB) as [Od [Fd Bd]]. unfold converted_alpha in Bd. cbn [eight_bit andb] in Bd.
    assert (Ot : alpha_ok t) by (unfold alpha_ok; rewrite At; exact Od).
    assert (Ft : alpha_form t). { intros T. rewrite (wf_ty _ _ Wt) in T. discriminate T. }
    assert (NBt : ~ black_hsl t). { intros [T _]. rewrite (wf_ty _ _ Wt) in T. discriminate T. }
    destruct (R2 ltac:(congruence) Ot Ft NBt) as [_ [_ B2]]. rewrite B2, At, Bd. reflexivity.
Qed.

(** Converting any colour to LCh with convertTo yields the null pointer. *)
Lemma adjust_rgb_lch f (h : heap) X p c : rgb_step f -> at_addr h p c -> wf_color X c -> convertible X = false ->
  (cie X = true -> has_space h c) -> exists h', adjust_rgb f (Some p) h = (Ok None, h') /\ unchanged h h'.
Proof.
  intros S H W C N.
  destruct (adjust_rgb_run f h X p c S H W N) as [d [t [h1 [q [_ [_ [_ [_ [_ [_ [_ [U [_ [_ E]]]]]]]]]]]]]].
  exists h1. split; [|exact U]. rewrite E. destruct X; try discriminate C; reflexivity.
Qed.

Lemma saturate_step p : rgb_step (saturate_rgb_f p).
Proof.
  intros sp d W. destruct (comps3 _ d W eq_refl) as [r [g [b Ed]]]. unfold saturate_rgb_f, with3. rewrite Ed. cbv zeta.
  match goal with |- exists t, rgb_deepcolor ?x ?y ?z ?a ?s = _ /\ _ => destruct (rgb_deepcolor_made x y z a s) as [t [Et [Wt [At St]]]] end.
  exists t. auto.
Qed.
Lemma luminate_step p : rgb_step (luminate_rgb_f p).
Proof.
  intros sp d W. destruct (comps3 _ d W eq_refl) as [r [g [b Ed]]]. unfold luminate_rgb_f, with3. rewrite Ed. cbv zeta.
  match goal with |- exists t, rgb_deepcolor ?x ?y ?z ?a ?s = _ /\ _ => destruct (rgb_deepcolor_made x y z a s) as [t [Et [Wt [At St]]]] end.
  exists t. auto.
Qed.

(** ** The HSL adjustments *)

Lemma adjust_hsl_zero i (h : heap) p pc : feq pc (fz 0) = true -> adjust_hsl i p pc h = (Ok p, h).
Proof. intros E. unfold adjust_hsl. rewrite E. reflexivity. Qed.

Lemma unchanged_upd (h h1 : heap) q v : unchanged h h1 -> fresh h q -> unchanged h (Heap (upd q v (colors h1)) (spaces h1)).
Proof.
  intros [S U] Fq. split; [exact S|]. intros j c H. unfold at_addr. cbn [colors].
  rewrite upd_nth_other; [apply U, H|]. pose proof (at_addr_lt h j c H). unfold fresh in Fq. lia.
Qed.

Lemma at_upd (h : heap) q c v : at_addr h q c -> at_addr (Heap (upd q v (colors h)) (spaces h)) q v.
Proof. intros H. unfold at_addr. cbn [colors]. apply upd_nth_same, (at_addr_lt h q c H). Qed.

Lemma adjust_hsl_run i (h : heap) X p c pc : (i < 3)%nat -> feq pc (fz 0) = false -> at_addr h p c -> wf_color X c -> (cie X = true -> has_space h c) ->
  exists a d x v h1, wf_color HSL d /\ (X <> HSL -> rel_alpha X HSL c d) /\ (X = HSL -> d = c /\ a = p /\ h1 = h) /\ (X <> HSL -> fresh h a) /\
    raw_comp d i = Ok x /\ named_set HSL d (fmul x (fadd (fz 1) pc)) i = Ok v /\ wf_color HSL v /\ m_alpha v = m_alpha d /\
    rgb_space v = rgb_space c /\ unchanged h h1 /\ at_addr h1 a d /\
    adjust_hsl i (Some p) pc h = convertTo (Some a) X (Heap (upd a v (colors h1)) (spaces h1)).
Proof.
  intros Hi P H W N.
  destruct (to_pure X HSL (wf_real _ _ W) ltac:(discriminate) (or_intror eq_refl) h p c H W)
    as [a [d [h1 [Ea [Aa [Wd [Sd [Ua [Fa [Rd Id]]]]]]]]]].
  { unfold needs_space. rewrite orb_false_r. exact N. }
  assert (Ex : exists x, raw_comp d i = Ok x).
  { unfold raw_comp. pose proof (wf_len _ _ Wd) as L. cbn [arity] in L.
    destruct (nth_error (comps d) i) as [x|] eqn:Q; [exists x; reflexivity|].
    apply nth_error_None in Q. lia. }
  destruct Ex as [x Ex].
  destruct (named_set_ok HSL d (fmul x (fadd (fz 1) pc)) i Wd) as [v [Ev [Wv [Av Sv]]]]; [simpl; lia|].
  exists a, d, x, v, h1. split; [exact Wd|]. split; [exact Rd|]. split.
  { intros K. destruct (Id K) as [K1 K2]. split; [exact K2|]. split; [exact K1|]. subst X.
    pose proof (to_type_same HSL h p c H W) as T. rewrite Ea in T. congruence. }
  split; [exact Fa|]. split; [exact Ex|]. split; [exact Ev|]. split; [exact Wv|]. split; [exact Av|]. split; [congruence|].
  split; [exact Ua|]. split; [exact Aa|].
  unfold adjust_hsl, bind. rewrite P. change (convertTo (Some p) HSL) with (to_type (F := F) HSL (Some p)). rewrite Ea.
  rewrite (load_as_ok h1 a d HSL Aa Wd). unfold lift. rewrite Ex. cbn [obind]. rewrite Ev.
  rewrite (store_ok h1 a d v Aa).
  assert (L : exists c', load (Some p) (Heap (upd a v (colors h1)) (spaces h1)) = (Ok c', Heap (upd a v (colors h1)) (spaces h1)) /\ ty c' = X).
  { destruct (ctype_eq_dec X HSL) as [->|D].
    - destruct (Id eq_refl) as [-> _]. exists v. split; [|apply (wf_ty _ _ Wv)]. unfold load.
      pose proof (at_upd h1 p d v Aa) as T. unfold at_addr in T. rewrite T. reflexivity.
    - exists c. split; [|apply (wf_ty _ _ W)]. unfold load.
      pose proof (proj2 (unchanged_upd h h1 a v Ua (Fa D)) _ _ H) as T. unfold at_addr in T. rewrite T. reflexivity. }
  destruct L as [c' [-> ->]]. reflexivity.
Qed.

Lemma adjust_hsl_total i (h : heap) X p c pc : (i < 3)%nat -> feq pc (fz 0) = false -> at_addr h p c -> wf_color X c -> convertible X = true -> X <> HSL ->
  (cie X = true -> has_space h c) ->
  exists q r h', adjust_hsl i (Some p) pc h = (Ok (Some q), h') /\ fresh h q /\ at_addr h' q r /\ wf_color X r /\
    rgb_space r = rgb_space c /\ unchanged h h'.
Proof.
  intros Hi P H W C D N.
  destruct (adjust_hsl_run i h X p c pc Hi P H W N) as [a [d [x [v [h1 [Wd [Rd [Id [Fa [Ex [Ev [Wv [Av [Sv [U [Aa E]]]]]]]]]]]]]]]].
  specialize (Fa D).
  destruct (back HSL X h _ a v (unchanged_upd h h1 a v U Fa) Fa (at_upd h1 a d v Aa) Wv C) as [u [r [h2 [E2 [Fu [Au [Wr [Sr [U2 _]]]]]]]]].
  { intros K. apply (unchanged_space h (Heap (upd a v (colors h1)) (spaces h1)) c v (unchanged_upd h h1 a v U Fa) Sv). apply N. exact K. }
  exists u, r, h2. split; [rewrite E; exact E2|]. repeat (split; [first [assumption|congruence]|]). exact U2.
Qed.

(** An HSL colour is changed in place. *)
Lemma adjust_hsl_self i (h : heap) p c pc : (i < 3)%nat -> feq pc (fz 0) = false -> at_addr h p c -> wf_color HSL c ->
  exists x v, raw_comp c i = Ok x /\ named_set HSL c (fmul x (fadd (fz 1) pc)) i = Ok v /\ wf_color HSL v /\
    m_alpha v = m_alpha c /\ rgb_space v = rgb_space c /\
    adjust_hsl i (Some p) pc h = (Ok (Some p), Heap (upd p v (colors h)) (spaces h)).
Proof.
  intros Hi P H W.
  destruct (adjust_hsl_run i h HSL p c pc Hi P H W ltac:(discriminate)) as [a [d [x [v [h1 [Wd [Rd [Id [Fa [Ex [Ev [Wv [Av [Sv [U [Aa E]]]]]]]]]]]]]]]].
  destruct (Id eq_refl) as [-> [-> ->]]. exists x, v. split; [exact Ex|]. split; [exact Ev|]. split; [exact Wv|]. split; [exact Av|].
  split; [exact Sv|]. rewrite E. apply (to_type_same HSL _ p v (at_upd h p c v H) Wv).
Qed.

Lemma adjust_hsl_lch i (h : heap) X p c pc : (i < 3)%nat -> feq pc (fz 0) = false -> at_addr h p c -> wf_color X c -> convertible X = false ->
  (cie X = true -> has_space h c) -> exists h', adjust_hsl i (Some p) pc h = (Ok None, h') /\ unchanged h h'.
Proof.
  intros Hi P H W C N. assert (D : X <> HSL) by (intros ->; discriminate C).
  destruct (adjust_hsl_run i h X p c pc Hi P H W N) as [a [d [x [v [h1 [Wd [Rd [Id [Fa [Ex [Ev [Wv [Av [Sv [U [Aa E]]]]]]]]]]]]]]]].
  exists (Heap (upd a v (colors h1)) (spaces h1)). split; [|apply (unchanged_upd h h1 a v U (Fa D))].
  rewrite E. destruct X; try discriminate C; reflexivity.
Qed.

(** ** The overloads on references *)
Lemma assign_wf X (c r : color) : wf_color X c -> wf_color X r -> base_assign c r = r.
Proof. intros W V. unfold base_assign. rewrite (wf_cls _ _ W). rewrite <- (wf_cls _ _ V). destruct r. reflexivity. Qed.

Lemma adjust_ref_run f (h h1 : heap) X p pc q c1 r : f (Some p) pc h = (Ok (Some q), h1) -> at_addr h1 q r -> at_addr h1 p c1 ->
  wf_color X c1 -> wf_color X r -> adjust_ref f p pc h = (Ok tt, Heap (upd p r (colors h1)) (spaces h1)).
Proof.
  intros E Aq Ap W V. unfold adjust_ref, bind. rewrite E. unfold load. unfold at_addr in Aq, Ap. rewrite Aq, Ap.
  rewrite (assign_wf X c1 r W V). apply (store_ok h1 p c1 r Ap).
Qed.

Lemma adjust_ref_null f (h h1 : heap) p pc : f (Some p) pc h = (Ok None, h1) -> adjust_ref f p pc h = (Undef, h1).
Proof. intros E. unfold adjust_ref, bind. rewrite E. reflexivity. Qed.
End Adjust.
