(** * color_combinations: monochromatic schemes of colours of any type *)
From Coq Require Import ZArith QArith Reals Lra Lia List Bool.
From Flocq Require Import Core IEEE754.BinarySingleNaN.
From Verif Require Import Arith Outcome ColorModel GammaModel MatrixModel SpaceModel Heap Converter Calculation Blend Adjust Combine
  Spec F32 RArith F32Facts Hue32 Spec32 Laws NormalForms History Core_Proofs Core2_Proofs Core3_Proofs Core4_Proofs Convert_Proofs Alpha8
  Spec_Matrix Spec_Conv Spec_Calc Spec_Blend Spec_Adjust Spec_Combine
  Conv_Proofs Conv2_Proofs Conv3_Proofs Total_Proofs HueR_Proofs Round_Proofs Calc_Proofs Calc2_Proofs Calc3_Proofs Blend_Proofs Blend2_Proofs Blend3_Proofs
  Adjust_Proofs Adjust2_Proofs Combine_Proofs Combine2_Proofs.
Import ListNotations.

Section Mono.
Context {F : Type} {AF : Arith F} {AL : ArithLaws F} {A8 : Alpha8Laws F}.
Local Notation color := (color F).
Local Notation heap := (heap F).

(** The colour at [q] was made from the one at [l] in a computation from [h] to [h']. *)
Definition mono_link (X : ctype) (mode : Z) (pc : F) (c : color) (h h' : heap) (l q : nat) : Prop :=
  exists h0 a d h1 x y z v w x' y' z', unchanged h h0 /\ convertTo (Some l) HSL h0 = (Ok (Some a), h1) /\ unchanged h1 h' /\ at_addr h1 a d /\ wf_color HSL d /\
    comps d = [x; y; z] /\ hsl x y z (alpha c) (rgb_space c) = Ok v /\ comps v = [x'; y'; z'] /\ wf_color HSL v /\
    converted_from X h h' q w /\ wf_color HSL w /\ m_alpha w = alpha c /\ rgb_space w = rgb_space c /\ comps w = mono_comps mode pc x' y' z'.
Lemma mono_link_mono X mode pc c (h h1 h2 h' : heap) l q : unchanged h h1 -> unchanged h2 h' -> mono_link X mode pc c h1 h2 l q -> mono_link X mode pc c h h' l q.
Proof.
  intros U1 U2 [h0 [a [d [g [x [y [z [v [w [x' [y' [z' [K1 [K2 [K3 [K4 [K5 [K6 [K7 [K8 [K9 [K10 [K11 [K12 [K13 K14]]]]]]]]]]]]]]]]]]]]]]]]].
  exists h0, a, d, g, x, y, z, v, w, x', y', z'. split; [apply (unchanged_trans _ h1); assumption|]. split; [exact K2|].
  split; [apply (unchanged_trans _ h2); assumption|]. do 6 (split; [assumption|]). split; [apply (converted_mono X h h1 h2 h' q w U1 U2 K10)|]. auto.
Qed.

Lemma mono_step_link X mode pc (h : heap) p c l last : (0 <= mode <= 2)%Z -> at_addr h p c -> wf_color X c -> convertible X = true -> (cie X = true -> has_space h c) ->
  at_addr h l last -> wf_color X last -> rgb_space last = rgb_space c ->
  exists q r h', mono_step (Some p) X mode pc (Some l) h = (Ok (Some q), h') /\ at_addr h' q r /\ wf_color X r /\
    rgb_space r = rgb_space c /\ unchanged h h' /\ mono_link X mode pc c h h' l q.
Proof.
  intros Hm Hp W C N Hl Wl Sl.
  destruct (to_hsl_ok h X l last Hl Wl) as [a [d [h1 [Ea [Aa [Wd [Ua Id]]]]]]].
  { intros K. apply (has_space_eq h c); [exact Sl|apply N, K]. }
  destruct (comps3 _ d Wd eq_refl) as [x [y [z E]]].
  destruct (hsl_made x y z (alpha c) (rgb_space c)) as [v [Ev [Wv [Av Sv]]]].
  destruct (comps3 _ v Wv eq_refl) as [x' [y' [z' Ec]]].
  pose (h2 := Heap (colors h1 ++ [v]) (spaces h1)). pose (n := length (colors h1)).
  assert (Er : restated (Some a) (Some p) h1 = (Ok (Some n), h2)).
  { unfold restated, bind. rewrite (load_as_ok h1 a d HSL Aa Wd), (load_ok h1 p c (proj2 Ua _ _ Hp)). unfold lift, with3. rewrite E, Ev. reflexivity. }
  assert (An : at_addr h2 n v) by apply at_new.
  assert (U12 : unchanged h1 h2) by apply unchanged_new.
  assert (F1 : fresh h1 n) by (unfold fresh, n; lia).
  destruct (mono_adjust mode pc h1 h2 n v Hm An Wv U12 F1) as [v' [h3 [E3 [A3 [W3 [U3 [S3 [L3 K3]]]]]]]].
  destruct (back HSL X h1 h3 n v' U3 F1 A3 W3 C) as [q [r [h4 [E4 [Fq [Aq [Wr [Sr [U4 _]]]]]]]]].
  { intros K. apply (unchanged_space h1 h3 c v' U3); [congruence|]. apply (unchanged_space h h1 c c Ua eq_refl), N, K. }
  exists q, r, h4. split.
  { unfold mono_step, bind. rewrite Ea. unfold bind in E3. destruct mode as [|[m|[m|m|]|]|m]; try lia; rewrite Er.
    - rewrite E3. exact E4.
    - destruct (saturate_in_hsl_space (Some n) pc h2) as [[s| | |] hs]; try discriminate E3. rewrite E3. exact E4.
    - rewrite E3. exact E4. }
  split; [exact Aq|]. split; [exact Wr|]. split; [congruence|].
  split; [apply (unchanged_trans _ h1); assumption|].
  exists h, a, d, h1, x, y, z, v, v', x', y', z'. split; [apply unchanged_refl|]. do 8 (split; [assumption|]).
  split. { exists n, h3, h4. split; [apply (unchanged_trans _ h1); assumption|]. split; [apply (fresh_unchanged h h1 n Ua F1)|]. split; [exact A3|]. split; [exact E4|apply unchanged_refl]. }
  split; [exact W3|]. split; [congruence|]. split; [congruence|]. apply K3, Ec.
Qed.

Lemma mono_loop_link X mode pc p c : (0 <= mode <= 2)%Z -> wf_color X c -> convertible X = true ->
  forall n acc (h : heap) l last, at_addr h p c -> (cie X = true -> has_space h c) -> at_addr h l last -> wf_color X last -> rgb_space last = rgb_space c ->
  exists qs h', mono_loop (mono_step (Some p) X mode pc) acc (Some l) n h = (Ok (acc ++ map Some qs), h') /\ length qs = n /\ unchanged h h' /\
    (forall k s q, nth_error (l :: qs) k = Some s -> nth_error qs k = Some q -> mono_link X mode pc c h h' s q).
Proof.
  intros Hm W C. induction n as [|n IH]; intros acc h l last Hp N Hl Wl Sl.
  - exists [], h. split; [simpl; rewrite app_nil_r; reflexivity|]. split; [reflexivity|]. split; [apply unchanged_refl|].
    intros k s q _ H; destruct k; discriminate H.
  - destruct (mono_step_link X mode pc h p c l last Hm Hp W C N Hl Wl Sl) as [q [r [h1 [E1 [Aq [Wr [Sr [U1 K1]]]]]]]].
    destruct (IH (acc ++ [Some q]) h1 q r (proj2 U1 _ _ Hp)) as [qs [h' [E2 [L [U2 K2]]]]]; auto.
    { intros Q. apply (unchanged_space h h1 c c U1 eq_refl), N, Q. }
    exists (q :: qs), h'. split.
    { cbn [mono_loop map]. unfold bind. rewrite E1. etransitivity; [exact E2|]. rewrite <- app_assoc. reflexivity. }
    split; [simpl; congruence|]. split; [apply (unchanged_trans _ h1); assumption|].
    intros [|k] s t Hs Ht; cbn [nth_error] in Hs, Ht.
    + injection Hs as <-. injection Ht as <-. apply (mono_link_mono X mode pc c h h h1 h' l q (unchanged_refl h) U2 K1).
    + apply (mono_link_mono X mode pc c h h1 h' h' s t U1 (unchanged_refl h')). apply (K2 k); assumption.
Qed.
Lemma mono_link_ok X mode amount n (h : heap) p c : (0 <= mode <= 2)%Z -> (1 <= n)%Z -> flt amount (fz 0) = false -> flt (fz 1) amount = false ->
  at_addr h p c -> wf_color X c -> convertible X = true -> (cie X = true -> has_space h c) ->
  exists qs h', create_monochromatic (Some p) mode amount n h = (Ok (Some p :: map Some qs), h') /\ length qs = Z.to_nat (n - 1) /\ unchanged h h' /\
    (forall k s q, nth_error (p :: qs) k = Some s -> nth_error qs k = Some q -> mono_link X mode (fmul amount (fz (-1))) c h h' s q).
Proof.
  intros Hm Hn A1 A2 H W C N.
  destruct (mono_loop_link X mode (fmul amount (fz (-1))) p c Hm W C (Z.to_nat (n - 1)) [Some p] h p c H N H W eq_refl) as [qs [h' [E K]]].
  exists qs, h'. split; [|exact K].
  unfold create_monochromatic. rewrite A1, A2. replace (n <=? 0)%Z with false by (symmetry; apply Z.leb_gt; lia).
  unfold bind at 1. rewrite (load_ok h p c H), (wf_ty _ _ W). exact E.
Qed.
End Mono.

Local Open Scope R_scope.
Lemma mono_any mode amount n X (h : heap R) p c : (0 <= mode <= 2)%Z -> 0 <= amount <= 1 -> (1 <= n)%Z ->
  at_addr h p c -> wf_color X c -> convertible X = true -> (cie X = true -> has_space h c) ->
  exists qs h', create_monochromatic (Some p) mode amount n h = (Ok (Some p :: map Some qs), h') /\ length qs = Z.to_nat (n - 1) /\ unchanged h h' /\
    forall k s q, nth_error (p :: qs) k = Some s -> nth_error qs k = Some q ->
      exists h0 a h1 d x y z w, unchanged h h0 /\ convertTo (Some s) HSL h0 = (Ok (Some a), h1) /\ unchanged h1 h' /\ at_addr h1 a d /\ hsl_of d x y z /\
        converted_from X h h' q w /\ m_alpha w = alpha c /\
        hsl_of w x (fst (mono_values mode (1 - amount) y z 1)) (snd (mono_values mode (1 - amount) y z 1)).
Proof.
  intros Hm Ha Hn H W C N.
  destruct (mono_link_ok X mode amount n h p c Hm Hn) as [qs [h' [E1 [L [U K]]]]]; auto.
  { cbn [flt RArith]. rewrite fzR. apply Rltb_ge. lra. }
  { cbn [flt RArith]. rewrite fzR. apply Rltb_ge. lra. }
  exists qs, h'. split; [exact E1|]. split; [exact L|]. split; [exact U|]. intros k s q Hs Hq.
  destruct (K k s q Hs Hq) as [h0 [a [d [h1 [x [y [z [v [w [x' [y' [z' [K1 [K2 [K3 [K4 [K5 [K6 [K7 [K8 [K9 [K10 [K11 [K12 [K13 K14]]]]]]]]]]]]]]]]]]]]]]]]].
  exists h0, a, h1, d, x, y, z, w. do 4 (split; [assumption|]). split; [split; [apply (wf_ty _ _ K5)|exact K6]|]. split; [exact K10|]. split; [exact K12|].
  split; [apply (wf_ty _ _ K11)|]. rewrite K14.
  destruct (hsl_ranges d x y z K5 K6) as [Hx [Hy Hz]].
  rewrite (hsl_nf (AL := RLaws)) in K7. apply Ok_inj in K7. rewrite hue_norm_id, !c01R in K7 by lra. rewrite <- K7 in K8. cbn [comps] in K8. injection K8 as <- <- <-.
  unfold mono_comps. rewrite !fzR. cbn [feq fmul fadd RArith]. rewrite !clamp01.
  destruct (Req_dec amount 0) as [A0|A0].
  - rewrite Reqb_eq by (rewrite A0; lra). unfold mono_values. subst amount. rewrite Rminus_0_r, !pow1, !Rmult_1_r. destruct mode as [|[m|[m|m|]|]|m]; try lia; reflexivity.
  - rewrite Reqb_ne by lra. unfold mono_values.
    assert (Q : 1 + amount * -1 = 1 - amount) by ring. rewrite Q.
    assert (Y : 0 <= y * (1 - amount) <= 1) by (apply unit_mul; lra). assert (Z1 : 0 <= z * (1 - amount) <= 1) by (apply unit_mul; lra).
    destruct mode as [|[m|[m|m|]|]|m]; try lia; cbn [fst snd pow]; rewrite ?Rmult_1_r, ?unit_clamp_id by assumption; reflexivity.
Qed.

(** ** Complementary splits *)
Lemma some_inj (l m : list nat) : map Some l = map Some m -> l = m.
Proof. revert m. induction l as [|u us IH]; intros [|v vs] E; try discriminate E; [reflexivity|]. cbn [map] in E. injection E as <- E. f_equal. apply IH, E. Qed.
Lemma split_hues amount X (h : heap R) p c : amount <> 0 -> amount <= 120 -> at_addr h p c -> wf_color X c -> convertible X = true -> (cie X = true -> has_space h c) ->
  exists h1 a d g x y z k h2 a' d' g' x' y' z' q1 q2 h', unchanged h h1 /\ unchanged h1 h2 /\ unchanged h2 h' /\
    convertTo (Some p) HSL h1 = (Ok (Some a), g) /\ at_addr g a d /\ hsl_of d x y z /\ (X = HSL -> d = c) /\
    (exists v w, converted_from X h1 h2 k v /\ hsl_of v w y z /\ normalised (x + 180) w /\ (X = HSL -> d' = v)) /\
    convertTo (Some k) HSL h2 = (Ok (Some a'), g') /\ at_addr g' a' d' /\ hsl_of d' x' y' z' /\
    create_complimentary_split (Some p) amount h = (Ok [Some q1; Some p; Some q2], h') /\
    (exists v w, converted_from X h2 h' q1 v /\ hsl_of v w y' z' /\ normalised (x' - amount) w /\ (X = HSL -> at_addr h' q1 v)) /\
    (exists v w, converted_from X h2 h' q2 v /\ hsl_of v w y' z' /\ normalised (x' + amount) w /\ (X = HSL -> at_addr h' q2 v)).
Proof.
  intros D1 D2 H W C N. destruct (to_hsl_ok h X p c H W N) as [a0 [d0 [h1 [Ea0 [_ [_ [Ua _]]]]]]].
  assert (N1 : cie X = true -> has_space h1 c) by (intros Q; apply (unchanged_space h h1 c c Ua eq_refl), N, Q).
  destruct (combination_ok X 2 h1 p c ltac:(lia) (proj2 Ua _ _ H) W C N1) as [b1 [b2 [b3 [b4 [b5 [b6 [qs0 [h20 [_ [_ [_ [_ [_ [E20 [_ [U2 [_ K0]]]]]]]]]]]]]]]]].
  destruct (combination_hues 2 h1 X p c ltac:(lia) (proj2 Ua _ _ H) W C N1) as [a [d [g [x [y [z [qs [h2 [Ea [Aa [Ed [Id [E2 [L K]]]]]]]]]]]]]].
  rewrite E2 in E20. injection E20 as Eq <-.
  assert (Q0 : qs0 = qs) by (apply (some_inj qs0 qs); congruence).
  subst qs0. destruct qs as [|k [|k' qs]]; [discriminate L| |discriminate L].
  destruct (K0 0%nat k eq_refl) as [_ [r [rv [Ar [Wr [Sr _]]]]]].
  destruct (K 0%nat k eq_refl) as [v [w [Cv [Hv [Nv Iv]]]]].
  assert (U02 : unchanged h h2) by (apply (unchanged_trans _ h1); assumption).
  assert (N2 : cie X = true -> has_space h2 r) by (intros Q; apply (unchanged_space h h2 c r U02 Sr), N, Q).
  destruct (analogous_hues amount h2 X k r D1 D2 Ar Wr C N2) as [a' [d' [g' [x' [y' [z' [q1 [q2 [h' [Ea' [Aa' [Ed' [Id' [E4 [K1 K2]]]]]]]]]]]]]]].
  destruct (analogous_ok X amount h2 k r) as [e1 [e2 [e3 [e4 [e5 [e6 [e7 [e8 [h4 [_ [_ [_ [_ [_ [E4' [U4 _]]]]]]]]]]]]]]]]; auto.
  { cbn [feq RArith]. rewrite fzR. apply Reqb_ne, D1. }
  { cbn [flt fdiv RArith]. rewrite !fzR. apply Rltb_ge. lra. }
  rewrite E4 in E4'. assert (h4 = h') as -> by (injection E4'; congruence).
  exists h1, a, d, g, x, y, z, k, h2, a', d', g', x', y', z', q1, q2, h'.
  do 7 (split; [assumption|]). split.
  { exists v, w. split; [exact Cv|]. split; [exact Hv|]. split.
    - replace (x + 180) with (x + INR 1 * (360 / IZR 2)) by (cbn [INR]; lra). exact Nv.
    - intros Q. rewrite (Id' Q). specialize (Iv Q). unfold at_addr in *. congruence. }
  do 3 (split; [assumption|]). split; [|auto].
  unfold create_complimentary_split, bind. rewrite Ea0. unfold create_complimentary, bind. rewrite E2. cbn [nth_error map ret].
  unfold ret at 1. rewrite E4. reflexivity.
Qed.
(** HSL colours *)
Lemma split_hsl amount (h : heap R) p c x y z : amount <> 0 -> amount <= 120 -> at_addr h p c -> wf_color HSL c -> comps c = [x; y; z] ->
  exists q1 q2 h' u x1 x2 r1 r2, create_complimentary_split (Some p) amount h = (Ok [Some q1; Some p; Some q2], h') /\ unchanged h h' /\
    normalised (x + 180) u /\ normalised (u - amount) x1 /\ normalised (u + amount) x2 /\
    at_addr h' q1 r1 /\ hsl_of r1 x1 y z /\ at_addr h' q2 r2 /\ hsl_of r2 x2 y z.
Proof.
  intros D1 D2 H W E. destruct (split_hues amount HSL h p c D1 D2 H W eq_refl ltac:(discriminate))
    as (h1 & a & d & g & x0 & y0 & z0 & k & h2 & a' & d' & g' & x' & y' & z' & q1 & q2 & h' & U1 & U2 & U3 & _ & _ & Hd & Id & (v & w & _ & (_ & Hv) & Nv & Iv) & _ & _ & (_ & Hd') & Es & (v1 & w1 & _ & Hv1 & N1 & I1) & (v2 & w2 & _ & Hv2 & N2 & I2)).
  rewrite (Id eq_refl) in Hd. destruct Hd as [_ Hd]. rewrite E in Hd. injection Hd as <- <- <-.
  rewrite (Iv eq_refl), Hv in Hd'. injection Hd' as <- <- <-.
  exists q1, q2, h', w, w1, w2, v1, v2. split; [exact Es|]. split; [apply (unchanged_trans _ h1); [exact U1|apply (unchanged_trans _ h2); assumption]|]. auto 10.
Qed.
Lemma hue_example : normalised (120 + 180) 300.
Proof. exists 0%Z, 300. split; [lra|]. split; [lra|]. rewrite Rmin_left by lra. reflexivity. Qed.
