(** * color_combinations: formulas, counterexamples and statements for binary32 *)
From Coq Require Import ZArith QArith Reals Lra Lia List Bool.
From Flocq Require Import Core IEEE754.BinarySingleNaN.
From Verif Require Import Arith Outcome ColorModel GammaModel MatrixModel SpaceModel Heap Converter Calculation Blend Adjust Combine
  Spec F32 RArith F32Facts Hue32 Spec32 Laws NormalForms History Core_Proofs Core2_Proofs Core3_Proofs Core4_Proofs Convert_Proofs Alpha8
  Spec_Matrix Spec_Conv Spec_Calc Spec_Blend Spec_Adjust Spec_Combine
  Conv_Proofs Conv2_Proofs Conv3_Proofs Total_Proofs HueR_Proofs Round_Proofs Calc_Proofs Calc2_Proofs Calc3_Proofs Blend_Proofs Blend2_Proofs Blend3_Proofs
  Adjust_Proofs Adjust2_Proofs Combine_Proofs.
Import ListNotations.

Section Structure.
Context {F : Type} {AF : Arith F} {AL : ArithLaws F} {A8 : Alpha8Laws F}.
Local Notation color := (color F).
Local Notation heap := (heap F).

(** ** LCh colours *)
Lemma turned_null f (h : heap) X a d p c : at_addr h a d -> wf_color HSL d -> at_addr h p c -> wf_color X c -> convertible X = false ->
  exists h', turned f (Some a) (Some p) h = (Ok None, h') /\ unchanged h h'.
Proof.
  intros Ha Wd Hp W C. destruct (comps3 _ d Wd eq_refl) as [x [y [z E]]].
  destruct (turned_run f h X a d p c x y z Ha Wd E Hp W) as [v [h1 [t [Ev [Wv [Av [Sv [U [Ft [At R]]]]]]]]]].
  exists h1. split; [|exact U]. rewrite R. destruct X; try discriminate C; reflexivity.
Qed.

Lemma loop_null X a d p c deg : wf_color HSL d -> wf_color X c -> convertible X = false ->
  forall is acc (h : heap), at_addr h a d -> at_addr h p c ->
  exists h', combination_loop deg (Some a) (Some p) acc is h = (Ok (acc ++ repeat None (length is)), h') /\ unchanged h h'.
Proof.
  intros Wd W C. induction is as [|i is IH]; intros acc h Ha Hp.
  - exists h. split; [simpl; rewrite app_nil_r; reflexivity|apply unchanged_refl].
  - destruct (turned_null (fun t => fadd t (fmul (fofZ i) deg)) h X a d p c Ha Wd Hp W C) as [h1 [E1 U1]].
    destruct (IH (acc ++ [None]) h1 (proj2 U1 _ _ Ha) (proj2 U1 _ _ Hp)) as [h' [E2 U2]].
    exists h'. split; [|apply (unchanged_trans _ h1); assumption].
    cbn [combination_loop length repeat]. unfold bind. rewrite E1. etransitivity; [exact E2|]. rewrite <- app_assoc. reflexivity.
Qed.

Lemma combination_null X n (h : heap) p c : (2 <= n <= 360)%Z -> at_addr h p c -> wf_color X c -> convertible X = false -> has_space h c ->
  exists h', create_combination (Some p) n h = (Ok (Some p :: repeat None (Z.to_nat (n - 1))), h').
Proof.
  intros Hn H W C N. destruct (to_hsl_ok h X p c H W (fun _ => N)) as [a [d [h1 [Ea [Aa [Wd [Ua Id]]]]]]].
  destruct (loop_null X a d p c (fdiv (fz 360) (fofZ n)) Wd W C (upto (n - 1)) [Some p] h1 Aa (proj2 Ua _ _ H)) as [h' [E2 U2]].
  exists h'. unfold create_combination. replace (n =? 0)%Z with false by (symmetry; apply Z.eqb_neq; lia).
  replace (n =? 1)%Z with false by (symmetry; apply Z.eqb_neq; lia). replace (360 <? n)%Z with false by (symmetry; apply Z.ltb_ge; lia).
  unfold bind. rewrite Ea. replace (n - 1 <? -2147483648)%Z with false by (symmetry; apply Z.ltb_ge; lia).
  rewrite <- upto_length. exact E2.
Qed.

Lemma complimentary_null X (h : heap) p c : at_addr h p c -> wf_color X c -> convertible X = false -> has_space h c ->
  exists h', create_complimentary (Some p) h = (Ok None, h').
Proof.
  intros H W C N. destruct (combination_null X 2 h p c ltac:(lia) H W C N) as [h' E]. exists h'.
  unfold create_complimentary, bind. rewrite E. reflexivity.
Qed.

Lemma split_null X amount (h : heap) p c : at_addr h p c -> wf_color X c -> convertible X = false -> has_space h c ->
  feq amount (fz 0) = false -> flt (fdiv (fz 360) (fz 3)) amount = false ->
  exists h', create_complimentary_split (Some p) amount h = (Undef, h').
Proof.
  intros H W C N D1 D2. destruct (to_hsl_ok h X p c H W (fun _ => N)) as [a [d [h1 [Ea [Aa [Wd [Ua Id]]]]]]].
  destruct (complimentary_null X h1 p c (proj2 Ua _ _ H) W C) as [h2 E2].
  { apply (unchanged_space h h1 c c Ua eq_refl N). }
  exists h2. unfold create_complimentary_split, bind. rewrite Ea, E2. unfold create_analogous. rewrite D1, D2. reflexivity.
Qed.

Lemma mono_step_null X mode pc (h : heap) p c : (0 <= mode <= 2)%Z -> at_addr h p c -> wf_color X c -> convertible X = false -> has_space h c ->
  exists h', mono_step (Some p) X mode pc (Some p) h = (Ok None, h').
Proof.
  intros Hm Hp W C N.
  destruct (to_hsl_ok h X p c Hp W (fun _ => N)) as [a [d [h1 [Ea [Aa [Wd [Ua Id]]]]]]].
  destruct (comps3 _ d Wd eq_refl) as [x [y [z E]]].
  destruct (hsl_made x y z (alpha c) (rgb_space c)) as [v [Ev [Wv [Av Sv]]]].
  pose (h2 := Heap (colors h1 ++ [v]) (spaces h1)). pose (n := length (colors h1)).
  assert (Er : restated (Some a) (Some p) h1 = (Ok (Some n), h2)).
  { unfold restated, bind. rewrite (load_as_ok h1 a d HSL Aa Wd), (load_ok h1 p c (proj2 Ua _ _ Hp)). unfold lift, with3. rewrite E, Ev. reflexivity. }
  assert (An : at_addr h2 n v) by apply at_new.
  assert (Un : unchanged h h2) by (apply (unchanged_trans _ h1); [exact Ua|apply unchanged_new]).
  assert (Fn : fresh h n) by (apply (fresh_unchanged h h1 n Ua); unfold fresh, n; lia).
  destruct (mono_adjust mode pc h h2 n v Hm An Wv Un Fn) as [v' [h3 [E3 _]]].
  assert (E4 : convertTo (F := F) (Some n) X h3 = (Ok None, h3)) by (destruct X; try discriminate C; reflexivity).
  exists h3. unfold mono_step, bind. rewrite Ea. unfold bind in E3. destruct mode as [|[m|[m|m|]|]|m]; try lia; rewrite Er.
  - rewrite E3. exact E4.
  - destruct (saturate_in_hsl_space (Some n) pc h2) as [[s| | |] hs]; try discriminate E3. rewrite E3. exact E4.
  - rewrite E3. exact E4.
Qed.

Lemma mono_null X mode amount n (h : heap) p c : (0 <= mode <= 2)%Z -> (3 <= n)%Z -> flt amount (fz 0) = false -> flt (fz 1) amount = false ->
  at_addr h p c -> wf_color X c -> convertible X = false -> has_space h c ->
  exists h', create_monochromatic (Some p) mode amount n h = (Undef, h').
Proof.
  intros Hm Hn A1 A2 H W C N.
  destruct (mono_step_null X mode (fmul amount (fz (-1))) h p c Hm H W C N) as [h1 E1].
  exists h1. unfold create_monochromatic. rewrite A1, A2. replace (n <=? 0)%Z with false by (symmetry; apply Z.leb_gt; lia).
  unfold bind at 1. rewrite (load_ok h p c H), (wf_ty _ _ W).
  replace (Z.to_nat (n - 1)) with (S (S (Z.to_nat (n - 3)))) by lia.
  cbn [mono_loop]. unfold bind at 1. rewrite E1. unfold bind at 1. unfold mono_step at 1. unfold bind at 1. reflexivity.
Qed.

(** ** Schemes of the other colours *)
Lemma split_ok X amount (h : heap) p c : feq amount (fz 0) = false -> flt (fdiv (fz 360) (fz 3)) amount = false ->
  at_addr h p c -> wf_color X c -> convertible X = true -> (cie X = true -> has_space h c) ->
  exists q1 q2 r1 r2 h', create_complimentary_split (Some p) amount h = (Ok [Some q1; Some p; Some q2], h') /\ unchanged h h' /\ q1 <> q2 /\
    fresh h q1 /\ fresh h q2 /\ at_addr h' q1 r1 /\ at_addr h' q2 r2 /\ wf_color X r1 /\ wf_color X r2 /\
    rgb_space r1 = rgb_space c /\ rgb_space r2 = rgb_space c.
Proof.
  intros D1 D2 H W C N. destruct (to_hsl_ok h X p c H W N) as [a [d [h1 [Ea [Aa [Wd [Ua Id]]]]]]].
  destruct (combination_ok X 2 h1 p c ltac:(lia) (proj2 Ua _ _ H) W C) as [a' [d' [h1' [x [y [z [qs [h2 [_ [_ [_ [_ [_ [E2 [L [U2 [ND K]]]]]]]]]]]]]]]]].
  { intros Q. apply (unchanged_space h h1 c c Ua eq_refl), N, Q. }
  destruct qs as [|q [|q' qs]]; [discriminate L| |discriminate L].
  destruct (K 0%nat q eq_refl) as [Fq [r [v [Ar [Wr [Sr _]]]]]].
  assert (U02 : unchanged h h2) by (apply (unchanged_trans _ h1); assumption).
  destruct (analogous_ok X amount h2 q r D1 D2 Ar Wr C) as [a2 [d2 [h3 [x2 [y2 [z2 [q1 [q2 [h4 [_ [_ [_ [_ [_ [E4 [U4 [ND4 K4]]]]]]]]]]]]]]]]].
  { intros Q. apply (unchanged_space h h2 c r U02 Sr), N, Q. }
  destruct (K4 0%nat q1 eq_refl) as [F1 [r1 [v1 [A1 [W1 [S1 _]]]]]]. destruct (K4 1%nat q2 eq_refl) as [F2 [r2 [v2 [A2 [W2 [S2 _]]]]]].
  exists q1, q2, r1, r2, h4. split.
  { unfold create_complimentary_split, bind. rewrite Ea. unfold create_complimentary, bind. rewrite E2. cbn [nth_error map ret].
    unfold ret at 1. rewrite E4. reflexivity. }
  split; [apply (unchanged_trans _ h2); assumption|]. split. { intros ->. apply NoDup_cons_iff in ND4. apply (proj1 ND4). left. reflexivity. }
  split; [apply (fresh_unchanged h h2); assumption|]. split; [apply (fresh_unchanged h h2); assumption|].
  do 4 (split; [assumption|]). split; congruence.
Qed.

Lemma mono_ok X mode amount n (h : heap) p c : (0 <= mode <= 2)%Z -> (1 <= n)%Z -> flt amount (fz 0) = false -> flt (fz 1) amount = false ->
  at_addr h p c -> wf_color X c -> convertible X = true -> (cie X = true -> has_space h c) ->
  exists qs h', create_monochromatic (Some p) mode amount n h = (Ok (Some p :: map Some qs), h') /\ length qs = Z.to_nat (n - 1) /\ unchanged h h' /\ NoDup qs /\
    (forall k q, nth_error qs k = Some q -> fresh h q /\ exists r, at_addr h' q r /\ wf_color X r /\ rgb_space r = rgb_space c) /\
    (X = HSL -> forall P : nat -> color -> Prop, P 0%nat c ->
      (forall k s t, P k s -> wf_color HSL s -> (forall x y z, comps s = [x; y; z] -> exists v, hsl x y z (alpha c) (rgb_space c) = Ok v /\
         forall x' y' z', comps v = [x'; y'; z'] -> comps t = mono_comps mode (fmul amount (fz (-1))) x' y' z') -> m_alpha t = alpha c -> P (S k) t) ->
      forall k q, nth_error qs k = Some q -> exists r, at_addr h' q r /\ P (S k) r).
Proof.
  intros Hm Hn A1 A2 H W C N.
  destruct (mono_loop_ok X mode (fmul amount (fz (-1))) p c Hm W C (Z.to_nat (n - 1)) [Some p] h p c H N H W eq_refl) as [qs [h' [E K]]].
  exists qs, h'. split; [|exact K].
  unfold create_monochromatic. rewrite A1, A2. replace (n <=? 0)%Z with false by (symmetry; apply Z.leb_gt; lia).
  unfold bind at 1. rewrite (load_ok h p c H), (wf_ty _ _ W). exact E.
Qed.

(** Without further colours the mode does not matter; with further colours an unknown one is rejected. *)
Lemma mono_single mode amount (h : heap) p c : flt amount (fz 0) = false -> flt (fz 1) amount = false -> at_addr h p c ->
  create_monochromatic (Some p) mode amount 1 h = (Ok [Some p], h).
Proof. intros A1 A2 H. unfold create_monochromatic. rewrite A1, A2. cbn [Z.leb Z.compare]. unfold bind. rewrite (load_ok h p c H). reflexivity. Qed.

Lemma mono_bad_mode X mode amount n (h : heap) p c : (mode < 0 \/ 2 < mode)%Z -> (2 <= n)%Z -> flt amount (fz 0) = false -> flt (fz 1) amount = false ->
  at_addr h p c -> wf_color X c -> (cie X = true -> has_space h c) ->
  throws_invalid (create_monochromatic (Some p) mode amount n) h.
Proof.
  intros Hm Hn A1 A2 H W N. destruct (to_hsl_ok h X p c H W N) as [a [d [h1 [Ea _]]]]. exists h1.
  unfold create_monochromatic. rewrite A1, A2. replace (n <=? 0)%Z with false by (symmetry; apply Z.leb_gt; lia).
  unfold bind at 1. rewrite (load_ok h p c H). replace (Z.to_nat (n - 1)) with (S (Z.to_nat (n - 2))) by lia.
  cbn [mono_loop]. unfold bind at 1, mono_step, bind at 1. rewrite Ea. destruct mode as [|[m|[m|m|]|]|m]; try lia; reflexivity.
Qed.
End Structure.

(** ** Exact arithmetic *)
Section Exact.
Local Open Scope R_scope.

Lemma hue_normalised v : normalised v (@hue_norm R RArith v).
Proof.
  destruct (Rfmod_rem v 360) as [k Ek]; [lra|].
  destruct (Rfmod_bounds v 360) as [B1 B2]; [lra|].
  assert (B : -360 < Rfmod v 360 < 360) by (destruct (Rle_lt_dec 0 v) as [H|H]; [apply B1 in H|apply B2 in H]; lra).
  clear B1 B2. unfold hue_norm, hue_fuel. cbn [wrap_negative]. rewrite !fzR. cbn [flt fadd ffmod RArith].
  set (r := Rfmod v 360) in *.
  assert (S : forall m, 0 <= m < 360 -> clamp (AF := RArith) m 359 0 = Rmin m 359).
  { intros m Hm. unfold clamp. cbn [fmin fmax RArith]. apply Rmax_left. apply Rmin_glb; lra. }
  destruct (Rltb r 0) eqn:E.
  - apply Rltb_true in E. rewrite (Rltb_ge (r + 360) 0) by lra.
    exists (k - 1)%Z, (r + 360). split; [rewrite minus_IZR; lra|]. split; [lra|]. apply S. lra.
  - apply Rltb_false in E. exists k, r. split; [lra|]. split; [lra|]. apply S. lra.
Qed.

Lemma hsl_turned w y z al sp v : @hsl R RArith w y z al sp = Ok v -> 0 <= y <= 1 -> 0 <= z <= 1 ->
  exists w', hsl_of v w' y z /\ normalised w w'.
Proof.
  intros E Hy Hz. rewrite (hsl_nf (AL := RLaws)) in E. apply Ok_inj in E. rewrite <- E.
  exists (@hue_norm R RArith w). split; [|apply hue_normalised]. split; [reflexivity|]. cbn [comps]. rewrite !c01R by assumption. reflexivity.
Qed.

Lemma hsl_ranges (d : color R) x y z : wf_color HSL d -> comps d = [x; y; z] -> 0 <= x <= 359 /\ 0 <= y <= 1 /\ 0 <= z <= 1.
Proof.
  intros W E. assert (B0 := wf_rng HSL d 0 x W). assert (B1 := wf_rng HSL d 1 y W). assert (B2 := wf_rng HSL d 2 z W).
  rewrite E in B0, B1, B2. specialize (B0 eq_refl). specialize (B1 eq_refl). specialize (B2 eq_refl). cbv in B0, B1, B2. lra.
Qed.

Lemma combination_hues n (h : heap R) X p c : (2 <= n <= 360)%Z -> at_addr h p c -> wf_color X c -> convertible X = true -> (cie X = true -> has_space h c) ->
  exists a d h1 x y z qs h', convertTo (Some p) HSL h = (Ok (Some a), h1) /\ at_addr h1 a d /\ hsl_of d x y z /\ (X = HSL -> d = c) /\
    create_combination (Some p) n h = (Ok (Some p :: map Some qs), h') /\ length qs = Z.to_nat (n - 1) /\
    forall k q, nth_error qs k = Some q -> exists v w, converted_from X h h' q v /\ hsl_of v w y z /\
      normalised (x + INR (S k) * (360 / IZR n)) w /\ (X = HSL -> at_addr h' q v).
Proof.
  intros Hn H W C N.
  destruct (combination_ok X n h p c Hn H W C N) as [a [d [h1 [x [y [z [qs [h' [Ea [Aa [Wd [Ed [Id [E [L [U [ND K]]]]]]]]]]]]]]]]].
  destruct (hsl_ranges d x y z Wd Ed) as [Hx [Hy Hz]].
  exists a, d, h1, x, y, z, qs, h'. split; [exact Ea|]. split; [exact Aa|]. split; [split; [apply (wf_ty _ _ Wd)|exact Ed]|].
  split; [exact Id|]. split; [exact E|]. split; [exact L|]. intros k q Hq.
  destruct (K k q Hq) as [Fq [r [v [Ar [Wr [Sr [G [CF [Wv [Av [_ Iv]]]]]]]]]]].
  destruct (hsl_turned _ _ _ _ _ _ G Hy Hz) as [w [Hv Nw]]. exists v, w. split; [exact CF|]. split; [exact Hv|]. split.
  - rewrite INR_IZR_INZ. rewrite fzR in Nw. exact Nw.
  - intros HX. rewrite <- (Iv HX). exact Ar.
Qed.

Lemma analogous_hues dist (h : heap R) X p c : dist <> 0 -> dist <= 120 -> at_addr h p c -> wf_color X c -> convertible X = true -> (cie X = true -> has_space h c) ->
  exists a d h1 x y z q1 q2 h', convertTo (Some p) HSL h = (Ok (Some a), h1) /\ at_addr h1 a d /\ hsl_of d x y z /\ (X = HSL -> d = c) /\
    create_analogous (Some p) dist h = (Ok [Some q1; Some p; Some q2], h') /\
    (exists v w, converted_from X h h' q1 v /\ hsl_of v w y z /\ normalised (x - dist) w /\ (X = HSL -> at_addr h' q1 v)) /\
    (exists v w, converted_from X h h' q2 v /\ hsl_of v w y z /\ normalised (x + dist) w /\ (X = HSL -> at_addr h' q2 v)).
Proof.
  intros D1 D2 H W C N.
  destruct (analogous_ok X dist h p c) as [a [d [h1 [x [y [z [q1 [q2 [h' [Ea [Aa [Wd [Ed [Id [E [U [ND K]]]]]]]]]]]]]]]]]; auto.
  { cbn [feq RArith]. rewrite fzR. apply Reqb_ne, D1. }
  { cbn [flt fdiv RArith]. rewrite !fzR. apply Rltb_ge. lra. }
  destruct (hsl_ranges d x y z Wd Ed) as [Hx [Hy Hz]].
  exists a, d, h1, x, y, z, q1, q2, h'. split; [exact Ea|]. split; [exact Aa|]. split; [split; [apply (wf_ty _ _ Wd)|exact Ed]|].
  split; [exact Id|]. split; [exact E|]. split.
  - destruct (K 0%nat q1 eq_refl) as [Fq [r [v [Ar [Wr [Sr [G [CF [Wv [Av [_ Iv]]]]]]]]]]].
    destruct (hsl_turned _ _ _ _ _ _ G Hy Hz) as [w [Hv Nw]]. exists v, w. split; [exact CF|]. split; [exact Hv|]. split; [exact Nw|].
    intros HX. rewrite <- (Iv HX). exact Ar.
  - destruct (K 1%nat q2 eq_refl) as [Fq [r [v [Ar [Wr [Sr [G [CF [Wv [Av [_ Iv]]]]]]]]]]].
    destruct (hsl_turned _ _ _ _ _ _ G Hy Hz) as [w [Hv Nw]]. exists v, w. split; [exact CF|]. split; [exact Hv|]. split; [exact Nw|].
    intros HX. rewrite <- (Iv HX). exact Ar.
Qed.

(** The monochromatic schemes of HSL colours are geometric sequences. *)

Lemma unit_pow f k : 0 <= f <= 1 -> 0 <= f ^ k <= 1.
Proof.
  intros H. induction k as [|k IH]; simpl; [lra|]. split; [apply Rmult_le_pos; lra|].
  replace 1 with (1 * 1) by ring. apply Rmult_le_compat; lra.
Qed.
Lemma unit_mul a b : 0 <= a <= 1 -> 0 <= b <= 1 -> 0 <= a * b <= 1.
Proof. intros H K. split; [apply Rmult_le_pos; lra|]. replace 1 with (1 * 1) by ring. apply Rmult_le_compat; lra. Qed.

Lemma mono_geometric mode amount n (h : heap R) p c x y z : (0 <= mode <= 2)%Z -> 0 <= amount <= 1 -> (1 <= n)%Z ->
  at_addr h p c -> wf_color HSL c -> comps c = [x; y; z] ->
  exists qs h', create_monochromatic (Some p) mode amount n h = (Ok (Some p :: map Some qs), h') /\ length qs = Z.to_nat (n - 1) /\
    forall k q, nth_error qs k = Some q -> exists r, at_addr h' q r /\ m_alpha r = m_alpha c /\
      hsl_of r x (fst (mono_values mode (1 - amount) y z (S k))) (snd (mono_values mode (1 - amount) y z (S k))).
Proof.
  intros Hm Ha Hn H W E. destruct (hsl_ranges c x y z W E) as [Hx [Hy Hz]].
  destruct (mono_ok HSL mode amount n h p c Hm Hn) as [qs [h' [E1 [L [U [ND [K1 K2]]]]]]]; auto.
  { cbn [flt RArith]. rewrite fzR. apply Rltb_ge. lra. }
  { cbn [flt RArith]. rewrite fzR. apply Rltb_ge. lra. }
  { intros Q. discriminate Q. }
  exists qs, h'. split; [exact E1|]. split; [exact L|].
  assert (Al : alpha c = m_alpha c) by (apply (alpha_std c HSL W eq_refl)).
  pose (P := fun k (r : color R) => m_alpha r = m_alpha c /\
     comps r = [x; fst (mono_values mode (1 - amount) y z k); snd (mono_values mode (1 - amount) y z k)]).
  assert (Hf : 0 <= 1 - amount <= 1) by lra.
  assert (G : forall k q, nth_error qs k = Some q -> exists r, at_addr h' q r /\ P (S k) r).
  { apply K2; [reflexivity| |].
    - split; [reflexivity|]. rewrite E. unfold mono_values. destruct mode as [|[m|[m|m|]|]|m]; try lia; cbn [fst snd pow]; rewrite ?Rmult_1_r; reflexivity.
    - intros k s t [As Cs] Ws Hs At. split; [rewrite At; exact Al|].
      destruct (Hs _ _ _ Cs) as [v [Ev Hv]]. rewrite (hsl_nf (AL := RLaws)) in Ev. apply Ok_inj in Ev.
      destruct (hsl_ranges s _ _ _ Ws Cs) as [_ [Sy Sz]].
      rewrite hue_norm_id, !c01R in Ev by (auto; lra).
      rewrite (Hv x (fst (mono_values mode (1 - amount) y z k)) (snd (mono_values mode (1 - amount) y z k))) by (rewrite <- Ev; reflexivity).
      unfold mono_comps. rewrite !fzR. cbn [feq fmul fadd RArith]. rewrite !clamp01.
      pose proof (unit_pow (1 - amount) k Hf) as Hp.
      destruct (Req_dec amount 0) as [A0|A0].
      + rewrite Reqb_eq by (rewrite A0; lra). unfold mono_values. subst amount. rewrite Rminus_0_r, !pow1. reflexivity.
      + rewrite Reqb_ne by lra. unfold mono_values.
        destruct mode as [|[m|[m|m|]|]|m]; try lia; cbn [fst snd] in *; rewrite ?unit_clamp_id;
          try (rewrite ?Rmult_assoc; apply unit_mul; [assumption|apply unit_mul; lra]); cbn [pow];
          repeat (f_equal; try ring). }
  intros k q Hq. destruct (G k q Hq) as [r [Ar [P1 P2]]]. exists r. split; [exact Ar|]. split; [exact P1|]. split; [|exact P2].
  destruct (K1 k q Hq) as [_ [r' [Ar' [Wr _]]]]. unfold at_addr in Ar, Ar'. rewrite Ar in Ar'. injection Ar' as <-. apply (wf_ty _ _ Wr).
Qed.
End Exact.

(** ** binary32 *)
Section Binary32.
Variable o : oracle.
Local Notation wf := (@wf_color f32 (F32 o)).

Lemma weight_good w : ~ outside_unit w -> @flt f32 (F32 o) w (@fz f32 (F32 o) 0) = false /\ @flt f32 (F32 o) (@fz f32 (F32 o) 1) w = false.
Proof.
  intros H. destruct (fz_val o 0) as [F0 V0]; [sm|]. destruct (fz_val o 1) as [F1 V1]; [sm|].
  set (z := @fz f32 (F32 o) 0) in *. set (u := @fz f32 (F32 o) 1) in *. clearbody z u.
  destruct (is_finite w) eqn:Fw.
  - cbn [flt F32]. rewrite !Bltb_fin by assumption. rewrite V0, V1. split; apply Rlt_bool_false; apply Rnot_lt_le; intros Q; apply H; right; right; split; auto.
  - destruct w as [s|s| |s m e B]; try discriminate Fw.
    + exfalso. apply H. destruct s; [right; left|left]; reflexivity.
    + split; [reflexivity|]. destruct u; reflexivity.
Qed.
Lemma weight_bad2 w : outside_unit w -> @flt f32 (F32 o) w (@fz f32 (F32 o) 0) = true \/ @flt f32 (F32 o) (@fz f32 (F32 o) 1) w = true.
Proof. intros H. apply orb_true_iff. exact (weight_bad o w H). Qed.

Lemma third_turn : is_value (@fdiv f32 (F32 o) (@fz f32 (F32 o) 360) (@fz f32 (F32 o) 3)) 120.
Proof.
  assert (K : is_finite (@fdiv f32 (F32 o) (@fz f32 (F32 o) 360) (@fz f32 (F32 o) 3)) &&
     Beqb (@fdiv f32 (F32 o) (@fz f32 (F32 o) 360) (@fz f32 (F32 o) 3)) (@fz f32 (F32 o) 120) = true) by (vm_compute; reflexivity).
  apply andb_true_iff in K. destruct K as [K1 K2]. destruct (fz_val o 120) as [F1 V1]; [sm|].
  split; [exact K1|]. rewrite Beqb_fin in K2 by assumption. rewrite <- V1. destruct (Req_bool_spec (fval (@fdiv f32 (F32 o) (@fz f32 (F32 o) 360) (@fz f32 (F32 o) 3))) (fval (@fz f32 (F32 o) 120))) as [Q|Q]; [exact Q|discriminate K2].
Qed.
Lemma above_third w : above 120 w -> @flt f32 (F32 o) (@fdiv f32 (F32 o) (@fz f32 (F32 o) 360) (@fz f32 (F32 o) 3)) w = true.
Proof.
  destruct third_turn as [Ft Vt]. set (t := @fdiv f32 (F32 o) (@fz f32 (F32 o) 360) (@fz f32 (F32 o) 3)) in *. clearbody t.
  intros [->|[Fw Hw]]; [apply flt_inf_r, Ft|]. cbn [flt F32]. rewrite Bltb_fin by assumption. apply Rlt_bool_true. rewrite Vt. exact Hw.
Qed.
Lemma not_above_third w : ~ above 120 w -> @flt f32 (F32 o) (@fdiv f32 (F32 o) (@fz f32 (F32 o) 360) (@fz f32 (F32 o) 3)) w = false.
Proof.
  destruct third_turn as [Ft Vt]. set (t := @fdiv f32 (F32 o) (@fz f32 (F32 o) 360) (@fz f32 (F32 o) 3)) in *. clearbody t.
  intros H. destruct (is_finite w) eqn:Fw.
  - cbn [flt F32]. rewrite Bltb_fin by assumption. apply Rlt_bool_false, Rnot_lt_le. intros Q. apply H. right. split; [exact Fw|]. rewrite <- Vt. exact Q.
  - destruct w as [s|s| |s m e B]; try discriminate Fw.
    + destruct s; [|exfalso; apply H; left; reflexivity]. destruct t as [s|s| |s m e B]; try discriminate Ft; [|destruct s]; reflexivity.
    + destruct t; reflexivity.
Qed.

Lemma result_new X c (h h' : heap f32) g qs : unchanged h h' -> @loop_result f32 (F32 o) X c h h' g qs -> new_colours X c h h' qs.
Proof.
  intros U [ND K]. split; [exact ND|]. split; [exact U|]. intros q Hq. apply In_nth_error in Hq. destruct Hq as [k Hk].
  destruct (K k q Hk) as [Fq [r [v [Ar [Wr [Sr _]]]]]]. split; [exact Fq|]. exists r. split; [exact Ar|]. split; [|exact Sr].
  apply (wf_colour o), Wr.
Qed.

Lemma combination_shape n (h : heap f32) X p c : (2 <= n <= 360)%Z -> at_addr h p c -> wf X c -> convertible X = true -> (cie X = true -> has_space h c) ->
  exists qs h', @create_combination f32 (F32 o) (Some p) n h = (Ok (Some p :: map Some qs), h') /\ length qs = Z.to_nat (n - 1) /\ new_colours X c h h' qs.
Proof.
  intros Hn H W C N.
  destruct (combination_ok (AF := F32 o) X n h p c Hn H W C N) as [a [d [h1 [x [y [z [qs [h' [Ea [Aa [Wd [Ed [Id [E [L [U K]]]]]]]]]]]]]]]].
  exists qs, h'. split; [exact E|]. split; [exact L|]. apply (result_new X c h h' _ qs U K).
Qed.

Lemma combination_bad n p (h : heap f32) : (n = 0 \/ n = 1 \/ 360 < n)%Z ->
  @create_combination f32 (F32 o) p n h = (Throw (by_pointer invalid_argument), h).
Proof. apply (combination_rejects (AF := F32 o)). Qed.

Lemma negative_accepted n (h : heap f32) X p c : (n < 0)%Z -> at_addr h p c -> wf X c -> (cie X = true -> has_space h c) ->
  ((-2147483647 <= n)%Z -> exists h', @create_combination f32 (F32 o) (Some p) n h = (Ok [Some p], h')) /\
  (n = (-2147483648)%Z -> exists h', @create_combination f32 (F32 o) (Some p) n h = (Undef, h')).
Proof.
  intros Hn H W N. split.
  - intros K. apply (combination_negative (AF := F32 o) n h X p c); auto.
  - intros ->. apply (combination_overflow (AF := F32 o) h X p c); auto.
Qed.

Lemma analogous_bad w p (h : heap f32) : is_value w 0 \/ above 120 w ->
  @create_analogous f32 (F32 o) p w h = (Throw (by_pointer invalid_argument), h).
Proof.
  intros H. unfold create_analogous. destruct H as [H|H].
  - rewrite (zero_eq o w H). reflexivity.
  - rewrite (above_third w H). destruct (@feq f32 (F32 o) w (@fz f32 (F32 o) 0)); reflexivity.
Qed.
Lemma analogous_shape w (h : heap f32) X p c : ~ is_value w 0 -> ~ above 120 w -> at_addr h p c -> wf X c -> convertible X = true -> (cie X = true -> has_space h c) ->
  exists q1 q2 h', @create_analogous f32 (F32 o) (Some p) w h = (Ok [Some q1; Some p; Some q2], h') /\ new_colours X c h h' [q1; q2].
Proof.
  intros D1 D2 H W C N. pose proof (nonzero_ne o w D1) as Q1. pose proof (not_above_third w D2) as Q2.
  destruct (analogous_ok (AF := F32 o) X w h p c Q1 Q2 H W C N) as [a [d [h1 [x [y [z [q1 [q2 [h' [Ea [Aa [Wd [Ed [Id [E [U K]]]]]]]]]]]]]]]].
  exists q1, q2, h'. split; [exact E|]. apply (result_new X c h h' _ _ U K).
Qed.

Lemma mono_bad mode amount n p (h : heap f32) : outside_unit amount \/ (n <= 0)%Z ->
  @create_monochromatic f32 (F32 o) p mode amount n h = (Throw (by_pointer invalid_argument), h).
Proof.
  intros H. unfold create_monochromatic. destruct H as [H|H].
  - destruct (weight_bad2 amount H) as [-> | ->]; [reflexivity|]. destruct (@flt f32 (F32 o) amount (@fz f32 (F32 o) 0)); reflexivity.
  - replace (n <=? 0)%Z with true by (symmetry; apply Z.leb_le; lia).
    destruct (@flt f32 (F32 o) amount (@fz f32 (F32 o) 0)), (@flt f32 (F32 o) (@fz f32 (F32 o) 1) amount); reflexivity.
Qed.
Lemma mono_shape mode amount n (h : heap f32) X p c : ~ outside_unit amount -> (1 <= n)%Z -> (n = 1 \/ 0 <= mode <= 2)%Z ->
  at_addr h p c -> wf X c -> convertible X = true -> (cie X = true -> has_space h c) ->
  exists qs h', @create_monochromatic f32 (F32 o) (Some p) mode amount n h = (Ok (Some p :: map Some qs), h') /\ length qs = Z.to_nat (n - 1) /\ new_colours X c h h' qs.
Proof.
  intros A Hn Hm H W C N. destruct (weight_good amount A) as [A1 A2]. destruct Hm as [-> | Hm].
  - exists [], h. split; [apply (mono_single (AF := F32 o) mode amount h p c A1 A2 H)|]. split; [reflexivity|].
    split; [constructor|]. split; [apply unchanged_refl|]. intros q [].
  - destruct (mono_ok (AF := F32 o) X mode amount n h p c Hm Hn A1 A2 H W C N) as [qs [h' [E [L [U [ND [K _]]]]]]].
    exists qs, h'. split; [exact E|]. split; [exact L|]. split; [exact ND|]. split; [exact U|].
    intros q Hq. apply In_nth_error in Hq. destruct Hq as [k Hk]. destruct (K k q Hk) as [Fq [r [Ar [Wr Sr]]]].
    split; [exact Fq|]. exists r. split; [exact Ar|]. split; [apply (wf_colour o), Wr|exact Sr].
Qed.
Lemma mono_mode mode amount n (h : heap f32) X p c : ~ outside_unit amount -> (2 <= n)%Z -> (mode < 0 \/ 2 < mode)%Z ->
  at_addr h p c -> wf X c -> (cie X = true -> has_space h c) -> throws_invalid (@create_monochromatic f32 (F32 o) (Some p) mode amount n) h.
Proof.
  intros A Hn Hm H W N. destruct (weight_good amount A) as [A1 A2]. apply (mono_bad_mode (AF := F32 o) X mode amount n h p c); auto.
Qed.

Lemma split_bad w (h : heap f32) X p c : is_value w 0 \/ above 120 w -> at_addr h p c -> wf X c -> (cie X = true -> has_space h c) ->
  throws_invalid (@create_complimentary_split f32 (F32 o) (Some p) w) h.
Proof.
  intros D H W N. assert (C : cie X = true \/ convertible X = true) by (pose proof (wf_real _ _ W); destruct X; auto; congruence).
  destruct (to_hsl_ok (AF := F32 o) h X p c H W N) as [a [d [h1 [Ea [Aa [Wd [Ua Id]]]]]]].
  assert (E2 : exists q h2, @create_complimentary f32 (F32 o) (Some p) h1 = (Ok q, h2)).
  { destruct (convertible X) eqn:CX.
    - destruct (combination_ok (AF := F32 o) X 2 h1 p c ltac:(lia) (proj2 Ua _ _ H) W CX) as [a' [d' [h1' [x [y [z [qs [h2 [_ [_ [_ [_ [_ [E2 [L _]]]]]]]]]]]]]]].
      { intros Q. apply (unchanged_space h h1 c c Ua eq_refl), N, Q. }
      destruct qs as [|q [|q' qs]]; try discriminate L. exists (Some q), h2. unfold create_complimentary, bind. rewrite E2. reflexivity.
    - destruct C as [C|C]; [|discriminate C].
      destruct (complimentary_null (AF := F32 o) X h1 p c (proj2 Ua _ _ H) W CX) as [h2 E2]. { apply (unchanged_space h h1 c c Ua eq_refl), N, C. }
      exists None, h2. exact E2. }
  destruct E2 as [q [h2 E2]]. exists h2. unfold create_complimentary_split, bind. rewrite Ea, E2, (analogous_bad w q h2 D). reflexivity.
Qed.
Lemma split_shape w (h : heap f32) X p c : ~ is_value w 0 -> ~ above 120 w -> at_addr h p c -> wf X c -> convertible X = true -> (cie X = true -> has_space h c) ->
  exists q1 q2 h', @create_complimentary_split f32 (F32 o) (Some p) w h = (Ok [Some q1; Some p; Some q2], h') /\ new_colours X c h h' [q1; q2].
Proof.
  intros D1 D2 H W C N.
  destruct (split_ok (AF := F32 o) X w h p c (nonzero_ne o w D1) (not_above_third w D2) H W C N)
    as [q1 [q2 [r1 [r2 [h' [E [U [D [F1 [F2 [A1 [A2 [W1 [W2 [S1 S2]]]]]]]]]]]]]]].
  exists q1, q2, h'. split; [exact E|]. split.
  { constructor; [intros [Q|[]]; congruence|]. constructor; [intros []|constructor]. }
  split; [exact U|]. intros q [<-|[<-|[]]]; (split; [assumption|]); [exists r1|exists r2]; (split; [assumption|]); (split; [apply (wf_colour o); assumption|assumption]).
Qed.

(** LCh colours *)
Lemma lch_schemes (h : heap f32) X p c : (X = LCH_AB \/ X = LCH_UV) -> at_addr h p c -> wf X c -> has_space h c ->
  (forall n, (2 <= n <= 360)%Z -> exists h', @create_combination f32 (F32 o) (Some p) n h = (Ok (Some p :: repeat None (Z.to_nat (n - 1))), h')) /\
  (forall mode amount n, (0 <= mode <= 2)%Z -> ~ outside_unit amount -> (3 <= n)%Z -> exists h', @create_monochromatic f32 (F32 o) (Some p) mode amount n h = (Undef, h')) /\
  (forall w, ~ is_value w 0 -> ~ above 120 w -> exists h', @create_complimentary_split f32 (F32 o) (Some p) w h = (Undef, h')).
Proof.
  intros HX H W N. assert (C : convertible X = false) by (destruct HX as [-> | ->]; reflexivity). split; [|split].
  - intros n Hn. apply (combination_null (AF := F32 o) X n h p c); auto.
  - intros mode amount n Hm A Hn. destruct (weight_good amount A) as [A1 A2]. apply (mono_null (AF := F32 o) X mode amount n h p c); auto.
  - intros w D1 D2. apply (split_null (AF := F32 o) X w h p c); auto; [apply nonzero_ne, D1|apply not_above_third, D2].
Qed.

(** Alpha *)
Lemma combination_alpha n (h : heap f32) X p c : (2 <= n <= 360)%Z -> at_addr h p c -> @reachable f32 (F32 o) c -> cls c = X -> convertible X = true -> eight_bit X = false ->
  (cie X = true -> has_space h c) -> in_interval 0 1 (m_alpha c) ->
  (X <> HSL -> forall a d h1, @convertTo f32 (F32 o) (Some p) HSL h = (Ok (Some a), h1) -> at_addr h1 a d -> ~ @black_hsl f32 (F32 o) d) ->
  exists qs h', @create_combination f32 (F32 o) (Some p) n h = (Ok (Some p :: map Some qs), h') /\
    forall q, In q qs -> exists r, at_addr h' q r /\ m_alpha r = m_alpha c.
Proof.
  intros Hn H R T C E8 N I NB. pose proof (reachable_wf o c R) as W. rewrite T in W.
  destruct (combination_ok (AF := F32 o) X n h p c Hn H W C N) as [a [d [h1 [x [y [z [qs [h' [Ea [Aa [Wd [Ed [Id [E [L [U [ND K]]]]]]]]]]]]]]]]].
  exists qs, h'. split; [exact E|]. intros q Hq. apply In_nth_error in Hq. destruct Hq as [k Hk].
  destruct (K k q Hk) as [Fq [r [v [Ar [Wr [Sr [G [_ [Wv [Av [RA Iv]]]]]]]]]]]. exists r. split; [exact Ar|].
  assert (Al : @alpha f32 (F32 o) c = m_alpha c) by (apply (alpha_std (AF := F32 o) c X W E8)).
  destruct (ctype_eq_dec X HSL) as [->|NX].
  - rewrite (Iv eq_refl), Av. exact Al.
  - destruct (RA NX) as [_ [_ Er]].
    + unfold alpha_ok. rewrite Av, Al. apply within_in_interval; try sm. exact I.
    + intros Q. rewrite (wf_ty _ _ Wv) in Q. discriminate Q.
    + intros [_ [x' [y' [z' [Cv Zv]]]]]. apply (NB NX a d h1 Ea Aa). split; [apply (wf_ty _ _ Wd)|].
      exists x, y, z. split; [exact Ed|]. rewrite (hsl_nf (AF := F32 o) (AL := F32Laws o)) in G. apply Ok_inj in G. rewrite <- G in Cv. cbn [comps] in Cv.
      assert (Cz : @c01 f32 (F32 o) z = z') by congruence.
      assert (Cid : @c01 f32 (F32 o) z = z).
      { unfold c01. apply (clamp_id (AF := F32 o)); try sm. apply (wf_range _ _ Wd 2%nat z). rewrite Ed. reflexivity. }
      rewrite <- Cz, Cid in Zv. exact Zv.
    + rewrite Er. unfold converted_alpha. rewrite E8. cbn [andb]. rewrite Av. exact Al.
Qed.
End Binary32.

(** ** Witnesses *)
Definition same32 (x y : f32) : bool := is_finite x && is_finite y && Beqb x y.
Lemma same32_value x y v : same32 x y = true -> is_value y v -> is_value x v.
Proof.
  intros H [_ V]. apply andb_true_iff in H. destruct H as [H E]. apply andb_true_iff in H. destruct H as [Fx Fy].
  rewrite Beqb_fin in E by assumption. split; [exact Fx|]. rewrite <- V.
  destruct (Req_bool_spec (fval x) (fval y)) as [Q|Q]; [exact Q|discriminate E].
Qed.

(** The alphas of the colour [c] and of the last colour of its combination of [n] colours. *)
Definition combined_alphas o (c : outcome (color f32)) (n : Z) : option (f32 * f32) :=
  match c with
  | Ok c => match @create_combination f32 (F32 o) (Some 0%nat) n (Heap [c] []) with
            | (Ok [Some _; Some q], h') => match nth_error (colors h') q with
                                           | Some r => Some (@alpha f32 (F32 o) c, @alpha f32 (F32 o) r)
                                           | None => None end
            | _ => None end
  | _ => None end.
Definition alphas_are o c n (x y : f32) : bool :=
  match combined_alphas o c n with Some (a, b) => same32 a x && same32 b y | None => false end.
Lemma alphas_are_ok o c n x y vx vy : alphas_are o (Ok c) n x y = true -> is_value x vx -> is_value y vy ->
  exists q r h', @create_combination f32 (F32 o) (Some 0%nat) n (Heap [c] []) = (Ok [Some 0%nat; Some q], h') /\ at_addr h' q r /\
    is_value (@alpha f32 (F32 o) c) vx /\ is_value (@alpha f32 (F32 o) r) vy.
Proof.
  intros H Vx Vy. unfold alphas_are, combined_alphas in H.
  destruct (@create_combination f32 (F32 o) (Some 0%nat) n (Heap [c] [])) as [[l| | |] h'] eqn:E; try discriminate H.
  assert (L : forall p l', l = p :: l' -> p = Some 0%nat).
  { intros p l' ->. clear H. unfold create_combination in E. destruct (n =? 0)%Z; [discriminate E|]. destruct (n =? 1)%Z; [discriminate E|].
    destruct (360 <? n)%Z; [discriminate E|]. unfold bind in E.
    destruct (@convertTo f32 (F32 o) (Some 0%nat) HSL (Heap [c] [])) as [[q| | |] h1]; try discriminate E.
    destruct (n - 1 <? -2147483648)%Z; [discriminate E|].
    assert (G : forall is acc h, (exists l1, acc = Some 0%nat :: l1) -> forall l2 h2, combination_loop (AF := F32 o) (@fdiv f32 (F32 o) (@fz f32 (F32 o) 360) (@fofZ f32 (F32 o) n)) q (Some 0%nat) acc is h = (Ok l2, h2) -> exists l1, l2 = Some 0%nat :: l1).
    { clear. induction is as [|i is IH]; intros acc h [l1 A] l2 h2 E; cbn [combination_loop] in E.
      - unfold ret in E. assert (Q : acc = l2) by congruence. rewrite <- Q. exists l1. exact A.
      - unfold bind in E. destruct (turned _ q (Some 0%nat) h) as [[t| | |] ht]; try discriminate E.
        apply IH in E; [exact E|]. exists (l1 ++ [t]). rewrite A. reflexivity. }
    destruct (G _ [Some 0%nat] h1 (ex_intro _ [] eq_refl) _ _ E) as [l1 Q]. congruence. }
  destruct l as [|[p|] [|[q|] [|? ?]]]; try discriminate H. assert (Q : Some p = Some 0%nat) by (apply (L _ _ eq_refl)). assert (Hp : p = 0%nat) by congruence. subst p.
  destruct (nth_error (colors h') q) as [r|] eqn:Er; [|discriminate H].
  apply andb_true_iff in H. destruct H as [H1 H2].
  exists q, r, h'. split; [reflexivity|]. split; [exact Er|]. split; [apply (same32_value _ x); assumption|apply (same32_value _ y); assumption].
Qed.

Lemma eight_bit_opaque o : exists c q r h', @reachable f32 (F32 o) c /\ cls c = RGB_TRUE /\
  @create_combination f32 (F32 o) (Some 0%nat) 2 (Heap [c] []) = (Ok [Some 0%nat; Some q], h') /\ at_addr h' q r /\
  is_value (@alpha f32 (F32 o) c) 51 /\ is_value (@alpha f32 (F32 o) r) 255.
Proof.
  destruct (fz_val o 51) as [F1 V1]; [sm|]. destruct (fz_val o 255) as [F2 V2]; [sm|].
  assert (K : alphas_are o (@rgb_truecolor f32 (F32 o) (@fz f32 (F32 o) 255) (@fz f32 (F32 o) 0) (@fz f32 (F32 o) 0) (@fz f32 (F32 o) 51) None) 2
     (@fz f32 (F32 o) 51) (@fz f32 (F32 o) 255) = true) by (vm_compute; reflexivity).
  destruct (@rgb_truecolor f32 (F32 o) (@fz f32 (F32 o) 255) (@fz f32 (F32 o) 0) (@fz f32 (F32 o) 0) (@fz f32 (F32 o) 51) None) as [c| | |] eqn:Ec; try discriminate K.
  destruct (alphas_are_ok o c 2 _ _ _ _ K (conj F1 V1) (conj F2 V2)) as [q [r [h' [E [A [B1 B2]]]]]].
  exists c, q, r, h'. split; [apply r_new; eapply mk_rgb_true; exact Ec|]. split; [|auto].
  rewrite (rgb_truecolor_nf (AF := F32 o)) in Ec. apply Ok_inj in Ec. rewrite <- Ec. reflexivity.
Qed.
Lemma black_transparent o : exists c q r h', @reachable f32 (F32 o) c /\ cls c = RGB_DEEP /\
  @create_combination f32 (F32 o) (Some 0%nat) 2 (Heap [c] []) = (Ok [Some 0%nat; Some q], h') /\ at_addr h' q r /\
  is_value (@alpha f32 (F32 o) c) 1 /\ is_value (@alpha f32 (F32 o) r) 0.
Proof.
  destruct (fz_val o 1) as [F1 V1]; [sm|]. destruct (fz_val o 0) as [F2 V2]; [sm|].
  assert (K : alphas_are o (@rgb_deepcolor f32 (F32 o) (@fz f32 (F32 o) 0) (@fz f32 (F32 o) 0) (@fz f32 (F32 o) 0) (@fz f32 (F32 o) 1) None) 2
     (@fz f32 (F32 o) 1) (@fz f32 (F32 o) 0) = true) by (vm_compute; reflexivity).
  destruct (@rgb_deepcolor f32 (F32 o) (@fz f32 (F32 o) 0) (@fz f32 (F32 o) 0) (@fz f32 (F32 o) 0) (@fz f32 (F32 o) 1) None) as [c| | |] eqn:Ec; try discriminate K.
  destruct (alphas_are_ok o c 2 _ _ _ _ K (conj F1 V1) (conj F2 V2)) as [q [r [h' [E [A [B1 B2]]]]]].
  exists c, q, r, h'. split; [apply r_new; eapply mk_rgb_deep; exact Ec|]. split; [|auto].
  rewrite (rgb_deepcolor_nf (AF := F32 o)) in Ec. apply Ok_inj in Ec. rewrite <- Ec. reflexivity.
Qed.

Definition lit_hsl o (c : outcome (color f32)) : bool :=
  match c with
  | Ok c => match @convertTo f32 (F32 o) (Some 0%nat) HSL (Heap [c] []) with
            | (Ok (Some a), h1) => match nth_error (colors h1) a with
                                   | Some d => match comps d with [x; y; z] => negb (@feq f32 (F32 o) z (@fz f32 (F32 o) 0)) | _ => false end
                                   | None => false end
            | _ => false end
  | _ => false end.
Lemma alpha_example o : exists c, @reachable f32 (F32 o) c /\ cls c = RGB_DEEP /\ in_interval 0 1 (m_alpha c) /\
  forall a d h1, @convertTo f32 (F32 o) (Some 0%nat) HSL (Heap [c] []) = (Ok (Some a), h1) -> at_addr h1 a d -> ~ @black_hsl f32 (F32 o) d.
Proof.
  destruct (fz_val o 1) as [F1 V1]; [sm|].
  assert (K : lit_hsl o (@rgb_deepcolor f32 (F32 o) (@fz f32 (F32 o) 1) (@fz f32 (F32 o) 0) (@fz f32 (F32 o) 0) (@fz f32 (F32 o) 1) None) = true) by (vm_compute; reflexivity).
  destruct (@rgb_deepcolor f32 (F32 o) (@fz f32 (F32 o) 1) (@fz f32 (F32 o) 0) (@fz f32 (F32 o) 0) (@fz f32 (F32 o) 1) None) as [c| | |] eqn:Ec; try discriminate K.
  exists c. split; [apply r_new; eapply mk_rgb_deep; exact Ec|].
  rewrite (rgb_deepcolor_nf (AF := F32 o)) in Ec. apply Ok_inj in Ec.
  split; [rewrite <- Ec; reflexivity|]. split.
  { rewrite <- Ec. cbn [m_alpha]. split; [exact F1|]. change (B2R (@fz f32 (F32 o) 1)) with (fval (@fz f32 (F32 o) 1)). rewrite V1. simpl; lra. }
  intros a d h1 E A [_ [x [y [z [Cd Z0]]]]]. unfold lit_hsl in K. rewrite E in K. unfold at_addr in A. rewrite A, Cd, Z0 in K. discriminate K.
Qed.

Lemma distance_example : ~ is_value (lit32 (1 # 2)) 0 /\ ~ above 120 (lit32 (1 # 2)) /\ ~ outside_unit (lit32 (1 # 2)) /\ above 120 (lit32 (200 # 1)).
Proof.
  destruct half_val as [F V]. destruct (lit32_int 200) as [V2 F2]; [sm|]. change (lit32 (inject_Z 200)) with (lit32 (200 # 1)) in *.
  set (w := lit32 (1 # 2)) in *. set (t := lit32 (200 # 1)) in *. clearbody w t. split; [|split; [|split]].
  - intros [_ Q]. change (fval w = 0)%R in Q. lra.
  - intros [Q|[_ Q]]; [rewrite Q in F; discriminate F|]. change (120 < fval w)%R in Q. lra.
  - intros [Q|[Q|[_ Q]]]; [rewrite Q in F; discriminate F|rewrite Q in F; discriminate F|]. change (fval w < 0 \/ 1 < fval w)%R in Q. lra.
  - right. split; [exact F2|]. change (120 < fval t)%R. rewrite V2. lra.
Qed.
