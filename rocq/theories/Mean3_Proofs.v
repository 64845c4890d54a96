(** * Averages of colours of the deep types in binary32: the functions (C213) *)
From Coq Require Import ZArith QArith Reals Lra Lia List Bool.
From Flocq Require Import Core IEEE754.BinarySingleNaN.
From Verif Require Import Arith Outcome ColorModel GammaModel MatrixModel SpaceModel Heap Converter Calculation F32 F32Facts RArith
  Spec Spec32 Laws NormalForms Alpha8 Core_Proofs Core2_Proofs Core3_Proofs Core4_Proofs Hue32 Spec_Matrix Spec_Conv
  Conv_Proofs Conv2_Proofs Conv3_Proofs Run_Proofs Round_Proofs Round2_Proofs Error_Proofs Error2_Proofs Error7_Proofs Error8_Proofs Spec_Error
  Calc_Proofs Calc3_Proofs Calc4_Proofs Spec_Byte Mean_Proofs Spec_Calc Spec_Mean Mean2_Proofs Oneway2_Proofs.
Import ListNotations.
Local Open Scope R_scope.
Local Notation fin x := (is_finite x = true).
Local Notation fval := (@B2R 24 128).

Section Mean.
Variable o : oracle.
Local Notation "$ n" := (@fz f32 (F32 o) n) (at level 0, n at level 0, format "$ n").
Local Notation "x +. y" := (@fadd f32 (F32 o) x y) (at level 50, left associativity).
Local Notation "x /. y" := (@fdiv f32 (F32 o) x y) (at level 40, left associativity).
Local Notation alpha := (@alpha f32 (F32 o)).
Local Notation fofZ := (@fofZ f32 (F32 o)).
Local Notation wf_color := (@wf_color f32 (F32 o)).

Definition keeps (X : ctype) (i : nat) (k : f32 -> f32) : Prop := forall v a e, near v a e -> IZR (fst (comp_range X i)) <= a <= IZR (snd (comp_range X i)) -> 0 <= e < 1 ->
  ((0 <= fst (comp_range X i))%Z -> 0 <= fval v) -> near (k v) a e.
Lemma keeps_clamp X i lo hi : comp_range X i = (lo, hi) -> small lo -> small hi -> (lo <= hi)%Z -> keeps X i (fun v => @clamp f32 (F32 o) v $hi $lo).
Proof. intros E Sl Sh L v a e N B He _. rewrite E in B. cbn in B. apply near_clampZ; auto. apply He. Qed.
Lemma keeps01 X i : comp_range X i = (0, 1)%Z -> keeps X i (@c01 f32 (F32 o)).
Proof. intros E. apply (keeps_clamp X i 0 1 E); [sm|sm|lia]. Qed.
Lemma keeps100 X i : comp_range X i = (0, 100)%Z -> keeps X i (@c100 f32 (F32 o)).
Proof. intros E. apply (keeps_clamp X i 0 100 E); [sm|sm|lia]. Qed.
Lemma keeps_hue X i : comp_range X i = (0, 359)%Z -> keeps X i (@hue_norm f32 (F32 o)).
Proof. intros E v a e N B He P. rewrite E in *. cbn in *. apply near_hue; auto. apply P. lia. Qed.

Lemma err_small n m : (Z.of_nat n <= 16384)%Z -> 1 <= IZR m <= 359 -> 0 <= mean_error n m < 1.
Proof.
  intros N M. apply IZR_le in N. rewrite <- INR_IZR_INZ in N. pose proof (pos_INR n). unfold mean_error.
  assert (0 <= (INR n + 3) * IZR m <= 16387 * 359) by (split; [apply Rmult_le_pos; lra|apply Rmult_le_compat; lra]). lra.
Qed.
Lemma kept X i k cs y r : In X all_types -> keeps X i k -> (i < arity X)%nat -> cs <> [] -> (Z.of_nat (length cs) <= 16384)%Z -> Forall (wf_color X) cs -> gather (part o i) cs $0 y ->
  nth_error (comps r) i = Some (k (y /. fofZ (Z.of_nat (length cs)))) ->
  comp_sat r i (approx (mean (map B2R (@components f32 (F32 o) i cs))) (mean_error (length cs) (magnitude X i))).
Proof.
  intros HX K L Ne N W G E. destruct (part_done o X i cs y HX L Ne N W G) as [A [B C]]. eexists. split; [exact E|].
  apply (K _ _ _ A B); [|exact C]. apply err_small; [exact N|apply mag_pos, HX].
Qed.

Lemma given X ia (h : heap f32) cs c m r : m = Ok r -> mean_of o X ia c cs r -> returns (bind (lift m) alloc) h (mean_of o X ia c cs).
Proof.
  intros E M. exists (length (colors h)), r, (Heap (colors h ++ [r]) (spaces h)). unfold bind, lift. rewrite E. split; [reflexivity|]. split; [apply at_new|exact M].
Qed.
Lemma finish ia s3 n X c cs (r : color f32) : ty r = X -> rgb_space r = rgb_space c -> cs <> [] -> n = Z.of_nat (length cs) -> (n <= 16384)%Z ->
  tailed ia (m_alpha c) cs $0 s3 -> m_alpha r = (if ia then s3 /. fofZ n else s3) ->
  (forall i, (i < arity X)%nat -> comp_sat r i (approx (mean (map B2R (@components f32 (F32 o) i cs))) (mean_error (length cs) (magnitude X i)))) ->
  mean_of o X ia c cs r.
Proof.
  intros T S Ne En N [G1 G2] A K. split; [exact T|]. split; [exact S|]. split; [exact K|]. split.
  - intros Ei. destruct (G2 Ei) as [_ G]. specialize (G Ne). rewrite A, Ei. exact G.
  - intros Ei _ Ok. specialize (G1 Ei). rewrite A, Ei. subst n. apply alpha_done; assumption.
Qed.

Section Three.
Variables (X : ctype) (mk : f32 -> f32 -> f32 -> f32 -> option nat -> outcome (color f32)) (k0 k1 k2 : f32 -> f32).
Hypothesis (HX : In X all_types) (H8 : eight_bit X = false) (H3 : arity X = 3%nat).
Hypothesis (K0 : keeps X 0 k0) (K1 : keeps X 1 k1) (K2 : keeps X 2 k2).
Hypothesis (MK : forall x y z a sp, exists r, mk x y z a sp = Ok r /\ ty r = X /\ comps r = [k0 x; k1 y; k2 z] /\ m_alpha r = a /\ rgb_space r = sp).
Lemma deep3 ia (h : heap f32) p ps c cs : points_to h (p :: ps) (c :: cs) -> Forall (wf_color X) (c :: cs) -> (Z.of_nat (length (c :: cs)) <= 16384)%Z ->
  returns (@average3 f32 (F32 o) X mk (p :: ps) ia) h (mean_of o X ia c (c :: cs)).
Proof.
  intros P W N. pose proof (points_length _ _ _ P) as LP. inversion P as [|? ? ? ? [i [-> Hi]] _]; subst. inversion W as [|? ? Wc _]; subst.
  destruct (loop_inv X (@sum3 f32 (F32 o) ia (alpha c)) (fun cs s t => let '(s0, s1, s2, s3) := s in let '(t0, t1, t2, t3) := t in
     gather (part o 0) cs s0 t0 /\ gather (part o 1) cs s1 t1 /\ gather (part o 2) cs s2 t2 /\ tailed ia (alpha c) cs s3 t3) h _ _ P W) with (s := ($0, $0, $0, $0)) as [[[[s0 s1] s2] s3] [E [G0 [G1 [G2 G3]]]]].
  { intros [[[t0 t1] t2] t3]. split; [apply (gather_nil)|]; split; [apply (gather_nil)|]; split; [apply (gather_nil)|apply tailed_nil]. }
  { intros d ds [[[t0 t1] t2] t3] Wd. destruct (Conv_Proofs.comps3 X d Wd H3) as [x [y [z Ed]]]. unfold sum3, with3. rewrite Ed. eexists. split; [reflexivity|].
    intros [[[v0 v1] v2] v3] [A0 [A1 [A2 A3]]]. split; [apply (gather_cons o); unfold part; rewrite Ed; assumption|]; split; [apply (gather_cons o); unfold part; rewrite Ed; assumption|]; split; [apply (gather_cons o); unfold part; rewrite Ed; assumption|apply (tailed_cons o ia (alpha c)); [apply (alpha_std d X Wd H8)|exact A3]]. }
  unfold average3.
  match goal with |- returns ?m h ?P => cut (returns (bind (lift (mk (s0 /. fofZ (Z.of_nat (length (c :: cs)))) (s1 /. fofZ (Z.of_nat (length (c :: cs)))) (s2 /. fofZ (Z.of_nat (length (c :: cs)))) (if ia then s3 /. fofZ (Z.of_nat (length (c :: cs))) else s3) (rgb_space c))) alloc) h P) end.
  { intros [q [r [h' [R K]]]]. exists q, r, h'. split; [|exact K]. unfold bind at 1. rewrite (load_as_ok h i c X Hi Wc). unfold bind at 1. rewrite E. rewrite <- LP in R. exact R. }
  destruct (MK (s0 /. fofZ (Z.of_nat (length (c :: cs)))) (s1 /. fofZ (Z.of_nat (length (c :: cs)))) (s2 /. fofZ (Z.of_nat (length (c :: cs)))) (if ia then s3 /. fofZ (Z.of_nat (length (c :: cs))) else s3) (rgb_space c)) as [r [Er [Tr [Cr [Ar Sr]]]]].
  rewrite (alpha_std c X Wc H8) in G3.
  eapply given; [exact Er|]. eapply finish; try eassumption; try discriminate; try reflexivity.
  intros j J. rewrite H3 in J. assert (J' : (j = 0 \/ j = 1 \/ j = 2)%nat) by lia.
  destruct J' as [-> | [-> | ->]]; [eapply (kept X 0 k0)|eapply (kept X 1 k1)|eapply (kept X 2 k2)]; try eassumption; try discriminate; try (rewrite H3; lia); rewrite Cr; reflexivity.
Qed.
End Three.

Lemma deep1 ia (h : heap f32) p ps c cs : points_to h (p :: ps) (c :: cs) -> Forall (wf_color GREY_DEEP) (c :: cs) -> (Z.of_nat (length (c :: cs)) <= 16384)%Z ->
  returns (@average_grey_deep f32 (F32 o) (p :: ps) ia) h (mean_of o GREY_DEEP ia c (c :: cs)).
Proof.
  intros P W N. pose proof (points_length _ _ _ P) as LP. inversion P as [|? ? ? ? [i [-> Hi]] _]; subst. inversion W as [|? ? Wc _]; subst.
  destruct (loop_inv GREY_DEEP (@sum1 f32 (F32 o) ia (alpha c)) (fun cs s t => let '(s0, s3) := s in let '(t0, t3) := t in
     gather (part o 0) cs s0 t0 /\ tailed ia (alpha c) cs s3 t3) h _ _ P W) with (s := ($0, $0)) as [[s0 s3] [E [G0 G3]]].
  { intros [t0 t3]. split; [apply (gather_nil)|apply tailed_nil]. }
  { intros d ds [t0 t3] Wd. destruct (Conv_Proofs.comps1 GREY_DEEP d Wd eq_refl) as [x Ed]. unfold sum1, with1. rewrite Ed. eexists. split; [reflexivity|].
    intros [v0 v3] [A0 A3]. split; [apply (gather_cons o); unfold part; rewrite Ed; assumption|apply (tailed_cons o ia (alpha c)); [apply (alpha_std d GREY_DEEP Wd eq_refl)|exact A3]]. }
  unfold average_grey_deep, average1.
  match goal with |- returns ?m h ?P => cut (returns (bind (lift (@grey_deepcolor f32 (F32 o) (s0 /. fofZ (Z.of_nat (length (c :: cs)))) (if ia then s3 /. fofZ (Z.of_nat (length (c :: cs))) else s3) (rgb_space c))) alloc) h P) end.
  { intros [q [r [h' [R K]]]]. exists q, r, h'. split; [|exact K]. unfold bind at 1. rewrite (load_as_ok h i c GREY_DEEP Hi Wc). unfold bind at 1. rewrite E. rewrite <- LP in R. exact R. }
  rewrite (alpha_std c GREY_DEEP Wc eq_refl) in G3.
  eapply given; [apply grey_deepcolor_nf|]. eapply finish; try eassumption; try discriminate; try reflexivity.
  intros j J. cbn [arity] in J. assert (j = 0)%nat as -> by lia.
  apply (kept GREY_DEEP 0 (@c01 f32 (F32 o)) (c :: cs) s0 _ ltac:(cbn; tauto) (keeps01 GREY_DEEP 0 eq_refl) ltac:(cbn; lia) ltac:(discriminate) N W G0). reflexivity.
Qed.
Lemma deep4 ia (h : heap f32) p ps c cs : points_to h (p :: ps) (c :: cs) -> Forall (wf_color CMYK) (c :: cs) -> (Z.of_nat (length (c :: cs)) <= 16384)%Z ->
  returns (@average_cmyk f32 (F32 o) (p :: ps) ia) h (mean_of o CMYK ia c (c :: cs)).
Proof.
  intros P W N. pose proof (points_length _ _ _ P) as LP. inversion P as [|? ? ? ? [i [-> Hi]] _]; subst. inversion W as [|? ? Wc _]; subst.
  destruct (loop_inv CMYK (@sum_cmyk f32 (F32 o) ia (alpha c)) (fun cs s t => let '(s0, s1, s2, s3, s4) := s in let '(t0, t1, t2, t3, t4) := t in
     gather (part o 0) cs s0 t0 /\ gather (part o 1) cs s1 t1 /\ gather (part o 2) cs s2 t2 /\ gather (part o 3) cs s3 t3 /\ (ia = false -> (cs = [] -> t4 = s4) /\ (cs <> [] -> t4 = alpha c))) h _ _ P W) with (s := ($0, $0, $0, $0, $0)) as [[[[[s0 s1] s2] s3] s4] [E [G0 [G1 [G2 [G3 G4]]]]]].
  { intros [[[[t0 t1] t2] t3] t4]. repeat (split; [apply (gather_nil)|]). intros _. split; [reflexivity|congruence]. }
  { intros d ds [[[[t0 t1] t2] t3] t4] Wd. destruct (Conv_Proofs.comps4 CMYK d Wd eq_refl) as [x [y [z [w Ed]]]]. unfold sum_cmyk, with4. rewrite Ed. eexists. split; [reflexivity|].
    intros [[[[v0 v1] v2] v3] v4] [A0 [A1 [A2 [A3 A4]]]]. do 4 (split; [apply (gather_cons o); unfold part; rewrite Ed; assumption|]).
    intros Ei. destruct (A4 Ei) as [B1 B2]. rewrite Ei in B1. split; [discriminate|]. intros _. destruct ds as [|d' ds]; [auto|apply B2; discriminate]. }
  unfold average_cmyk.
  match goal with |- returns ?m h ?P => cut (returns (bind (lift (@cmyk f32 (F32 o) (s0 /. fofZ (Z.of_nat (length (c :: cs)))) (s1 /. fofZ (Z.of_nat (length (c :: cs)))) (s2 /. fofZ (Z.of_nat (length (c :: cs)))) (s3 /. fofZ (Z.of_nat (length (c :: cs)))) (if ia then s4 /. fofZ (Z.of_nat (length (c :: cs))) else s4) (rgb_space c))) alloc) h P) end.
  { intros [q [r [h' [R K]]]]. exists q, r, h'. split; [|exact K]. unfold bind at 1. rewrite (load_as_ok h i c CMYK Hi Wc). unfold bind at 1. rewrite E. rewrite <- LP in R. exact R. }
  rewrite (alpha_std c CMYK Wc eq_refl) in G4.
  eapply given; [apply cmyk_nf|]. split; [reflexivity|]. split; [reflexivity|]. split; [|split].
  - intros j J. cbn [arity] in J. assert (J' : (j = 0 \/ j = 1 \/ j = 2 \/ j = 3)%nat) by lia.
    assert (HX : In CMYK all_types) by (cbn; tauto). assert (Ne : c :: cs <> []) by discriminate.
    destruct J' as [-> | [-> | [-> | ->]]].
    + apply (kept CMYK 0 (@c01 f32 (F32 o)) (c :: cs) s0 _ HX (keeps01 CMYK 0 eq_refl) J Ne N W G0). reflexivity.
    + apply (kept CMYK 1 (@c01 f32 (F32 o)) (c :: cs) s1 _ HX (keeps01 CMYK 1 eq_refl) J Ne N W G1). reflexivity.
    + apply (kept CMYK 2 (@c01 f32 (F32 o)) (c :: cs) s2 _ HX (keeps01 CMYK 2 eq_refl) J Ne N W G2). reflexivity.
    + apply (kept CMYK 3 (@c01 f32 (F32 o)) (c :: cs) s3 _ HX (keeps01 CMYK 3 eq_refl) J Ne N W G3). reflexivity.
  - intros Ei. destruct (G4 Ei) as [_ G]. specialize (G ltac:(discriminate)). cbn [m_alpha]. rewrite Ei. exact G.
  - intros _ C. contradiction (C eq_refl).
Qed.

Lemma deep_mean X ia (h : heap f32) p ps c cs : In X all_types -> eight_bit X = false -> points_to h (p :: ps) (c :: cs) -> Forall (wf_color X) (c :: cs) -> (Z.of_nat (length (c :: cs)) <= 16384)%Z ->
  returns (@average f32 (F32 o) X (p :: ps) ia) h (mean_of o X ia c (c :: cs)).
Proof.
  intros HX H8 P W N.
  pose proof (fun X k0 k1 k2 mk HX H8 H3 K0 K1 K2 MK P W => deep3 X mk k0 k1 k2 HX H8 H3 K0 K1 K2 MK ia h p ps c cs P W N) as D.
  assert (K : forall X i lo hi, comp_range X i = (lo, hi) -> small lo -> small hi -> (lo <= hi)%Z -> keeps X i (fun v => @clamp f32 (F32 o) v $hi $lo)) by apply keeps_clamp.
  destruct X; try discriminate H8; cbn [average].
  - apply (D RGB_DEEP _ _ _ _ HX H8 eq_refl (keeps01 RGB_DEEP 0 eq_refl) (keeps01 RGB_DEEP 1 eq_refl) (keeps01 RGB_DEEP 2 eq_refl)); [|exact P|exact W]. intros. rewrite rgb_deepcolor_nf. eexists. repeat (split; [reflexivity|]). reflexivity.
  - exact (deep1 ia h p ps c cs P W N).
  - exact (deep4 ia h p ps c cs P W N).
  - apply (D HSI _ _ _ _ HX H8 eq_refl (keeps_hue HSI 0 eq_refl) (keeps01 HSI 1 eq_refl) (keeps01 HSI 2 eq_refl)); [|exact P|exact W]. intros. rewrite hsi_nf. eexists. repeat (split; [reflexivity|]). reflexivity.
  - apply (D HSV _ _ _ _ HX H8 eq_refl (keeps_hue HSV 0 eq_refl) (keeps01 HSV 1 eq_refl) (keeps01 HSV 2 eq_refl)); [|exact P|exact W]. intros. rewrite hsv_nf. eexists. repeat (split; [reflexivity|]). reflexivity.
  - apply (D HSL _ _ _ _ HX H8 eq_refl (keeps_hue HSL 0 eq_refl) (keeps01 HSL 1 eq_refl) (keeps01 HSL 2 eq_refl)); [|exact P|exact W]. intros. rewrite hsl_nf. eexists. repeat (split; [reflexivity|]). reflexivity.
  - apply (D HCY _ _ _ _ HX H8 eq_refl (keeps_hue HCY 0 eq_refl) (keeps01 HCY 1 eq_refl) (keeps01 HCY 2 eq_refl)); [|exact P|exact W]. intros. rewrite hcy_nf. eexists. repeat (split; [reflexivity|]). reflexivity.
  - apply (D XYZ _ _ _ _ HX H8 eq_refl (keeps100 XYZ 0 eq_refl) (keeps100 XYZ 1 eq_refl) (keeps100 XYZ 2 eq_refl)); [|exact P|exact W]. intros. rewrite xyz_nf. eexists. repeat (split; [reflexivity|]). reflexivity.
  - apply (D XYY _ _ _ _ HX H8 eq_refl (keeps100 XYY 0 eq_refl) (keeps100 XYY 1 eq_refl) (keeps100 XYY 2 eq_refl)); [|exact P|exact W]. intros. rewrite xyy_nf. eexists. repeat (split; [reflexivity|]). reflexivity.
  - apply (D CIELUV _ _ _ _ HX H8 eq_refl (keeps100 CIELUV 0 eq_refl) (K CIELUV 1%nat (-100)%Z 100%Z eq_refl ltac:(sm) ltac:(sm) ltac:(lia)) (K CIELUV 2%nat (-100)%Z 100%Z eq_refl ltac:(sm) ltac:(sm) ltac:(lia))); [|exact P|exact W]. intros. rewrite cieluv_nf. eexists. repeat (split; [reflexivity|]). reflexivity.
  - apply (D LAB _ _ _ _ HX H8 eq_refl (keeps100 LAB 0 eq_refl) (K LAB 1%nat (-128)%Z 128%Z eq_refl ltac:(sm) ltac:(sm) ltac:(lia)) (K LAB 2%nat (-128)%Z 128%Z eq_refl ltac:(sm) ltac:(sm) ltac:(lia))); [|exact P|exact W]. intros. rewrite lab_nf. eexists. repeat (split; [reflexivity|]). reflexivity.
  - apply (D LCH_AB _ _ _ _ HX H8 eq_refl (keeps100 LCH_AB 0 eq_refl) (keeps100 LCH_AB 1 eq_refl) (K LCH_AB 2%nat 0%Z 359%Z eq_refl ltac:(sm) ltac:(sm) ltac:(lia))); [|exact P|exact W]. intros. rewrite lch_ab_nf. eexists. repeat (split; [reflexivity|]). reflexivity.
  - apply (D LCH_UV _ _ _ _ HX H8 eq_refl (keeps100 LCH_UV 0 eq_refl) (keeps100 LCH_UV 1 eq_refl) (K LCH_UV 2%nat 0%Z 359%Z eq_refl ltac:(sm) ltac:(sm) ltac:(lia))); [|exact P|exact W]. intros. rewrite lch_uv_nf. eexists. repeat (split; [reflexivity|]). reflexivity.
  - cbn in HX. repeat (destruct HX as [HX|HX]; [discriminate HX|]). contradiction.
Qed.
End Mean.

Lemma two_hues o k : (k = HSV \/ k = HSL \/ k = HCY) -> exists (h : heap f32) c x s v, points_to h [Some 0%nat; Some 0%nat] [c; c] /\ Forall (@wf_color f32 (F32 o) k) [c; c] /\
  comps c = [x; s; v] /\ B2R x = 200 /\ B2R s = 1 /\ B2R v = 1.
Proof.
  intros K. destruct (hue_exist o k K) as [h [c [x [s [v [A [W H]]]]]]]. exists h, c, x, s, v. split; [|split; [|exact H]].
  2: { apply Forall_cons; [exact W|]. apply Forall_cons; [exact W|]. apply Forall_nil. }
  repeat constructor; eexists; (split; [reflexivity|exact A]).
Qed.
Lemma error_pair : mean_error 2 1 = 5 / 16777216.
Proof. unfold mean_error. cbn [INR]. lra. Qed.
