(** * color_calculation: averages (C56, C57) *)
From Coq Require Import ZArith QArith Reals Lra Lia List Bool Permutation.
From Flocq Require Import Core IEEE754.BinarySingleNaN.
From Verif Require Import Arith Outcome ColorModel GammaModel MatrixModel SpaceModel Heap Converter Calculation
  Spec F32 RArith F32Facts Spec32 Laws NormalForms Core_Proofs Core2_Proofs Alpha8 Spec_Matrix Spec_Conv Spec_Calc
  Conv_Proofs Conv2_Proofs Conv3_Proofs Convert_Proofs HueR_Proofs Round_Proofs Calc_Proofs Calc3_Proofs.
Import ListNotations.
Local Open Scope R_scope.

(** ** For every arithmetic: averages exist *)
Section AvgTotal.
Context {F : Type} {AF : Arith F} {AL : ArithLaws F}.
Local Notation color := (color F).

Definition avg_ok (X : ctype) (m : M F ptr) (h : heap F) (c0 : color) : Prop :=
  exists q r h', m h = (Ok (Some q), h') /\ fresh h q /\ at_addr h' q r /\ wf_color X r /\ rgb_space r = rgb_space c0 /\ unchanged h h'.

Lemma avg_finish X a (h : heap F) (c0 : color) m : made X a (rgb_space c0) m ->
  avg_ok X (bind (lift m) alloc) h c0.
Proof.
  intros [r [E [W [_ S]]]]. exists (length (colors h)), r, (Heap (colors h ++ [r]) (spaces h)).
  unfold bind, lift. rewrite E. split; [reflexivity|]. split; [unfold fresh; lia|]. split; [apply at_new|].
  split; [exact W|]. split; [exact S|apply unchanged_new].
Qed.

Lemma average3_ok X mk ia (h : heap F) p ps c cs : arity X = 3%nat ->
  (forall x y z a sp, made X (if eight_bit X then alpha8 a else a) sp (mk x y z a sp)) ->
  points_to h (p :: ps) (c :: cs) -> Forall (wf_color X) (c :: cs) -> avg_ok X (average3 X mk (p :: ps) ia) h c.
Proof.
  intros A K P W. inversion P as [|? ? ? ? [i [-> Hi]] _]; subst. inversion W as [|? ? Wc _]; subst.
  destruct (loop_inv X (sum3 ia (alpha c)) (fun _ _ _ => True) h _ _ P W) with (s := (fz 0, fz 0, fz 0, fz 0)) as [[[[s0 s1] s2] s3] [E _]]; auto.
  { intros d ds [[[t0 t1] t2] t3] Wd. destruct (comps3 X d Wd A) as [x [y [z Ed]]]. unfold sum3, with3. rewrite Ed. eauto. }
  unfold average3. unfold avg_ok. unfold bind at 1. rewrite (load_as_ok h i c X Hi Wc). unfold bind at 1. rewrite E. cbv zeta.
  eapply avg_finish, K.
Qed.
Lemma average1_ok X mk ia (h : heap F) p ps c cs : arity X = 1%nat ->
  (forall x a sp, made X (if eight_bit X then alpha8 a else a) sp (mk x a sp)) ->
  points_to h (p :: ps) (c :: cs) -> Forall (wf_color X) (c :: cs) -> avg_ok X (average1 X mk (p :: ps) ia) h c.
Proof.
  intros A K P W. inversion P as [|? ? ? ? [i [-> Hi]] _]; subst. inversion W as [|? ? Wc _]; subst.
  destruct (loop_inv X (sum1 ia (alpha c)) (fun _ _ _ => True) h _ _ P W) with (s := (fz 0, fz 0)) as [[s0 s1] [E _]]; auto.
  { intros d ds [t0 t1] Wd. destruct (comps1 X d Wd A) as [x Ed]. unfold sum1, with1. rewrite Ed. eauto. }
  unfold average1. unfold avg_ok. unfold bind at 1. rewrite (load_as_ok h i c X Hi Wc). unfold bind at 1. rewrite E. cbv zeta.
  eapply avg_finish, K.
Qed.
Lemma average_cmyk_ok ia (h : heap F) p ps c cs :
  points_to h (p :: ps) (c :: cs) -> Forall (wf_color CMYK) (c :: cs) -> avg_ok CMYK (average_cmyk (p :: ps) ia) h c.
Proof.
  intros P W. inversion P as [|? ? ? ? [i [-> Hi]] _]; subst. inversion W as [|? ? Wc _]; subst.
  destruct (loop_inv CMYK (sum_cmyk ia (alpha c)) (fun _ _ _ => True) h _ _ P W) with (s := (fz 0, fz 0, fz 0, fz 0, fz 0)) as [[[[[s0 s1] s2] s3] s4] [E _]]; auto.
  { intros d ds [[[[t0 t1] t2] t3] t4] Wd. destruct (comps4 CMYK d Wd eq_refl) as [x [y [z [k Ed]]]]. unfold sum_cmyk, with4. rewrite Ed. eauto. }
  unfold average_cmyk. unfold avg_ok. unfold bind at 1. rewrite (load_as_ok h i c CMYK Hi Wc). unfold bind at 1. rewrite E. cbv zeta.
  eapply avg_finish, cmyk_made.
Qed.
Lemma average_ok X ia (h : heap F) p ps c cs : X <> UNDEFINED ->
  points_to h (p :: ps) (c :: cs) -> Forall (wf_color X) (c :: cs) -> avg_ok X (average X (p :: ps) ia) h c.
Proof.
  intros UX P W. destruct X; try contradiction; cbn [average];
    try (apply (average3_ok _ _ ia h p ps c cs); auto); try (apply (average1_ok _ _ ia h p ps c cs); auto).
  - intros. apply rgb_truecolor_made.
  - intros. apply rgb_deepcolor_made.
  - intros. apply grey_truecolor_made.
  - intros. apply grey_deepcolor_made.
  - apply (average_cmyk_ok ia h p ps c cs); auto.
  - intros. apply hsi_made.
  - intros. apply hsv_made.
  - intros. apply hsl_made.
  - intros. apply hcy_made.
  - intros. apply xyz_made.
  - intros. apply xyy_made.
  - intros. apply cieluv_made.
  - intros. apply lab_made.
  - intros. apply lch_ab_made.
  - intros. apply lch_uv_made.
Qed.
Lemma average_empty X ia (h : heap F) : X <> UNDEFINED -> rejects (average X [] ia) h.
Proof. intros UX. destruct X; try contradiction; reflexivity. Qed.
End AvgTotal.

Lemma average_total o X ia (h : heap f32) ps p c cs : In X all_types ->
  points_to h (p :: ps) (c :: cs) -> Forall (@wf_color f32 (F32 o) X) (c :: cs) ->
  exists q r h', @average f32 (F32 o) X (p :: ps) ia h = (Ok (Some q), h') /\ fresh h q /\ at_addr h' q r /\ colour_of_type X r /\
    rgb_space r = rgb_space c /\ unchanged h h'.
Proof.
  intros HX P W. destruct (average_ok (AF := F32 o) X ia h p ps c cs) as [q [r [h' [E [Fq [A [V S]]]]]]]; auto.
  { apply types_real, HX. }
  exists q, r, h'. split; [exact E|]. split; [exact Fq|]. split; [exact A|]. split; [apply (wf32 o), V|exact S].
Qed.

(** ** Exact arithmetic: averages are means *)
Definition sumR (l : list R) : R := fold_right Rplus 0 l.
Lemma mean_bounds l lo hi : l <> [] -> Forall (fun x => lo <= x <= hi) l -> lo <= mean l <= hi.
Proof.
  intros N Hl. unfold mean.
  assert (B : lo * INR (length l) <= fold_right Rplus 0 l <= hi * INR (length l)).
  { clear N. induction Hl as [|x l Hx Hl IH]; [simpl; lra|]. cbn [fold_right length]. rewrite S_INR. lra. }
  assert (P : 0 < INR (length l)). { destruct l; [congruence|]. cbn [length]. rewrite S_INR. pose proof (pos_INR (length l)). lra. }
  split; apply (Rmult_le_reg_r (INR (length l))); auto; unfold Rdiv; rewrite Rmult_assoc, Rinv_l, Rmult_1_r by lra; lra.
Qed.
Lemma mean_perm l m : Permutation l m -> mean l = mean m.
Proof.
  intros P. unfold mean. rewrite (Permutation_length P). f_equal.
  induction P; cbn [fold_right]; lra.
Qed.

(** The alpha the constructor of an average gets. *)
Definition avg_alpha (ia : bool) (c0 : color R) (cs : list (color R)) : R := if ia then mean (map alpha cs) else alpha c0.

Definition is_mean (X : ctype) (cs : list (color R)) (r : color R) : Prop :=
  comps r = map (fun i => mean (components i cs)) (seq 0 (arity X)).

Lemma points_length {F} (h : heap F) ps cs : points_to h ps cs -> length ps = length cs.
Proof. intros H. induction H; cbn [length]; congruence. Qed.

Section Means.
Variables (X : ctype) (ia : bool) (h : heap R) (p : ptr) (ps : list ptr) (c : color R) (cs : list (color R)).
Hypothesis P : points_to h (p :: ps) (c :: cs).
Hypothesis W : Forall (wf_color X) (c :: cs).
Hypothesis A : eight_bit X = true -> Forall (fun c => 0 <= m_alpha c <= 1) (c :: cs).

Lemma mean_rng i : (i < arity X)%nat -> rng X i (mean (components i (c :: cs))).
Proof.
  intros Hi. apply mean_bounds; [discriminate|]. unfold components. apply Forall_map.
  eapply Forall_impl; [|exact W]. intros d Wd. cbv beta.
  destruct (nth_error (comps d) i) as [x|] eqn:E.
  - rewrite (nth_error_nth _ _ _ E). apply (wf_rng X d i x Wd E).
  - apply nth_error_None in E. rewrite (wf_len _ _ Wd) in E. lia.
Qed.
Lemma mean_alpha_rng : arng X (avg_alpha ia c (c :: cs)).
Proof.
  intros E8. specialize (A E8).
  assert (B : Forall (fun a => 0 <= a <= 255) (map alpha (c :: cs))).
  { apply Forall_map. rewrite Forall_forall in *. intros d Hd. apply (alpha_rng X d); auto. }
  unfold avg_alpha. destruct ia; [apply mean_bounds; [discriminate|exact B]|]. inversion B; subst. assumption.
Qed.
Lemma len_INR : @fofZ R RArith (Z.of_nat (length (p :: ps))) = INR (length (c :: cs)).
Proof. rewrite (points_length _ _ _ P). cbn [fofZ RArith]. symmetry. apply INR_IZR_INZ. Qed.
Lemma div_len s l : s = sumR l -> length l = length (c :: cs) -> @fdiv R RArith s (@fofZ R RArith (Z.of_nat (length (p :: ps)))) = mean l.
Proof. intros -> L. rewrite len_INR. unfold mean. rewrite L. reflexivity. Qed.
Lemma len_comp i : length (components i (c :: cs)) = length (c :: cs).
Proof. apply map_length. Qed.

Definition inv3 (a0 : R) (ds : list (color R)) (s s' : R * R * R * R) : Prop :=
  let '(s0, s1, s2, s3) := s in
  s' = (s0 + sumR (components 0 ds), s1 + sumR (components 1 ds), s2 + sumR (components 2 ds),
        if ia then s3 + sumR (map alpha ds) else match ds with [] => s3 | _ => a0 end).

Lemma average3_mean mk : arity X = 3%nat -> exact3 X mk ->
  returns (average3 X mk (p :: ps) ia) h (fun r => ty r = X /\ is_mean X (c :: cs) r /\ alpha r = avg_alpha ia c (c :: cs) /\ rgb_space r = rgb_space c).
Proof.
  intros AR K. assert (L : load_as X p h = (Ok c, h)).
  { pose proof P as P'. inversion P' as [|? ? ? ? [i [Ep Hi]] _]; subst. pose proof W as W'. inversion W' as [|? ? Wc _]; subst. apply (load_as_ok h i c X Hi Wc). }
  destruct (loop_inv X (sum3 ia (alpha c)) (inv3 (alpha c)) h _ _ P W) with (s := (@fz R RArith 0, @fz R RArith 0, @fz R RArith 0, @fz R RArith 0)) as [[[[s0 s1] s2] s3] [E I]].
  { intros [[[t0 t1] t2] t3]. unfold inv3, sumR. cbn [components map fold_right]. destruct ia; repeat f_equal; lra. }
  { intros d ds [[[t0 t1] t2] t3] Wd. destruct (comps3 X d Wd AR) as [x [y [z Ed]]].
    eexists. split. { unfold sum3, with3. rewrite Ed. reflexivity. }
    intros s2. unfold inv3, sumR. cbn [components map fold_right]. rewrite Ed. cbn [nth fadd RArith]. intros ->.
    destruct ia; [|destruct ds]; rewrite !Rplus_assoc; reflexivity. }
  unfold inv3 in I. rewrite !fzR, !Rplus_0_l in I.
  pose proof (mean_rng 0%nat ltac:(lia)) as R0. pose proof (mean_rng 1%nat ltac:(lia)) as R1. pose proof (mean_rng 2%nat ltac:(lia)) as R2.
  destruct (K _ _ _ _ (rgb_space c) R0 R1 R2 mean_alpha_rng) as [r [Er [T [C [Al S]]]]].
  exists (length (colors h)), r, (Heap (colors h ++ [r]) (spaces h)).
  split.
  { unfold average3. unfold bind at 1. rewrite L. rewrite I in E. unfold bind at 1. rewrite E. cbv beta iota zeta. unfold bind, lift.
    rewrite !(div_len _ _ eq_refl) by apply len_comp.
    replace (if ia then fdiv (if ia then sumR (map alpha (c :: cs)) else alpha c) (fofZ (Z.of_nat (length (p :: ps))))
      else if ia then sumR (map alpha (c :: cs)) else alpha c) with (avg_alpha ia c (c :: cs)).
    - rewrite Er. reflexivity.
    - unfold avg_alpha. destruct ia; [|reflexivity]. symmetry. apply div_len; [reflexivity|apply map_length]. }
  split; [apply at_new|]. split; [exact T|]. split; [|split; [exact Al|exact S]].
  unfold is_mean. rewrite AR, C. reflexivity.
Qed.

Definition inv1 (a0 : R) (ds : list (color R)) (s s' : R * R) : Prop :=
  let '(s0, s1) := s in
  s' = (s0 + sumR (components 0 ds), if ia then s1 + sumR (map alpha ds) else match ds with [] => s1 | _ => a0 end).

Lemma average1_mean mk : arity X = 1%nat -> exact1 X mk ->
  returns (average1 X mk (p :: ps) ia) h (fun r => ty r = X /\ is_mean X (c :: cs) r /\ alpha r = avg_alpha ia c (c :: cs) /\ rgb_space r = rgb_space c).
Proof.
  intros AR K. assert (L : load_as X p h = (Ok c, h)).
  { pose proof P as P'. inversion P' as [|? ? ? ? [i [Ep Hi]] _]; subst. pose proof W as W'. inversion W' as [|? ? Wc _]; subst. apply (load_as_ok h i c X Hi Wc). }
  destruct (loop_inv X (sum1 ia (alpha c)) (inv1 (alpha c)) h _ _ P W) with (s := (@fz R RArith 0, @fz R RArith 0)) as [[s0 s1] [E I]].
  { intros [t0 t1]. unfold inv1, sumR. cbn [components map fold_right]. destruct ia; repeat f_equal; lra. }
  { intros d ds [t0 t1] Wd. destruct (comps1 X d Wd AR) as [x Ed].
    eexists. split. { unfold sum1, with1. rewrite Ed. reflexivity. }
    intros s2. unfold inv1, sumR. cbn [components map fold_right]. rewrite Ed. cbn [nth fadd RArith]. intros ->.
    destruct ia; [|destruct ds]; rewrite !Rplus_assoc; reflexivity. }
  unfold inv1 in I. rewrite !fzR, !Rplus_0_l in I.
  pose proof (mean_rng 0%nat ltac:(lia)) as R0.
  destruct (K _ _ (rgb_space c) R0 mean_alpha_rng) as [r [Er [T [C [Al S]]]]].
  exists (length (colors h)), r, (Heap (colors h ++ [r]) (spaces h)).
  split.
  { unfold average1. unfold bind at 1. rewrite L. rewrite I in E. unfold bind at 1. rewrite E. cbv beta iota zeta. unfold bind, lift.
    rewrite !(div_len _ _ eq_refl) by apply len_comp.
    replace (if ia then fdiv (if ia then sumR (map alpha (c :: cs)) else alpha c) (fofZ (Z.of_nat (length (p :: ps))))
      else if ia then sumR (map alpha (c :: cs)) else alpha c) with (avg_alpha ia c (c :: cs)).
    - rewrite Er. reflexivity.
    - unfold avg_alpha. destruct ia; [|reflexivity]. symmetry. apply div_len; [reflexivity|apply map_length]. }
  split; [apply at_new|]. split; [exact T|]. split; [|split; [exact Al|exact S]].
  unfold is_mean. rewrite AR, C. reflexivity.
Qed.
End Means.

(** The alpha of average_cmyk with include_alpha: the mean of the black components plus
    the alpha of the last colour divided by the number of colours. *)
Definition cmyk_alpha (ia : bool) (c0 : color R) (cs : list (color R)) : R :=
  if ia then mean (components 3 cs) + alpha (last cs c0) / INR (length cs) else alpha c0.

Definition inv4 (ia : bool) (a0 : R) (ds : list (color R)) (s s' : R * R * R * R * R) : Prop :=
  let '(s0, s1, s2, s3, s4) := s in
  s' = (s0 + sumR (components 0 ds), s1 + sumR (components 1 ds), s2 + sumR (components 2 ds), s3 + sumR (components 3 ds),
        match ds with [] => s4 | d :: _ => if ia then s3 + sumR (components 3 ds) + alpha (last ds d) else a0 end).

Lemma last_ind {A} (x y : A) l d : last (x :: y :: l) d = last (y :: l) y.
Proof. revert y. induction l as [|z l IH]; intros y; [reflexivity|]. change (last (x :: y :: z :: l) d) with (last (y :: z :: l) d). 
  change (last (y :: z :: l) y) with (last (z :: l) y). clear. revert z. induction l as [|u l IH]; intros z; [reflexivity|].
  change (last (y :: z :: u :: l) d) with (last (z :: u :: l) d). change (last (z :: u :: l) y) with (last (u :: l) y).
  change (last (z :: u :: l) d) with (last (u :: l) d). clear. revert u. induction l as [|v l IH]; intros u; [reflexivity|].
  change (last (v :: l) d = last (v :: l) y). apply IH. Qed.

Lemma average_cmyk_mean ia (h : heap R) p ps c cs : points_to h (p :: ps) (c :: cs) -> Forall (wf_color CMYK) (c :: cs) ->
  returns (average_cmyk (p :: ps) ia) h (fun r => ty r = CMYK /\ is_mean CMYK (c :: cs) r /\ alpha r = cmyk_alpha ia c (c :: cs) /\ rgb_space r = rgb_space c).
Proof.
  intros P W. pose proof P as P'. inversion P' as [|? ? ? ? [i [Ep Hi]] _]; subst p. inversion W as [|? ? Wc _]; subst.
  destruct (loop_inv CMYK (sum_cmyk ia (alpha c)) (inv4 ia (alpha c)) h _ _ P W) with (s := (@fz R RArith 0, @fz R RArith 0, @fz R RArith 0, @fz R RArith 0, @fz R RArith 0)) as [[[[[s0 s1] s2] s3] s4] [E I]].
  { intros [[[[t0 t1] t2] t3] t4]. unfold inv4, sumR. cbn [components map fold_right]. repeat f_equal; lra. }
  { intros d ds [[[[t0 t1] t2] t3] t4] Wd. destruct (comps4 CMYK d Wd eq_refl) as [x [y [z [k Ed]]]].
    eexists. split. { unfold sum_cmyk, with4. rewrite Ed. reflexivity. }
    intros s2. unfold inv4, sumR, components. cbn [map fold_right]. rewrite Ed. cbn [nth fadd RArith]. intros ->.
    rewrite !Rplus_assoc. f_equal. destruct ds as [|e ds].
    - cbn [map fold_right last]. destruct ia; [|reflexivity]. rewrite Rplus_0_l. reflexivity.
    - destruct ia; [|reflexivity]. rewrite (last_ind d e ds d). cbn [map fold_right]. ring. }
  unfold inv4 in I. rewrite !fzR, !Rplus_0_l in I.
  pose proof (mean_rng CMYK c cs W 0%nat ltac:(simpl; lia)) as R0. pose proof (mean_rng CMYK c cs W 1%nat ltac:(simpl; lia)) as R1.
  pose proof (mean_rng CMYK c cs W 2%nat ltac:(simpl; lia)) as R2. pose proof (mean_rng CMYK c cs W 3%nat ltac:(simpl; lia)) as R3.
  destruct (cmyk_exact _ _ _ _ (cmyk_alpha ia c (c :: cs)) (rgb_space c) R0 R1 R2 R3) as [r [Er [T [C [Al S]]]]].
  exists (length (colors h)), r, (Heap (colors h ++ [r]) (spaces h)).
  split.
  { unfold average_cmyk. unfold bind at 1. rewrite (load_as_ok h i c CMYK Hi Wc). rewrite I in E. unfold bind at 1. rewrite E. cbv beta iota zeta. unfold bind, lift.
    rewrite !(div_len h (Some i) ps c cs P _ _ eq_refl) by apply len_comp.
    match goal with |- context [cmyk _ _ _ _ ?a _] => replace a with (cmyk_alpha ia c (c :: cs)) end.
    - rewrite Er. reflexivity.
    - unfold cmyk_alpha. destruct ia; [|reflexivity]. rewrite (len_INR h (Some i) ps c cs P). cbn [fdiv RArith].
      unfold Rdiv. rewrite Rmult_plus_distr_r. f_equal. unfold mean. rewrite len_comp. reflexivity. }
  split; [apply at_new|]. split; [exact T|]. split; [|split; [exact Al|exact S]].
  unfold is_mean. rewrite C. reflexivity.
Qed.

Lemma average_means X ia (h : heap R) p ps c cs : In X all_types -> points_to h (p :: ps) (c :: cs) -> Forall (wf_color X) (c :: cs) ->
  (eight_bit X = true -> Forall (fun c => 0 <= m_alpha c <= 1) (c :: cs)) ->
  returns (average X (p :: ps) ia) h (fun r => ty r = X /\ comps r = map (fun i => mean (components i (c :: cs))) (seq 0 (arity X)) /\
    rgb_space r = rgb_space c /\ (ia = false -> alpha r = alpha c) /\ (ia = true -> X <> CMYK -> alpha r = mean (map alpha (c :: cs)))).
Proof.
  intros HX P W A.
  assert (G : (returns (average X (p :: ps) ia) h (fun r => ty r = X /\ is_mean X (c :: cs) r /\ alpha r = avg_alpha ia c (c :: cs) /\ rgb_space r = rgb_space c)) \/
    X = CMYK).
  { destruct X; try (right; reflexivity); left; cbn [average];
      try (apply (average3_mean _ ia h p ps c cs P W A _ eq_refl)); try (apply (average1_mean _ ia h p ps c cs P W A _ eq_refl)).
    - apply rgb_true_exact.
    - apply rgb_deep_exact.
    - apply grey_true_exact.
    - apply grey_deep_exact.
    - apply hsi_exact.
    - apply hsv_exact.
    - apply hsl_exact.
    - apply hcy_exact.
    - apply xyz_exact.
    - apply xyy_exact.
    - apply cieluv_exact.
    - apply lab_exact.
    - apply lch_ab_exact.
    - apply lch_uv_exact.
    - simpl in HX. exfalso. intuition discriminate. }
  destruct G as [[q [r [h' [E [Hq [T [C [Al S]]]]]]]]| ->].
  - exists q, r, h'. split; [exact E|]. split; [exact Hq|]. split; [exact T|]. split; [exact C|]. split; [exact S|].
    split; [intros ->; exact Al|intros -> _; exact Al].
  - destruct (average_cmyk_mean ia h p ps c cs P W) as [q [r [h' [E [Hq [T [C [Al S]]]]]]]].
    exists q, r, h'. split; [exact E|]. split; [exact Hq|]. split; [exact T|]. split; [exact C|]. split; [exact S|].
    split; [intros ->; exact Al|intros _ K; exfalso; apply K; reflexivity].
Qed.

(** The order of the list does not matter. *)
Lemma average_order X (h : heap R) ps cs ps' cs' : In X all_types -> X <> CMYK -> ps <> [] -> points_to h ps cs -> points_to h ps' cs' -> Permutation cs cs' ->
  Forall (wf_color X) cs -> (eight_bit X = true -> Forall (fun c => 0 <= m_alpha c <= 1) cs) ->
  exists q r h1 q' r' h2, average X ps true h = (Ok (Some q), h1) /\ at_addr h1 q r /\ average X ps' true h = (Ok (Some q'), h2) /\ at_addr h2 q' r' /\
    comps r = comps r' /\ alpha r = alpha r'.
Proof.
  intros HX NC N P P' Pm W A.
  assert (W' : Forall (wf_color X) cs') by (apply (Permutation_Forall Pm W)).
  assert (A' : eight_bit X = true -> Forall (fun c => 0 <= m_alpha c <= 1) cs') by (intros E8; apply (Permutation_Forall Pm (A E8))).
  destruct P as [|p c ps cs Hp P]; [exfalso; apply N; reflexivity|]. destruct P' as [|p' c' ps' cs' Hp' P']. { apply Permutation_sym, Permutation_nil in Pm. discriminate Pm. }
  destruct (average_means X true h p ps c cs HX (Forall2_cons _ _ Hp P) W A) as [q [r [h1 [E [Hq [_ [C [_ [_ Al]]]]]]]]].
  destruct (average_means X true h p' ps' c' cs' HX (Forall2_cons _ _ Hp' P') W' A') as [q' [r' [h2 [E' [Hq' [_ [C' [_ [_ Al']]]]]]]]].
  exists q, r, h1, q', r', h2. do 4 (split; [assumption|]). split.
  - rewrite C, C'. apply map_ext. intros i. apply mean_perm. apply Permutation_map, Pm.
  - rewrite (Al eq_refl NC), (Al' eq_refl NC). apply mean_perm, Permutation_map, Pm.
Qed.
