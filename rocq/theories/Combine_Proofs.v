(** * color_combinations: the structure of the schemes *)
From Coq Require Import ZArith QArith Reals Lra Lia List Bool.
From Flocq Require Import Core IEEE754.BinarySingleNaN.
From Verif Require Import Arith Outcome ColorModel GammaModel MatrixModel SpaceModel Heap Converter Calculation Blend Adjust Combine
  Spec F32 RArith F32Facts Hue32 Spec32 Laws NormalForms History Core_Proofs Core2_Proofs Core3_Proofs Core4_Proofs Convert_Proofs Alpha8
  Spec_Matrix Spec_Conv Spec_Calc Spec_Blend Spec_Adjust Spec_Combine
  Conv_Proofs Conv2_Proofs Conv3_Proofs Total_Proofs HueR_Proofs Round_Proofs Calc_Proofs Calc2_Proofs Calc3_Proofs Blend_Proofs Blend2_Proofs Blend3_Proofs
  Adjust_Proofs Adjust2_Proofs.
Import ListNotations.

Section Combine.
Context {F : Type} {AF : Arith F} {AL : ArithLaws F} {A8 : Alpha8Laws F}.
Local Notation color := (color F).
Local Notation heap := (heap F).

Lemma load_ok (h : heap) p c : at_addr h p c -> load (Some p) h = (Ok c, h).
Proof. intros H. unfold load. unfold at_addr in H. rewrite H. reflexivity. Qed.

Lemma fresh_unchanged (h h1 : heap) q : unchanged h h1 -> fresh h1 q -> fresh h q.
Proof. intros U Fq. pose proof (unchanged_len _ _ U). unfold fresh in *. lia. Qed.

Lemma converted_mono X (h h1 h2 h' : heap) q v : unchanged h h1 -> unchanged h2 h' -> converted_from X h1 h2 q v -> converted_from X h h' q v.
Proof.
  intros U U' [p [ha [hb [U1 [Fp [A [E U2]]]]]]]. exists p, ha, hb. split; [apply (unchanged_trans _ h1); assumption|].
  split; [apply (fresh_unchanged h h1); assumption|]. split; [exact A|]. split; [exact E|]. apply (unchanged_trans _ h2); assumption.
Qed.

(** One new colour: its HSL colour, and its conversion. *)
Lemma turned_run f (h : heap) X a d p c x y z : at_addr h a d -> wf_color HSL d -> comps d = [x; y; z] -> at_addr h p c -> wf_color X c ->
  exists v h1 q, hsl (f x) y z (alpha c) (rgb_space c) = Ok v /\ wf_color HSL v /\ m_alpha v = alpha c /\ rgb_space v = rgb_space c /\
    unchanged h h1 /\ fresh h q /\ at_addr h1 q v /\ turned f (Some a) (Some p) h = convertTo (Some q) X h1.
Proof.
  intros Ha Wd E Hp W. destruct (hsl_made (f x) y z (alpha c) (rgb_space c)) as [v [Ev [Wv [Av Sv]]]].
  exists v, (Heap (colors h ++ [v]) (spaces h)), (length (colors h)). do 4 (split; [assumption|]).
  split; [apply unchanged_new|]. split; [unfold fresh; lia|]. split; [apply at_new|].
  unfold turned, bind. rewrite (load_as_ok h a d HSL Ha Wd), (load_ok h p c Hp). unfold lift, with3. rewrite E, Ev.
  unfold alloc. rewrite (wf_ty _ _ W). reflexivity.
Qed.

Lemma turned_ok f (h : heap) X a d p c x y z : at_addr h a d -> wf_color HSL d -> comps d = [x; y; z] -> at_addr h p c -> wf_color X c ->
  convertible X = true -> (cie X = true -> has_space h c) ->
  exists q r v h', turned f (Some a) (Some p) h = (Ok (Some q), h') /\ fresh h q /\ at_addr h' q r /\ wf_color X r /\
    rgb_space r = rgb_space c /\ unchanged h h' /\ hsl (f x) y z (alpha c) (rgb_space c) = Ok v /\ wf_color HSL v /\ m_alpha v = alpha c /\
    converted_from X h h' q v /\ (X <> HSL -> rel_alpha HSL X v r) /\ (X = HSL -> r = v).
Proof.
  intros Ha Wd E Hp W C N.
  destruct (turned_run f h X a d p c x y z Ha Wd E Hp W) as [v [h1 [t [Ev [Wv [Av [Sv [U [Ft [At R]]]]]]]]]].
  destruct (back HSL X h h1 t v U Ft At Wv C) as [q [r [h2 [E2 [Fq [Aq [Wr [Sr [U2 [R2 I2]]]]]]]]]].
  { intros K. apply (unchanged_space h h1 c v U Sv). apply N, K. }
  exists q, r, v, h2. split; [rewrite R; exact E2|]. split; [exact Fq|]. split; [exact Aq|]. split; [exact Wr|]. split; [congruence|].
  split; [exact U2|]. split; [exact Ev|]. split; [exact Wv|]. split; [exact Av|]. split.
  { exists t, h1, h2. split; [exact U|]. split; [exact Ft|]. split; [exact At|]. split; [exact E2|apply unchanged_refl]. }
  split; [intros K; apply R2; congruence|]. intros K. apply (I2 (eq_sym K)).
Qed.

(** The colours a loop appends. *)
Definition loop_result (X : ctype) (c : color) (h h' : heap) (g : nat -> color -> Prop) (qs : list nat) : Prop :=
  NoDup qs /\ forall k q, nth_error qs k = Some q -> fresh h q /\ exists r v, at_addr h' q r /\ wf_color X r /\ rgb_space r = rgb_space c /\
    g k v /\ converted_from X h h' q v /\ wf_color HSL v /\ m_alpha v = alpha c /\ (X <> HSL -> rel_alpha HSL X v r) /\ (X = HSL -> r = v).

Lemma loop_ok X a d p c x y z deg : wf_color HSL d -> comps d = [x; y; z] -> wf_color X c -> convertible X = true ->
  forall is acc (h : heap), at_addr h a d -> at_addr h p c -> (cie X = true -> has_space h c) ->
  exists qs h', combination_loop deg (Some a) (Some p) acc is h = (Ok (acc ++ map Some qs), h') /\ length qs = length is /\
    unchanged h h' /\ loop_result X c h h' (fun k v => exists i, nth_error is k = Some i /\ hsl (fadd x (fmul (fofZ i) deg)) y z (alpha c) (rgb_space c) = Ok v) qs.
Proof.
  intros Wd E W C. induction is as [|i is IH]; intros acc h Ha Hp N.
  - exists [], h. split; [simpl; rewrite app_nil_r; reflexivity|]. split; [reflexivity|]. split; [apply unchanged_refl|].
    split; [constructor|]. intros k q H. destruct k; discriminate H.
  - destruct (turned_ok (fun t => fadd t (fmul (fofZ i) deg)) h X a d p c x y z Ha Wd E Hp W C N)
      as [q [r [v [h1 [E1 [Fq [Aq [Wr [Sr [U1 [Ev [Wv [Av [CF [RA RI]]]]]]]]]]]]]]].
    destruct (IH (acc ++ [Some q]) h1 (proj2 U1 _ _ Ha) (proj2 U1 _ _ Hp)) as [qs [h' [E2 [L [U2 [ND K]]]]]].
    { intros Q. apply (unchanged_space h h1 c c U1 eq_refl), N, Q. }
    exists (q :: qs), h'. split.
    { cbn [combination_loop mono_loop map]. unfold bind. rewrite E1. etransitivity; [exact E2|]. rewrite <- app_assoc. reflexivity. }
    split; [simpl; congruence|]. split; [apply (unchanged_trans _ h1); assumption|]. split.
    { constructor; [|exact ND]. intros I. apply In_nth_error in I. destruct I as [k Hk]. destruct (K k q Hk) as [Fk _].
      apply at_addr_lt in Aq. unfold fresh in Fk. lia. }
    intros [|k] q' Hk; simpl in Hk.
    + injection Hk as <-. split; [exact Fq|]. exists r, v. split; [apply U2, Aq|]. do 2 (split; [assumption|]).
      split; [exists i; auto|]. split; [apply (converted_mono X h h h1 h' q v); [apply unchanged_refl|exact U2|exact CF]|]. auto.
    + destruct (K k q' Hk) as [Fk [r' [v' [A' [W' [S' [G' [C' R']]]]]]]]. split; [apply (fresh_unchanged h h1); assumption|].
      exists r', v'. split; [exact A'|]. do 2 (split; [assumption|]). split; [exact G'|]. split; [|exact R'].
      apply (converted_mono X h h1 h' h' q' v' U1); [apply unchanged_refl|exact C'].
Qed.

Lemma upto_nth n k : (k < Z.to_nat n)%nat -> nth_error (upto n) k = Some (Z.of_nat (S k)).
Proof.
  intros H. unfold upto. rewrite nth_error_map. rewrite (nth_error_nth' _ 0%nat) by (rewrite seq_length; exact H).
  rewrite seq_nth by exact H. reflexivity.
Qed.
Lemma upto_length n : length (upto n) = Z.to_nat n.
Proof. unfold upto. rewrite map_length, seq_length. reflexivity. Qed.

(** The first conversion. *)
Lemma to_hsl_ok (h : heap) X p c : at_addr h p c -> wf_color X c -> (cie X = true -> has_space h c) ->
  exists a d h1, convertTo (Some p) HSL h = (Ok (Some a), h1) /\ at_addr h1 a d /\ wf_color HSL d /\ unchanged h h1 /\ (X = HSL -> d = c).
Proof.
  intros H W N. destruct (to_pure X HSL (wf_real _ _ W) ltac:(discriminate) (or_intror eq_refl) h p c H W)
    as [a [d [h1 [Ea [Aa [Wd [Sd [Ua [_ [_ Id]]]]]]]]]].
  { unfold needs_space. rewrite orb_false_r. exact N. }
  exists a, d, h1. split; [exact Ea|]. do 3 (split; [assumption|]). intros K. apply (Id K).
Qed.

Lemma combination_ok X n (h : heap) p c : (2 <= n <= 360)%Z -> at_addr h p c -> wf_color X c -> convertible X = true -> (cie X = true -> has_space h c) ->
  exists a d h1 x y z qs h', convertTo (Some p) HSL h = (Ok (Some a), h1) /\ at_addr h1 a d /\ wf_color HSL d /\ comps d = [x; y; z] /\ (X = HSL -> d = c) /\
    create_combination (Some p) n h = (Ok (Some p :: map Some qs), h') /\ length qs = Z.to_nat (n - 1) /\ unchanged h h' /\
    loop_result X c h h' (fun k v => hsl (fadd x (fmul (fofZ (Z.of_nat (S k))) (fdiv (fz 360) (fofZ n)))) y z (alpha c) (rgb_space c) = Ok v) qs.
Proof.
  intros Hn H W C N. destruct (to_hsl_ok h X p c H W N) as [a [d [h1 [Ea [Aa [Wd [Ua Id]]]]]]].
  destruct (comps3 _ d Wd eq_refl) as [x [y [z E]]].
  destruct (loop_ok X a d p c x y z (fdiv (fz 360) (fofZ n)) Wd E W C (upto (n - 1)) [Some p] h1 Aa (proj2 Ua _ _ H))
    as [qs [h' [E2 [L [U2 [ND K]]]]]].
  { intros Q. apply (unchanged_space h h1 c c Ua eq_refl), N, Q. }
  rewrite upto_length in L.
  exists a, d, h1, x, y, z, qs, h'. do 5 (split; [assumption|]). split.
  { unfold create_combination. replace (n =? 0)%Z with false by (symmetry; apply Z.eqb_neq; lia).
    replace (n =? 1)%Z with false by (symmetry; apply Z.eqb_neq; lia). replace (360 <? n)%Z with false by (symmetry; apply Z.ltb_ge; lia).
    unfold bind. rewrite Ea. replace (n - 1 <? -2147483648)%Z with false by (symmetry; apply Z.ltb_ge; lia). exact E2. }
  split; [exact L|]. split; [apply (unchanged_trans _ h1); assumption|]. split; [exact ND|].
  intros k q Hk. destruct (K k q Hk) as [Fk [r' [v' [A' [W' [S' [[i [Hi G']] [C' R']]]]]]]]. split; [apply (fresh_unchanged h h1); assumption|].
  exists r', v'. do 3 (split; [assumption|]). split.
  { rewrite upto_nth in Hi; [injection Hi as <-; exact G'|]. rewrite <- L. apply nth_error_Some. congruence. }
  split; [|exact R']. apply (converted_mono X h h1 h' h' q v' Ua); [apply unchanged_refl|exact C'].
Qed.

Lemma combination_rejects n p (h : heap) : (n = 0 \/ n = 1 \/ 360 < n)%Z -> create_combination p n h = (Throw (by_pointer invalid_argument), h).
Proof.
  intros [-> | [-> | H]]; [reflexivity|reflexivity|]. unfold create_combination.
  replace (n =? 0)%Z with false by (symmetry; apply Z.eqb_neq; lia).
  replace (n =? 1)%Z with false by (symmetry; apply Z.eqb_neq; lia). replace (360 <? n)%Z with true by (symmetry; apply Z.ltb_lt; lia). reflexivity.
Qed.

Lemma combination_negative n (h : heap) X p c : (-2147483647 <= n < 0)%Z -> at_addr h p c -> wf_color X c -> (cie X = true -> has_space h c) ->
  exists h', create_combination (Some p) n h = (Ok [Some p], h').
Proof.
  intros Hn H W N. destruct (to_hsl_ok h X p c H W N) as [a [d [h1 [Ea _]]]]. exists h1.
  unfold create_combination. replace (n =? 0)%Z with false by (symmetry; apply Z.eqb_neq; lia).
  replace (n =? 1)%Z with false by (symmetry; apply Z.eqb_neq; lia). replace (360 <? n)%Z with false by (symmetry; apply Z.ltb_ge; lia).
  unfold bind. rewrite Ea. replace (n - 1 <? -2147483648)%Z with false by (symmetry; apply Z.ltb_ge; lia).
  replace (upto (n - 1)) with (@nil Z); [reflexivity|]. unfold upto. replace (Z.to_nat (n - 1)) with 0%nat by lia. reflexivity.
Qed.
Lemma combination_overflow (h : heap) X p c : at_addr h p c -> wf_color X c -> (cie X = true -> has_space h c) ->
  exists h', create_combination (Some p) (-2147483648) h = (Undef, h').
Proof.
  intros H W N. destruct (to_hsl_ok h X p c H W N) as [a [d [h1 [Ea _]]]]. exists h1.
  unfold create_combination. cbn [Z.eqb Z.ltb Z.compare Pos.compare Pos.compare_cont]. unfold bind. rewrite Ea. reflexivity.
Qed.

(** ** Analogous colours *)
Lemma analogous_ok X dist (h : heap) p c : feq dist (fz 0) = false -> flt (fdiv (fz 360) (fz 3)) dist = false ->
  at_addr h p c -> wf_color X c -> convertible X = true -> (cie X = true -> has_space h c) ->
  exists a d h1 x y z q1 q2 h', convertTo (Some p) HSL h = (Ok (Some a), h1) /\ at_addr h1 a d /\ wf_color HSL d /\ comps d = [x; y; z] /\ (X = HSL -> d = c) /\
    create_analogous (Some p) dist h = (Ok [Some q1; Some p; Some q2], h') /\ unchanged h h' /\
    loop_result X c h h' (fun k v => hsl (if Nat.eqb k 0 then fsub x dist else fadd x dist) y z (alpha c) (rgb_space c) = Ok v) [q1; q2].
Proof.
  intros D1 D2 H W C N. destruct (to_hsl_ok h X p c H W N) as [a [d [h1 [Ea [Aa [Wd [Ua Id]]]]]]].
  destruct (comps3 _ d Wd eq_refl) as [x [y [z E]]].
  destruct (turned_ok (fun t => fsub t dist) h1 X a d p c x y z Aa Wd E (proj2 Ua _ _ H) W C)
    as [q1 [r1 [v1 [h2 [E1 [F1 [A1 [W1 [S1 [U1 [V1 [Wv1 [Al1 [C1 R1]]]]]]]]]]]]]].
  { intros Q. apply (unchanged_space h h1 c c Ua eq_refl), N, Q. }
  assert (U02 : unchanged h h2) by (apply (unchanged_trans _ h1); assumption).
  destruct (turned_ok (fun t => fadd t dist) h2 X a d p c x y z (proj2 U1 _ _ Aa) Wd E (proj2 U02 _ _ H) W C)
    as [q2 [r2 [v2 [h3 [E2 [F2 [A2 [W2 [S2 [U2 [V2 [Wv2 [Al2 [C2 R2]]]]]]]]]]]]]].
  { intros Q. apply (unchanged_space h h2 c c U02 eq_refl), N, Q. }
  exists a, d, h1, x, y, z, q1, q2, h3. do 5 (split; [assumption|]). split.
  { unfold create_analogous. rewrite D1, D2. unfold bind. rewrite Ea, E1, E2. reflexivity. }
  split; [apply (unchanged_trans _ h2); assumption|]. split.
  { constructor; [|constructor; [intros []|constructor]]. intros [I|[]]. apply at_addr_lt in A1. unfold fresh in F2. lia. }
  intros [|[|k]] q Hk; simpl in Hk; [| |destruct k; discriminate Hk]; injection Hk as <-.
  - split; [apply (fresh_unchanged h h1); assumption|]. exists r1, v1. split; [apply U2, A1|]. do 2 (split; [assumption|]).
    split; [exact V1|]. split; [apply (converted_mono X h h1 h2 h3 q1 v1); assumption|]. auto.
  - split; [apply (fresh_unchanged h h2); assumption|]. exists r2, v2. split; [exact A2|]. do 2 (split; [assumption|]).
    split; [exact V2|]. split; [apply (converted_mono X h h2 h3 h3 q2 v2); [exact U02|apply unchanged_refl|exact C2]|]. auto.
Qed.

(** ** Monochromatic schemes *)

(** An HSL adjustment of an HSL colour returns the colour itself. *)
Lemma adjust_hsl_ptr i pc (h0 h : heap) q v : (i = 1 \/ i = 2)%nat -> at_addr h q v -> wf_color HSL v -> unchanged h0 h -> fresh h0 q ->
  exists v' h', adjust_hsl i (Some q) pc h = (Ok (Some q), h') /\ at_addr h' q v' /\ wf_color HSL v' /\ unchanged h0 h' /\
    rgb_space v' = rgb_space v /\ m_alpha v' = m_alpha v /\
    forall x y z, comps v = [x; y; z] -> comps v' = if feq pc (fz 0) then [x; y; z]
      else if Nat.eqb i 1 then [x; c01 (fmul y (fadd (fz 1) pc)); z] else [x; y; c01 (fmul z (fadd (fz 1) pc))].
Proof.
  intros Hi A W U Fq. destruct (feq pc (fz 0)) eqn:P.
  - exists v, h. split; [apply adjust_hsl_zero, P|]. do 3 (split; [assumption|]). auto.
  - destruct (adjust_hsl_self i h q v pc ltac:(destruct Hi; lia) P A W) as [w [v' [Ew [Ev [Wv [Av [Sv E]]]]]]].
    exists v', (Heap (upd q v' (colors h)) (spaces h)). split; [exact E|]. split; [apply (at_upd h q v v' A)|]. split; [exact Wv|].
    split; [apply (unchanged_upd h0 h q v' U Fq)|]. split; [exact Sv|]. split; [exact Av|].
    intros x y z Ec. rewrite (hsl_set v _ i x y z W Ec Hi) in Ev. apply Ok_inj in Ev. rewrite <- Ev. cbn [comps with_comps].
    unfold raw_comp in Ew. rewrite Ec in Ew. destruct Hi as [-> | ->]; cbn [nth_error Nat.eqb] in *; apply Ok_inj in Ew; rewrite Ew; reflexivity.
Qed.

(** The HSL components after a step of the given mode. *)
Definition mono_comps (mode : Z) (pc x y z : F) : list F :=
  if feq pc (fz 0) then [x; y; z]
  else match mode with
       | 0%Z => [x; c01 (fmul y (fadd (fz 1) pc)); z]
       | 1%Z => [x; y; c01 (fmul z (fadd (fz 1) pc))]
       | _ => [x; c01 (fmul y (fadd (fz 1) pc)); c01 (fmul z (fadd (fz 1) pc))]
       end.

Lemma mono_adjust mode pc (h0 h : heap) q v : (0 <= mode <= 2)%Z -> at_addr h q v -> wf_color HSL v -> unchanged h0 h -> fresh h0 q ->
  exists v' h', match mode with
     | 0%Z => saturate_in_hsl_space (Some q) pc
     | 1%Z => luminate_in_hsl_space (Some q) pc
     | _ => bind (saturate_in_hsl_space (Some q) pc) (fun s => luminate_in_hsl_space s pc)
     end h = (Ok (Some q), h') /\ at_addr h' q v' /\ wf_color HSL v' /\ unchanged h0 h' /\
    rgb_space v' = rgb_space v /\ m_alpha v' = m_alpha v /\
    forall x y z, comps v = [x; y; z] -> comps v' = mono_comps mode pc x y z.
Proof.
  intros Hm A W U Fq. unfold mono_comps. destruct mode as [|[m|[m|m|]|]|m]; try lia.
  - destruct (adjust_hsl_ptr 1 pc h0 h q v (or_introl eq_refl) A W U Fq) as [v' [h' [E [A' [W' [U' [S' [L' K]]]]]]]].
    exists v', h'. do 6 (split; [assumption|]). intros x y z Ec. rewrite (K x y z Ec). reflexivity.
  - destruct (adjust_hsl_ptr 1 pc h0 h q v (or_introl eq_refl) A W U Fq) as [v1 [h1 [E1 [A1 [W1 [U1 [S1 [L1 K1]]]]]]]].
    destruct (adjust_hsl_ptr 2 pc h0 h1 q v1 (or_intror eq_refl) A1 W1 U1 Fq) as [v' [h' [E [A' [W' [U' [S' [L' K]]]]]]]].
    exists v', h'. split. { unfold saturate_in_hsl_space, luminate_in_hsl_space, bind. rewrite E1. exact E. }
    do 3 (split; [assumption|]). split; [congruence|]. split; [congruence|]. intros x y z Ec. specialize (K1 x y z Ec).
    destruct (feq pc (fz 0)) eqn:P; [apply (K _ _ _ K1)|]. rewrite (K _ _ _ K1). reflexivity.
  - destruct (adjust_hsl_ptr 2 pc h0 h q v (or_intror eq_refl) A W U Fq) as [v' [h' [E [A' [W' [U' [S' [L' K]]]]]]]].
    exists v', h'. do 6 (split; [assumption|]). intros x y z Ec. rewrite (K x y z Ec). reflexivity.
Qed.

Lemma mono_step_ok X mode pc (h : heap) p c l last : (0 <= mode <= 2)%Z -> at_addr h p c -> wf_color X c -> convertible X = true -> (cie X = true -> has_space h c) ->
  at_addr h l last -> wf_color X last -> rgb_space last = rgb_space c ->
  exists q r h', mono_step (Some p) X mode pc (Some l) h = (Ok (Some q), h') /\ fresh h q /\ at_addr h' q r /\ wf_color X r /\
    rgb_space r = rgb_space c /\ unchanged h h' /\
    (X = HSL -> m_alpha r = alpha c /\ forall x y z, comps last = [x; y; z] -> exists v, hsl x y z (alpha c) (rgb_space c) = Ok v /\
       forall x' y' z', comps v = [x'; y'; z'] -> comps r = mono_comps mode pc x' y' z').
Proof.
  intros Hm Hp W C N Hl Wl Sl.
  destruct (to_hsl_ok h X l last Hl Wl) as [a [d [h1 [Ea [Aa [Wd [Ua Id]]]]]]].
  { intros K. apply (has_space_eq h c); [exact Sl|apply N, K]. }
  destruct (comps3 _ d Wd eq_refl) as [x [y [z E]]].
  destruct (hsl_made x y z (alpha c) (rgb_space c)) as [v [Ev [Wv [Av Sv]]]].
  pose (h2 := Heap (colors h1 ++ [v]) (spaces h1)). pose (n := length (colors h1)).
  assert (Er : restated (Some a) (Some p) h1 = (Ok (Some n), h2)).
  { unfold restated, bind. rewrite (load_as_ok h1 a d HSL Aa Wd), (load_ok h1 p c (proj2 Ua _ _ Hp)). unfold lift, with3. rewrite E, Ev. reflexivity. }
  assert (An : at_addr h2 n v) by apply at_new.
  assert (Un : unchanged h h2) by (apply (unchanged_trans _ h1); [exact Ua|apply unchanged_new]).
  assert (Fn : fresh h n) by (apply (fresh_unchanged h h1 n Ua); unfold fresh, n; lia).
  destruct (mono_adjust mode pc h h2 n v Hm An Wv Un Fn) as [v' [h3 [E3 [A3 [W3 [U3 [S3 [L3 K3]]]]]]]].
  destruct (back HSL X h h3 n v' U3 Fn A3 W3 C) as [q [r [h4 [E4 [Fq [Aq [Wr [Sr [U4 [_ I4]]]]]]]]]].
  { intros K. apply (unchanged_space h h3 c v' U3); [congruence|]. apply N, K. }
  exists q, r, h4. split.
  { unfold mono_step, bind. rewrite Ea. unfold bind in E3. destruct mode as [|[m|[m|m|]|]|m]; try lia; rewrite Er.
    - rewrite E3. exact E4.
    - destruct (saturate_in_hsl_space (Some n) pc h2) as [[s| | |] hs]; try discriminate E3. rewrite E3. exact E4.
    - rewrite E3. exact E4. }
  split; [exact Fq|]. split; [exact Aq|]. split; [exact Wr|]. split; [congruence|]. split; [exact U4|].
  intros KX. destruct (I4 (eq_sym KX)) as [-> _]. split; [congruence|].
  intros x0 y0 z0 E0. rewrite (Id KX) in E. rewrite E0 in E. injection E as -> -> ->. exists v. split; [exact Ev|]. exact K3.
Qed.

(** The colours of a monochromatic scheme: each is one step from the one before. *)
Lemma mono_loop_ok X mode pc p c : (0 <= mode <= 2)%Z -> wf_color X c -> convertible X = true ->
  forall n acc (h : heap) l last, at_addr h p c -> (cie X = true -> has_space h c) -> at_addr h l last -> wf_color X last -> rgb_space last = rgb_space c ->
  exists qs h', mono_loop (mono_step (Some p) X mode pc) acc (Some l) n h = (Ok (acc ++ map Some qs), h') /\ length qs = n /\ unchanged h h' /\ NoDup qs /\
    (forall k q, nth_error qs k = Some q -> fresh h q /\ exists r, at_addr h' q r /\ wf_color X r /\ rgb_space r = rgb_space c) /\
    (X = HSL -> forall P : nat -> color -> Prop, P 0%nat last ->
      (forall k s t, P k s -> wf_color HSL s -> (forall x y z, comps s = [x; y; z] -> exists v, hsl x y z (alpha c) (rgb_space c) = Ok v /\
         forall x' y' z', comps v = [x'; y'; z'] -> comps t = mono_comps mode pc x' y' z') -> m_alpha t = alpha c -> P (S k) t) ->
      forall k q, nth_error qs k = Some q -> exists r, at_addr h' q r /\ P (S k) r).
Proof.
  intros Hm W C. induction n as [|n IH]; intros acc h l last Hp N Hl Wl Sl.
  - exists [], h. split; [simpl; rewrite app_nil_r; reflexivity|]. split; [reflexivity|]. split; [apply unchanged_refl|]. split; [constructor|].
    split; [intros k q H; destruct k; discriminate H|]. intros _ P _ _ k q H; destruct k; discriminate H.
  - destruct (mono_step_ok X mode pc h p c l last Hm Hp W C N Hl Wl Sl) as [q [r [h1 [E1 [Fq [Aq [Wr [Sr [U1 K1]]]]]]]]].
    destruct (IH (acc ++ [Some q]) h1 q r (proj2 U1 _ _ Hp)) as [qs [h' [E2 [L [U2 [ND [K2 K3]]]]]]]; auto.
    { intros Q. apply (unchanged_space h h1 c c U1 eq_refl), N, Q. }
    exists (q :: qs), h'. split.
    { cbn [combination_loop mono_loop map]. unfold bind. rewrite E1. etransitivity; [exact E2|]. rewrite <- app_assoc. reflexivity. }
    split; [simpl; congruence|]. split; [apply (unchanged_trans _ h1); assumption|]. split.
    { constructor; [|exact ND]. intros I. apply In_nth_error in I. destruct I as [k Hk]. destruct (K2 k q Hk) as [Fk _].
      apply at_addr_lt in Aq. unfold fresh in Fk. lia. }
    split.
    + intros [|k] q' Hk; simpl in Hk.
      * injection Hk as <-. split; [exact Fq|]. exists r. split; [apply U2, Aq|]. auto.
      * destruct (K2 k q' Hk) as [Fk R]. split; [apply (fresh_unchanged h h1); assumption|exact R].
    + intros KX P P0 PS. destruct (K1 KX) as [Ar Kr].
      assert (P1 : P 1%nat r). { apply (PS 0%nat last r P0); auto. rewrite <- KX. exact Wl. }
      intros [|k] q' Hk; simpl in Hk.
      * injection Hk as <-. exists r. split; [apply U2, Aq|exact P1].
      * apply (K3 KX (fun k => P (S k)) P1); [|exact Hk].
        intros j s t Hs Ws Ht At. apply (PS (S j) s t Hs Ws Ht At).
Qed.
End Combine.
