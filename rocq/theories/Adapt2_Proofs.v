(** * chromatic_adaptation in exact arithmetic *)
From Coq Require Import ZArith QArith Reals Lra Lia List Bool.
From Flocq Require Import Core.
From Verif Require Import Arith Outcome ColorModel GammaModel MatrixModel SpaceModel Heap Converter Calculation Adapt
  Spec RArith Laws NormalForms Core_Proofs Convert_Proofs Alpha8
  Spec_Matrix Spec_Space Spec_Conv Spec_Calc Spec_Blend Spec_Adapt
  Conv_Proofs Conv2_Proofs Conv3_Proofs Gamma2_Proofs Space_Proofs Total_Proofs HueR_Proofs Calc_Proofs Blend_Proofs Distance_Proofs Adapt_Proofs.
Import ListNotations.
Local Open Scope R_scope.

(** An XYZ colour: the result has the clamped computed components. *)
Lemma adapt_xyz m (h : heap R) p c s a w0 b w u : at_addr h p c -> wf_color XYZ c -> has_white h c s a w0 -> a <> b ->
  method_f m w0 w c c = Ok u ->
  exists q r h', adaptation m (Some p) (Some (b, w)) h = (Ok (Some q), h') /\ at_addr h' q r /\ comps_are r (clamp100 u) /\ wf_color XYZ r.
Proof.
  intros Hp W HW N Ef. rewrite adaptation_eq.
  destruct (adapt_prefix (method_f m) XYZ h p c s a w0 b w Hp W HW N) as [t [x [h1 [c1 [E [Ht [Wx [Hp1 [Wc1 [Al [Sc1 [I [Pu [O [L [RA Run]]]]]]]]]]]]]]]].
  destruct HW as [i [Sc [Hs [U Wh]]]].
  assert (c1 = c) as -> by (apply Pu; discriminate). rewrite (I eq_refl) in Run. rewrite Ef in Run. destruct u as [[u0 u1] u2].
  destruct (set_white_full s b w) as [s' [Es Rw]]; [apply U|]. rewrite Es in Run. cbv zeta in Run. rewrite Run. clear Run.
  set (n := Color XYZ XYZ _ _ _ _ _). set (h2 := Heap (colors h1 ++ [n]) (spaces h ++ [s'])).
  assert (Hn : at_addr h2 (length (colors h1)) n) by apply at_new.
  assert (Wn : wf_color XYZ n) by apply xyz_wf_color.
  exists (length (colors h1)), n, h2. split; [exact (to_type_same XYZ h2 _ n Hn Wn)|]. split; [exact Hn|]. split; [|exact Wn].
  unfold comps_are, clamp100, n. cbn [comps]. unfold c100. rewrite !fzR, !clampR.
  f_equal; [|f_equal; [|f_equal]]; rewrite Rmax_comm, Rmin_comm; reflexivity.
Qed.

(** ** The matrices are nearly inverse to each other *)
Ltac lits := unfold mat3, method_matrix, method_inverse, m_von_kries, m_inverted_von_kries, m_bradford, m_inverted_bradford, m_xyz_scale, m_inverted_xyz_scale, m_sharp, m_inverted_sharp,
   m_cmccat97, m_inverted_cmccat97, m_cmccat2000, m_inverted_cmccat2000, m_cat02, m_inverted_cat02; rewrite ?fzR; cbn [lit fneg RArith]; unfold Q2R; cbn [Qnum Qden].
Ltac lits_in H := unfold mat3, method_matrix, method_inverse, m_von_kries, m_inverted_von_kries, m_bradford, m_inverted_bradford, m_xyz_scale, m_inverted_xyz_scale, m_sharp, m_inverted_sharp,
   m_cmccat97, m_inverted_cmccat97, m_cmccat2000, m_inverted_cmccat2000, m_cat02, m_inverted_cat02 in H; rewrite ?fzR in H; cbn [lit fneg RArith] in H; unfold Q2R in H; cbn [Qnum Qden] in H.

Definition near3 (e : R) (u v : R * R * R) : Prop :=
  let '(x, y, z) := u in let '(x', y', z') := v in Rabs (x - x') <= e /\ Rabs (y - y') <= e /\ Rabs (z - z') <= e.
Definition inv_err : R := 15 / 1000000.

Lemma inverse_near m v B : bounded3 B v -> near3 (inv_err * B) (mat3 (method_inverse m) (mat3 (method_matrix m) v)) v.
Proof.
  destruct v as [[x y] z]. intros [Hx [Hy Hz]]. unfold inv_err.
  destruct m; lits; unfold near3; (split; [|split]); apply Rabs_le; lra.
Qed.
Lemma inverse_xyz v : mat3 (method_inverse XyzScale) (mat3 (method_matrix XyzScale) v) = v.
Proof. destruct v as [[x y] z]. lits. f_equal; [f_equal|]; field. Qed.

Lemma near_clamp e u v : bounded3 100 v -> near3 e u v -> near3 e (clamp100 u) v.
Proof.
  destruct u as [[x y] z], v as [[x' y'] z']. intros [Hx [Hy Hz]] [A [B C]]. unfold clamp100, near3.
  assert (K : forall s t, 0 <= t <= 100 -> Rabs (s - t) <= e -> Rabs (Rmax 0 (Rmin 100 s) - t) <= e).
  { intros s t Ht D. unfold Rmax, Rmin. destruct (Rle_dec 100 s); [destruct (Rle_dec 0 100)|destruct (Rle_dec 0 s)];
      apply Rabs_le; unfold Rabs in D; destruct (Rcase_abs (s - t)); lra. }
  auto.
Qed.
Lemma clamp_id v : bounded3 100 v -> clamp100 v = v.
Proof.
  destruct v as [[x y] z]. intros [Hx [Hy Hz]]. unfold clamp100. rewrite !Rmin_right, !Rmax_right by lra. reflexivity.
Qed.
Lemma near_refl e v : 0 <= e -> near3 e v v.
Proof. destruct v as [[x y] z]. intros. unfold near3. unfold Rminus. rewrite !Rplus_opp_r, Rabs_R0. auto. Qed.
Lemma comps_near_of e r u v : comps_are r u -> near3 e u v -> comps_near e r v.
Proof. destruct u as [[x y] z], v as [[x' y'] z']. cbn. intros E [A [B C]]. exists x, y, z. auto. Qed.

(** ** The linear methods *)
Definition triple (v : list R) (t : R * R * R) : Prop := let '(x, y, z) := t in v = [x; y; z].
Definition nineR (l : list R) : Prop := exists a b c d e f g h i, l = [a; b; c; d; e; f; g; h; i].
Lemma apply_staticR l x y z : nineR l -> apply_static l [x; y; z] = Ok (mat3 l (x, y, z)).
Proof.
  intros [l1 [l2 [l3 [l4 [l5 [l6 [l7 [l8 [l9 ->]]]]]]]]]. unfold apply_static. rewrite data3_total. cbn [obind]. rewrite mulvec33. reflexivity.
Qed.
Lemma matrix_nine m : nineR (method_matrix m).
Proof. destruct m; unfold nineR; repeat eexists; reflexivity. Qed.
Lemma inverse_nine m : nineR (method_inverse m).
Proof. destruct m; unfold nineR; repeat eexists; reflexivity. Qed.

Lemma linear_value m w0 w (x c : color R) v : simplified m = true -> comps_are x v ->
  method_f m w0 w x c = Ok (mat3 (method_inverse m) (mul3 (div3 (responses m w) (responses m w0)) (mat3 (method_matrix m) v))).
Proof.
  intros S C. replace (method_f m w0 w x c) with (do_adaption_f (method_matrix m) (method_inverse m) w0 w x c) by (destruct m; try discriminate S; reflexivity).
  unfold do_adaption_f, responses, white_vec, tristimulus. pose proof (matrix_nine m) as Nm. pose proof (inverse_nine m) as Ni.
  rewrite !apply_staticR by assumption. cbn [obind].
  destruct Nm as [l1 [l2 [l3 [l4 [l5 [l6 [l7 [l8 [l9 ->]]]]]]]]]. destruct Ni as [k1 [k2 [k3 [k4 [k5 [k6 [k7 [k8 [k9 ->]]]]]]]]].
  cbn [mat3]. rewrite !data3_total. cbn [obind]. rewrite !mmul33. cbn [obind]. rewrite mmul33. cbn [obind].
  destruct v as [[x0 x1] x2]. unfold comps_are in C. rewrite C. rewrite mulvec33. cbn [obind]. unfold mul3, div3. rewrite !fzR.
  cbn [fdiv RArith]. f_equal. f_equal; [f_equal|]; ring.
Qed.

Lemma linear_formula m (h : heap R) p c s a w0 b w v : simplified m = true -> at_addr h p c -> wf_color XYZ c -> has_white h c s a w0 -> a <> b -> comps_are c v ->
  exists q r h', adaptation m (Some p) (Some (b, w)) h = (Ok (Some q), h') /\ at_addr h' q r /\
    comps_are r (clamp100 (mat3 (method_inverse m) (mul3 (div3 (responses m w) (responses m w0)) (mat3 (method_matrix m) v)))).
Proof.
  intros S Hp W HW N C. destruct (adapt_xyz m h p c s a w0 b w _ Hp W HW N (linear_value m w0 w c c v S C)) as [q [r [h' [E [A [Cr _]]]]]].
  exists q, r, h'. auto.
Qed.

Lemma cancel3 u v : nonzero3 v -> mul3 (div3 u v) v = u.
Proof.
  destruct u as [[u0 u1] u2], v as [[v0 v1] v2]. intros [A [B C]]. unfold mul3, div3. f_equal; [f_equal|]; field; assumption.
Qed.

Lemma white_to_white m (h : heap R) p c s a w0 b w B : simplified m = true -> at_addr h p c -> wf_color XYZ c -> has_white h c s a w0 -> a <> b ->
  comps_are c (white_vec w0) -> nonzero3 (responses m w0) -> B <= 100 -> bounded3 B (white_vec w) ->
  exists q r h', adaptation m (Some p) (Some (b, w)) h = (Ok (Some q), h') /\ at_addr h' q r /\ comps_near (inv_err * B) r (white_vec w).
Proof.
  intros S Hp W HW N C NZ HB Bw. destruct (linear_formula m h p c s a w0 b w _ S Hp W HW N C) as [q [r [h' [E [A Cr]]]]].
  exists q, r, h'. split; [exact E|]. split; [exact A|]. fold (responses m w0) in Cr. rewrite (cancel3 _ _ NZ) in Cr.
  apply (comps_near_of _ _ _ _ Cr). apply near_clamp; [|apply inverse_near; exact Bw].
  unfold white_vec, bounded3 in *. lra.
Qed.
Lemma white_to_white_xyz (h : heap R) p c s a w0 b w : at_addr h p c -> wf_color XYZ c -> has_white h c s a w0 -> a <> b ->
  comps_are c (white_vec w0) -> nonzero3 (white_vec w0) -> bounded3 100 (white_vec w) ->
  exists q r h', adaptation XyzScale (Some p) (Some (b, w)) h = (Ok (Some q), h') /\ at_addr h' q r /\ comps_are r (white_vec w).
Proof.
  intros Hp W HW N C NZ Bw. destruct (linear_formula XyzScale h p c s a w0 b w _ eq_refl Hp W HW N C) as [q [r [h' [E [A Cr]]]]].
  exists q, r, h'. split; [exact E|]. split; [exact A|]. fold (responses XyzScale w0) in Cr.
  rewrite cancel3 in Cr. 2: { unfold responses, white_vec in *. unfold nonzero3 in *. lits. destruct NZ as [A1 [A2 A3]]. repeat split; intros Q; [apply A1|apply A2|apply A3]; lra. }
  unfold responses in Cr. rewrite inverse_xyz, clamp_id in Cr by exact Bw. exact Cr.
Qed.

(** XYZ scaling multiplies each component by the quotient of the tristimulus values. *)
Lemma xyz_scale_formula (h : heap R) p c s a w0 b w v : at_addr h p c -> wf_color XYZ c -> has_white h c s a w0 -> a <> b -> comps_are c v ->
  exists q r h', adaptation XyzScale (Some p) (Some (b, w)) h = (Ok (Some q), h') /\ at_addr h' q r /\ wf_color XYZ r /\
    comps_are r (clamp100 (mul3 v (div3 (white_vec w) (white_vec w0)))).
Proof.
  intros Hp W HW N C. destruct (adapt_xyz XyzScale h p c s a w0 b w _ Hp W HW N (linear_value XyzScale w0 w c c v eq_refl C)) as [q [r [h' [E [A [Cr Wr]]]]]].
  exists q, r, h'. split; [exact E|]. split; [exact A|]. split; [exact Wr|].
  assert (I1 : forall t, mat3 (method_matrix XyzScale) t = t) by (intros [[x y] z]; lits; f_equal; [f_equal|]; field).
  assert (I2 : forall t, mat3 (method_inverse XyzScale) t = t) by (intros [[x y] z]; lits; f_equal; [f_equal|]; field).
  unfold responses in Cr. rewrite I2, !I1 in Cr. replace (mul3 v (div3 (white_vec w) (white_vec w0))) with (mul3 (div3 (white_vec w) (white_vec w0)) v); [exact Cr|].
  destruct v as [[v0 v1] v2]. unfold mul3, div3, white_vec. f_equal; [f_equal|]; ring.
Qed.

(** ** The degree of adaptation *)
Lemma degreeR d : degree (AF := RArith) d = unit_clamp d.
Proof.
  unfold degree, unit_clamp. rewrite !fzR. cbn [flt RArith]. unfold Rltb, Rmax, Rmin.
  destruct (Rlt_dec d 0).
  - destruct (Rlt_dec 1 0); [lra|]. destruct (Rle_dec 1 d); [lra|]. destruct (Rle_dec 0 d); lra.
  - destruct (Rlt_dec 1 d); destruct (Rle_dec 1 d); try lra; destruct (Rle_dec 0 1); try lra; destruct (Rle_dec 0 d); lra.
Qed.
Lemma unit_clamp_range d : 0 <= unit_clamp d <= 1.
Proof. unfold unit_clamp, Rmax, Rmin. destruct (Rle_dec 1 d); [destruct (Rle_dec 0 1)|destruct (Rle_dec 0 d)]; lra. Qed.

(** ** CAT02 and CMCCAT2000 with a degree of adaptation *)
Lemma cat02_value f La w0 w (x c : color R) v : comps_are x v ->
  method_f (Cat02 f La) w0 w x c = Ok (mat3 m_inverted_cat02 (mul3 (mat3 m_cat02 v)
    (let '(e0, e1, e2) := div3 (responses Cat02Simplified w) (responses Cat02Simplified w0) in
     let D := cat02_degree f La in (D * e0 + 1 - D, D * e1 + 1 - D, D * e2 + 1 - D)))).
Proof.
  intros C. cbn [method_f]. unfold cat02_f, tristimulus. destruct v as [[x0 x1] x2]. unfold comps_are in C. rewrite C.
  rewrite !apply_staticR by (apply (matrix_nine Cat02Simplified)). cbn [obind]. unfold responses, white_vec. cbn [method_matrix].
  destruct (mat3 m_cat02 (x0, x1, x2)) as [[r0 r1] r2]. destruct (mat3 m_cat02 (tx w0, ty_ w0, tz w0)) as [[s0 s1] s2].
  destruct (mat3 m_cat02 (tx w, ty_ w, tz w)) as [[d0 d1] d2]. cbv zeta. rewrite degreeR.
  rewrite apply_staticR by (apply (inverse_nine Cat02Simplified)). unfold mul3, div3, cat02_degree. rewrite !fzR. cbn [fdiv fmul fadd fsub fneg fexp lit RArith].
  replace (Q2R (36 # 10)) with (36 / 10) by (unfold Q2R; cbn [Qnum Qden]; lra). reflexivity.
Qed.
Lemma cmccat2000_value f La Lr w0 w (x c : color R) v : comps_are x v ->
  method_f (Cmccat2000 f La Lr) w0 w x c = Ok (mat3 m_inverted_cmccat2000 (mul3 (mat3 m_cmccat2000 v)
    (let '(e0, e1, e2) := div3 (responses Cmccat2000Simplified w) (responses Cmccat2000Simplified w0) in
     let D := cmccat2000_degree f La Lr in let y := D * (ty_ w0 / ty_ w) in (y * e0 + 1 - D, y * e1 + 1 - D, y * e2 + 1 - D)))).
Proof.
  intros C. cbn [method_f]. unfold cmccat2000_f, tristimulus. destruct v as [[x0 x1] x2]. unfold comps_are in C. rewrite C.
  rewrite !apply_staticR by (apply (matrix_nine Cmccat2000Simplified)). cbn [obind]. unfold responses, white_vec. cbn [method_matrix].
  destruct (mat3 m_cmccat2000 (x0, x1, x2)) as [[r0 r1] r2]. destruct (mat3 m_cmccat2000 (tx w0, ty_ w0, tz w0)) as [[s0 s1] s2].
  destruct (mat3 m_cmccat2000 (tx w, ty_ w, tz w)) as [[d0 d1] d2]. cbv zeta. rewrite degreeR.
  rewrite apply_staticR by (apply (inverse_nine Cmccat2000Simplified)). unfold mul3, div3, cmccat2000_degree. rewrite !fzR. cbn [fdiv fmul fadd fsub fneg flog10 lit RArith].
  replace (Q2R (8 # 100)) with (8 / 100) by (unfold Q2R; cbn [Qnum Qden]; lra). replace (Q2R (76 # 100)) with (76 / 100) by (unfold Q2R; cbn [Qnum Qden]; lra).
  replace (Q2R (45 # 100)) with (45 / 100) by (unfold Q2R; cbn [Qnum Qden]; lra). replace (Q2R (1 # 2)) with (1 / 2) by (unfold Q2R; cbn [Qnum Qden]; lra).
  set (D := unit_clamp _). do 2 f_equal. f_equal; [f_equal|]; ring.
Qed.

Lemma mat3_lin l d t u v : mat3 l (add3 (scale3 d u) (scale3 t v)) = add3 (scale3 d (mat3 l u)) (scale3 t (mat3 l v)).
Proof.
  destruct u as [[u0 u1] u2], v as [[v0 v1] v2].
  assert (Zr : (0, 0, 0) = add3 (scale3 d (0, 0, 0)) (scale3 t (0, 0, 0))) by (unfold add3, scale3; f_equal; [f_equal|]; ring).
  unfold mat3 at 1 2 3.
  destruct l as [|a [|b [|c [|e [|f [|g [|hh [|i [|j [|]]]]]]]]]]; try exact Zr.
  unfold add3, scale3. f_equal; [f_equal|]; ring.
Qed.

Lemma bounded_mix d B u v : 0 <= d <= 1 -> bounded3 B u -> bounded3 B v -> bounded3 B (mix3 d u v).
Proof.
  destruct u as [[u0 u1] u2], v as [[v0 v1] v2]. intros D [A1 [A2 A3]] [B1 [B2 B3]]. unfold mix3, add3, scale3, bounded3.
  assert (K : forall s t, 0 <= s <= B -> 0 <= t <= B -> 0 <= d * s + (1 - d) * t <= B) by (intros s t Hs Ht; nra).
  auto.
Qed.

Lemma cat02_white f La (h : heap R) p c s a w0 b w B : at_addr h p c -> wf_color XYZ c -> has_white h c s a w0 -> a <> b ->
  comps_are c (white_vec w0) -> nonzero3 (responses Cat02Simplified w0) -> B <= 100 -> bounded3 B (white_vec w0) -> bounded3 B (white_vec w) ->
  exists q r h', adaptation (Cat02 f La) (Some p) (Some (b, w)) h = (Ok (Some q), h') /\ at_addr h' q r /\
    comps_near (inv_err * B) r (mix3 (cat02_degree f La) (white_vec w) (white_vec w0)).
Proof.
  intros Hp W HW N C NZ HB B0 B1.
  destruct (adapt_xyz (Cat02 f La) h p c s a w0 b w _ Hp W HW N (cat02_value f La w0 w c c _ C)) as [q [r [h' [E [A [Cr _]]]]]].
  exists q, r, h'. split; [exact E|]. split; [exact A|]. apply (comps_near_of _ _ _ _ Cr).
  pose proof (unit_clamp_range (f * (1 - 1 / (36 / 10) * exp ((- La - 42) / 92)))) as RD. fold (cat02_degree f La) in RD. set (D := cat02_degree f La) in *.
  pose proof (bounded_mix D B _ _ RD B1 B0) as BM.
  apply near_clamp; [destruct (mix3 D (white_vec w) (white_vec w0)) as [[m0 m1] m2]; unfold bounded3 in *; lra|].
  match goal with |- near3 _ (mat3 _ ?v) _ => replace v with (mat3 (method_matrix Cat02Simplified) (mix3 D (white_vec w) (white_vec w0))) end.
  { apply (inverse_near Cat02Simplified). exact BM. }
  unfold mix3. rewrite mat3_lin. fold (responses Cat02Simplified w). fold (responses Cat02Simplified w0).
  change (mat3 m_cat02 (white_vec w0)) with (responses Cat02Simplified w0). destruct (responses Cat02Simplified w) as [[d0 d1] d2], (responses Cat02Simplified w0) as [[s0 s1] s2].
  destruct NZ as [Z0 [Z1 Z2]]. unfold div3, mul3, add3, scale3. f_equal; [f_equal|]; field; assumption.
Qed.

Lemma cmccat2000_white f La Lr (h : heap R) p c s a w0 b w B : at_addr h p c -> wf_color XYZ c -> has_white h c s a w0 -> a <> b ->
  comps_are c (white_vec w0) -> nonzero3 (responses Cmccat2000Simplified w0) -> B <= 100 -> bounded3 B (white_vec w0) -> bounded3 B (scale3 (ty_ w0 / ty_ w) (white_vec w)) ->
  exists q r h', adaptation (Cmccat2000 f La Lr) (Some p) (Some (b, w)) h = (Ok (Some q), h') /\ at_addr h' q r /\
    comps_near (inv_err * B) r (mix3 (cmccat2000_degree f La Lr) (scale3 (ty_ w0 / ty_ w) (white_vec w)) (white_vec w0)).
Proof.
  intros Hp W HW N C NZ HB B0 B1.
  destruct (adapt_xyz (Cmccat2000 f La Lr) h p c s a w0 b w _ Hp W HW N (cmccat2000_value f La Lr w0 w c c _ C)) as [q [r [h' [E [A [Cr _]]]]]].
  exists q, r, h'. split; [exact E|]. split; [exact A|]. apply (comps_near_of _ _ _ _ Cr).
  assert (RD : 0 <= cmccat2000_degree f La Lr <= 1) by apply unit_clamp_range. set (D := cmccat2000_degree f La Lr) in *.
  pose proof (bounded_mix D B _ _ RD B1 B0) as BM.
  apply near_clamp; [destruct (mix3 D (scale3 (ty_ w0 / ty_ w) (white_vec w)) (white_vec w0)) as [[m0 m1] m2]; unfold bounded3 in *; lra|].
  match goal with |- near3 _ (mat3 _ ?v) _ => replace v with (mat3 (method_matrix Cmccat2000Simplified) (mix3 D (scale3 (ty_ w0 / ty_ w) (white_vec w)) (white_vec w0))) end.
  { apply (inverse_near Cmccat2000Simplified). exact BM. }
  unfold mix3. rewrite mat3_lin. fold (responses Cmccat2000Simplified w0).
  replace (scale3 (ty_ w0 / ty_ w) (white_vec w)) with (add3 (scale3 (ty_ w0 / ty_ w) (white_vec w)) (scale3 0 (white_vec w))).
  2: { unfold scale3, add3, white_vec. f_equal; [f_equal|]; ring. }
  rewrite mat3_lin. fold (responses Cmccat2000Simplified w).
  change (mat3 m_cmccat2000 (white_vec w0)) with (responses Cmccat2000Simplified w0).
  destruct (responses Cmccat2000Simplified w) as [[d0 d1] d2], (responses Cmccat2000Simplified w0) as [[s0 s1] s2]. set (y := ty_ w0 / ty_ w).
  destruct NZ as [Z0 [Z1 Z2]]. unfold div3, mul3, add3, scale3. f_equal; [f_equal|]; field; assumption.
Qed.
