(** * Gamma curves *)
From Coq Require Import ZArith QArith Qreals Reals Lra Lia List Bool Permutation Sorted.
From Flocq Require Import Core IEEE754.BinarySingleNaN.
From Verif Require Import Arith Outcome ColorModel GammaModel SpaceModel F32 F32Facts RArith Laws Spec_Space.
Import ListNotations.

(** ** Piece selection (C17) *)
Section Pieces.
Context {F : Type} {AF : Arith F}.
Variable okb : F -> Prop.
Hypothesis lt_asym : forall x y, okb x -> okb y -> flt x y = true -> flt y x = false.
Hypothesis nlt_trans : forall x y z, okb x -> okb y -> okb z -> flt y x = false -> flt z y = false -> flt z x = false.

Definition ok_parts (l : list (gamma_part F)) : Prop := Forall (fun p => okb (g_border p)) l.
Lemma insert_part_perm p l : Permutation (p :: l) (insert_part p l).
Proof.
  induction l as [|q l IH]; simpl; auto. destruct (part_lt q p); auto.
  rewrite perm_swap. constructor. exact IH.
Qed.
Lemma sort_parts_perm l : Permutation l (sort_parts l).
Proof.
  induction l as [|p l IH]; simpl; auto. etransitivity; [|apply insert_part_perm]. constructor. exact IH.
Qed.

Lemma insert_part_sorted p l : okb (g_border p) -> ok_parts l -> sorted_parts l -> sorted_parts (insert_part p l).
Proof.
  intros Op Ol S. induction S as [|q l S IH A]; simpl.
  - repeat constructor.
  - inversion Ol as [|? ? Oq Ol']; subst.
    destruct (part_lt q p) eqn:E.
    + constructor; [apply IH, Ol'|].
      assert (P : Forall (part_le q) (p :: l)).
      { constructor; auto. unfold part_le. apply lt_asym; auto. }
      eapply Permutation_Forall; [apply insert_part_perm|exact P].
    + constructor.
      * constructor; auto.
      * constructor; [exact E|]. rewrite Forall_forall in *. intros z Hz.
        unfold part_le in *. apply (nlt_trans (g_border p) (g_border q) (g_border z)); auto.
Qed.

Lemma sort_parts_sorted l : ok_parts l -> sorted_parts (sort_parts l).
Proof.
  intros O. induction O as [|p l Op Ol IH]; simpl; [constructor|].
  apply insert_part_sorted; auto.
  eapply Permutation_Forall; [apply sort_parts_perm|exact Ol].
Qed.

Lemma apply_sorted_covers l p f x : sorted_parts l -> covers l p f x -> apply_parts l x = f x.
Proof.
  intros S [I [E [L M]]]. induction S as [|q l S IH A]; [contradiction|].
  simpl. destruct (g_fun q) as [g|] eqn:G.
  - destruct (fle x (g_border q)) eqn:Lq.
    + destruct I as [->|I]; [congruence|].
      destruct (M q g) as [->|B]; auto; [left; reflexivity|congruence|].
      exfalso. rewrite Forall_forall in A. specialize (A p I). unfold part_le in A. congruence.
    + destruct I as [->|I]; [congruence|]. apply IH; auto. intros q' g' I'. apply M. right; auto.
  - destruct I as [->|I]; [congruence|]. apply IH; auto. intros q' g' I'. apply M. right; auto.
Qed.

Lemma apply_uncovered l x : uncovered l x -> apply_parts l x = x.
Proof.
  intros U. induction l as [|q l IH]; auto. simpl.
  assert (U' : uncovered l x) by (intros p f I; apply U; right; auto).
  destruct (g_fun q) as [g|] eqn:G; auto.
  rewrite (U q g); auto. left; auto.
Qed.

Lemma covers_perm l l' p f x : Permutation l l' -> covers l p f x -> covers l' p f x.
Proof.
  intros P [I [E [L M]]]. split; [eapply Permutation_in; eauto|]. split; auto. split; auto.
  intros q g Iq. apply M. eapply Permutation_in; [apply Permutation_sym; eauto|auto].
Qed.
Lemma uncovered_perm l l' x : Permutation l l' -> uncovered l x -> uncovered l' x.
Proof. intros P U p f I. apply U. eapply Permutation_in; [apply Permutation_sym; eauto|auto]. Qed.

(** any sorted permutation behaves the same *)
Lemma any_sort_covers l l' p f x : Permutation l l' -> sorted_parts l' -> covers l p f x -> apply_parts l' x = f x.
Proof. intros P S C. eapply apply_sorted_covers; eauto. eapply covers_perm; eauto. Qed.
Lemma any_sort_uncovered l l' x : Permutation l l' -> uncovered l x -> apply_parts l' x = x.
Proof. intros P U. apply apply_uncovered. eapply uncovered_perm; eauto. Qed.

Lemma sort_covers l p f x : ok_parts l -> covers l p f x -> apply_parts (sort_parts l) x = f x.
Proof. intros O C. eapply any_sort_covers; eauto using sort_parts_perm, sort_parts_sorted. Qed.
Lemma sort_uncovered l x : uncovered l x -> apply_parts (sort_parts l) x = x.
Proof. intros U. eapply any_sort_uncovered; eauto using sort_parts_perm. Qed.

(** ** Independence of the order *)
Lemma distinct_perm l l' : Permutation l l' -> distinct_borders l -> distinct_borders l'.
Proof.
  intros P. induction P as [|a l l' P IH|a b l|l l' l'' P IH P' IH']; intros D; auto.
  - inversion D as [|? ? A B]; subst. constructor; [|apply IH, B]. eapply Permutation_Forall; [exact P|exact A].
  - inversion D as [|? ? A B]; subst. inversion B as [|? ? A' B']; subst. inversion A as [|? ? A1 A2]; subst.
    constructor; [constructor; [tauto|assumption]|]. constructor; assumption.
Qed.

Lemma sorted_unique l l' : ok_parts l -> Permutation l l' -> sorted_parts l -> sorted_parts l' -> distinct_borders l -> l = l'.
Proof.
  revert l'. induction l as [|p l IH]; intros l' O P S S' D.
  - apply Permutation_nil in P. auto.
  - destruct l' as [|q l']; [apply Permutation_sym, Permutation_nil in P; discriminate|].
    assert (E : p = q).
    { destruct (Permutation_in p P (or_introl eq_refl)) as [E|Ip]; auto.
      destruct (Permutation_in q (Permutation_sym P) (or_introl eq_refl)) as [E|Iq]; auto.
      exfalso. inversion S as [|? ? _ A]; subst. inversion S' as [|? ? _ A']; subst.
      rewrite Forall_forall in A, A'. specialize (A q Iq). specialize (A' p Ip). unfold part_le in *.
      inversion D as [|? ? B _]; subst. rewrite Forall_forall in B. destruct (B q Iq); congruence. }
    subst q. f_equal. apply Permutation_cons_inv in P.
    inversion S; inversion S'; inversion O; inversion D; subst. apply IH; auto.
Qed.

Lemma sort_order_irrelevant l l' : ok_parts l -> Permutation l l' -> distinct_borders l -> sort_parts l = sort_parts l'.
Proof.
  intros O P D. assert (O' : ok_parts l') by (eapply Permutation_Forall; eauto).
  apply sorted_unique; auto using sort_parts_sorted.
  - eapply Permutation_Forall; [apply sort_parts_perm|exact O].
  - rewrite <- (sort_parts_perm l), <- (sort_parts_perm l'). exact P.
  - eapply distinct_perm; [apply sort_parts_perm|exact D].
Qed.

(** Adding pieces one by one is the same as supplying them at once. *)
Lemma add_is_sort l p : ok_parts l -> okb (g_border p) -> distinct_borders (l ++ [p]) ->
  sort_parts (sort_parts l ++ [p]) = sort_parts (l ++ [p]).
Proof.
  intros O Op D. symmetry. apply sort_order_irrelevant; auto.
  - apply Forall_app; auto.
  - apply Permutation_app_tail. apply sort_parts_perm.
Qed.
End Pieces.

(** binary32: borders that are not NaN *)
Lemma Bltb_asym (x y : f32) : Bltb x y = true -> Bltb y x = false.
Proof.
  unfold Bltb, SpecFloat.SFltb. pose proof (Bcompare_swap 24 128 x y) as S. unfold Bcompare in S. rewrite S.
  destruct (SpecFloat.SFcompare (B2SF x) (B2SF y)) as [[]|]; simpl; congruence.
Qed.

(** the extended real order *)
Inductive xr := Xm | Xf (r : R) | Xp.
Definition xval (x : f32) : xr :=
  match x with B754_infinity true => Xm | B754_infinity false => Xp | _ => Xf (fval x) end.
Definition xlt (a b : xr) : Prop :=
  match a, b with
  | Xm, Xm => False | Xm, _ => True
  | Xf r, Xf s => (r < s)%R | Xf _, Xp => True
  | _, _ => False
  end.
Lemma Bltb_xlt (x y : f32) : is_nan x = false -> is_nan y = false -> Bltb x y = true <-> xlt (xval x) (xval y).
Proof.
  intros Nx Ny. destruct (is_finite x) eqn:Fx; destruct (is_finite y) eqn:Fy.
  - rewrite Bltb_fin by assumption.
    assert (Hx : xval x = Xf (fval x)) by (destruct x; try discriminate; reflexivity).
    assert (Hy : xval y = Xf (fval y)) by (destruct y; try discriminate; reflexivity).
    rewrite Hx, Hy. simpl. destruct (Rlt_bool_spec (fval x) (fval y)); split; auto; try discriminate; intros; lra.
  - destruct y as [|[]| |]; try discriminate; destruct x as [[]|[]| |[] ? ? ?]; try discriminate;
      change (true = true <-> True) || change (false = true <-> False); intuition discriminate.
  - destruct x as [|[]| |]; try discriminate; destruct y as [[]|[]| |[] ? ? ?]; try discriminate;
      change (true = true <-> True) || change (false = true <-> False); intuition discriminate.
  - destruct x as [|[]| |]; try discriminate; destruct y as [|[]| |]; try discriminate;
      change (true = true <-> True) || change (false = true <-> False); intuition discriminate.
Qed.

Lemma f32_nlt_trans o (x y z : f32) : is_nan x = false -> is_nan y = false -> is_nan z = false ->
  @flt f32 (F32 o) y x = false -> @flt f32 (F32 o) z y = false -> @flt f32 (F32 o) z x = false.
Proof.
  intros Nx Ny Nz. cbn [flt F32].
  assert (B : forall a b : f32, is_nan a = false -> is_nan b = false -> Bltb a b = false <-> ~ xlt (xval a) (xval b)).
  { intros a b Na Nb. rewrite <- Bltb_xlt by assumption. destruct (Bltb a b); intuition congruence. }
  rewrite !B by assumption. destruct (xval x), (xval y), (xval z); simpl; auto; intros; lra.
Qed.

Lemma R_nlt_trans (x y z : R) : @flt R RArith y x = false -> @flt R RArith z y = false -> @flt R RArith z x = false.
Proof. cbn [flt RArith]. rewrite !Rltb_false. lra. Qed.
Lemma R_lt_asym (x y : R) : @flt R RArith x y = true -> @flt R RArith y x = false.
Proof. cbn [flt RArith]. rewrite Rltb_true, Rltb_false. lra. Qed.

Definition nonnan (x : f32) : Prop := is_nan x = false.

Lemma gamma_select32 o (l ig : list (gamma_part f32)) p f x : ok_parts nonnan l ->
  covers (AF := F32 o) l p f x -> @gamma_correction f32 (F32 o) (@gamma_ctor f32 (F32 o) l ig) x = f x.
Proof.
  intros O C. unfold gamma_correction, gamma_ctor. cbn [g_parts].
  apply (sort_covers (AF := F32 o) nonnan) with p; auto.
  - intros a b _ _. apply Bltb_asym.
  - intros a b c Oa Ob Oc. apply (f32_nlt_trans o); auto.
Qed.
Lemma inverse_gamma_select32 o (l ig : list (gamma_part f32)) p f x : ok_parts nonnan ig ->
  covers (AF := F32 o) ig p f x -> @inverse_gamma_correction f32 (F32 o) (@gamma_ctor f32 (F32 o) l ig) x = f x.
Proof.
  intros O C. unfold inverse_gamma_correction, gamma_ctor. cbn [ig_parts].
  apply (sort_covers (AF := F32 o) nonnan) with p; auto.
  - intros a b _ _. apply Bltb_asym.
  - intros a b c Oa Ob Oc. apply (f32_nlt_trans o); auto.
Qed.
Lemma gamma_outside o (l ig : list (gamma_part f32)) x :
  (uncovered (AF := F32 o) l x -> @gamma_correction f32 (F32 o) (@gamma_ctor f32 (F32 o) l ig) x = x) /\
  (uncovered (AF := F32 o) ig x -> @inverse_gamma_correction f32 (F32 o) (@gamma_ctor f32 (F32 o) l ig) x = x).
Proof. split; intros U; apply (sort_uncovered (AF := F32 o)); exact U. Qed.

Lemma gamma_any_sort32 o (l l' : list (gamma_part f32)) p f x :
  Permutation l l' -> sorted_parts (AF := F32 o) l' -> covers (AF := F32 o) l p f x -> @apply_parts f32 (F32 o) l' x = f x.
Proof. apply (any_sort_covers (AF := F32 o)). Qed.

Lemma gamma_order32 o (l l' ig ig' : list (gamma_part f32)) : ok_parts nonnan l -> ok_parts nonnan ig ->
  distinct_borders (AF := F32 o) l -> distinct_borders (AF := F32 o) ig ->
  Permutation l l' -> Permutation ig ig' -> @gamma_ctor f32 (F32 o) l ig = @gamma_ctor f32 (F32 o) l' ig'.
Proof.
  intros O1 O2 D1 D2 P1 P2. unfold gamma_ctor. 
  assert (A : forall a b : f32, nonnan a -> nonnan b -> @flt f32 (F32 o) a b = true -> @flt f32 (F32 o) b a = false) by (intros a b _ _; apply Bltb_asym).
  assert (B : forall a b c : f32, nonnan a -> nonnan b -> nonnan c -> @flt f32 (F32 o) b a = false -> @flt f32 (F32 o) c b = false -> @flt f32 (F32 o) c a = false)
    by (intros a b c Oa Ob Oc; apply (f32_nlt_trans o); auto).
  f_equal; apply (sort_order_irrelevant (AF := F32 o) nonnan); auto.
Qed.

Lemma gamma_add32 o (l ig : list (gamma_part f32)) p : ok_parts nonnan l -> nonnan (g_border p) ->
  distinct_borders (AF := F32 o) (l ++ [p]) ->
  @add_gamma_curve_part f32 (F32 o) (@gamma_ctor f32 (F32 o) l ig) p = @gamma_ctor f32 (F32 o) (l ++ [p]) ig.
Proof.
  intros O1 O2 D. unfold add_gamma_curve_part, gamma_ctor. cbn [g_parts ig_parts]. f_equal.
  apply (add_is_sort (AF := F32 o) nonnan); auto.
  - intros a b _ _. apply Bltb_asym.
  - intros a b c Oa Ob Oc. apply (f32_nlt_trans o); auto.
Qed.
Lemma gamma_add_inverse32 o (l ig : list (gamma_part f32)) p : ok_parts nonnan ig -> nonnan (g_border p) ->
  distinct_borders (AF := F32 o) (ig ++ [p]) ->
  @add_inverse_gamma_curve_part f32 (F32 o) (@gamma_ctor f32 (F32 o) l ig) p = @gamma_ctor f32 (F32 o) l (ig ++ [p]).
Proof.
  intros O1 O2 D. unfold add_inverse_gamma_curve_part, gamma_ctor. cbn [g_parts ig_parts]. f_equal.
  apply (add_is_sort (AF := F32 o) nonnan); auto.
  - intros a b _ _. apply Bltb_asym.
  - intros a b c Oa Ob Oc. apply (f32_nlt_trans o); auto.
Qed.
