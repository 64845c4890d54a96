(** * How many objects a conversion allocates (C156) *)
From Coq Require Import ZArith List Bool Arith Lia.
From Flocq Require Import IEEE754.BinarySingleNaN.
From Verif Require Import Arith Outcome ColorModel GammaModel MatrixModel SpaceModel Heap Converter Distance History F32
  Spec Spec32 Spec_Conv Spec_Distance Spec_Leak.
From Verif Require Import Laws Core4_Proofs Total_Proofs Distance_Proofs Convert_Proofs Run_Proofs.
Import ListNotations.

Section Leak.
Context {F : Type} {AF : Arith F}.

Definition adds {A} (n : nat) (m : M F A) : Prop := forall h r h', m h = (Ok r, h') -> grows_by n h h'.

Lemma adds_ret A (a : A) : adds 0 (ret a).
Proof. intros h r h' E. injection E as _ <-. unfold grows_by. lia. Qed.
Lemma adds_lift A (x : outcome A) : adds 0 (lift x).
Proof. intros h r h' E. injection E as _ <-. unfold grows_by. lia. Qed.
Lemma adds_undef A n : adds n (lift (@Undef A) : M F A).
Proof. intros h r h' E. discriminate E. Qed.
Lemma adds_bind A B a b (m : M F A) (f : A -> M F B) : adds a m -> (forall x, adds b (f x)) -> adds (a + b) (bind m f).
Proof.
  intros H K h r h' E. unfold bind in E. destruct (m h) as [[x | e | |] h1] eqn:E1; try discriminate E.
  specialize (H _ _ _ E1). specialize (K _ _ _ _ E). unfold grows_by in *. lia.
Qed.
Lemma adds_then A B a b n (m : M F A) (f : A -> M F B) : adds a m -> (forall x, adds b (f x)) -> a + b = n -> adds n (bind m f).
Proof. intros H K <-. apply adds_bind; assumption. Qed.
Lemma adds_load p : adds 0 (@load F p).
Proof.
  intros h r h' E. destruct p as [i |]; cbn in E; [| discriminate E]. destruct (nth_error (colors h) i); [| discriminate E].
  injection E as _ <-. unfold grows_by. lia.
Qed.
Lemma adds_load_space p : adds 0 (@load_space F p).
Proof.
  intros h r h' E. unfold load_space in E. destruct p as [i |]; [| discriminate E]. destruct (nth_error (spaces h) i); [| discriminate E].
  injection E as _ <-. unfold grows_by. lia.
Qed.
Lemma adds_store p c : adds 0 (@store F p c).
Proof.
  intros h r h' E. unfold store in E. destruct p as [i |]; [| discriminate E]. destruct (Nat.ltb i (length (colors h))); [| discriminate E].
  injection E as _ <-. unfold grows_by. cbn.
  assert (L : forall (l : list (color F)) i, length (upd i c l) = length l).
  { induction l as [| a l IH]; intros [| j]; cbn; try reflexivity. f_equal. apply IH. }
  rewrite L. lia.
Qed.
Lemma adds_alloc c : adds 1 (@alloc F c).
Proof. intros h r h' E. injection E as _ <-. unfold grows_by. cbn. rewrite app_length. reflexivity. Qed.
Lemma adds_load_as T p : adds 0 (@load_as F T p).
Proof.
  apply (adds_bind _ _ 0 0); [apply adds_load |]. intro c. destruct (ctype_eq_dec (cls c) T); [apply adds_ret | apply adds_lift].
Qed.
Lemma adds_cast T p : adds 0 (@cast F T p).
Proof. apply (adds_bind _ _ 0 0); [apply adds_load_as |]. intro. apply adds_ret. Qed.
Lemma adds_load_white c : adds 0 (@load_white F c).
Proof. apply (adds_bind _ _ 0 0); [apply adds_load_space |]. intro s. destruct (s_white s) as [[? ?] |]; [apply adds_ret | apply adds_lift]. Qed.
Lemma adds_load_gamma c : adds 0 (@load_gamma F c).
Proof. apply (adds_bind _ _ 0 0); [apply adds_load_space |]. intro s. destruct (s_gamma s); [apply adds_ret | apply adds_lift]. Qed.
Lemma adds_correct f c : adds 0 (@correct_with F AF f c).
Proof. unfold correct_with. destruct (comps c); [apply adds_ret |]. apply (adds_bind _ _ 0 0); [apply adds_load_gamma |]. intro. apply adds_ret. Qed.

Lemma adds_leaf T f p : adds 1 (@leaf F T f p).
Proof. apply (adds_bind _ _ 0 1); [apply adds_load_as |]. intro. apply (adds_bind _ _ 0 1); [apply adds_lift |]. intro. apply adds_alloc. Qed.
Lemma adds_leaf_white T f p : adds 1 (@leaf_white F T f p).
Proof.
  apply (adds_bind _ _ 0 1); [apply adds_load_as |]. intro. apply (adds_bind _ _ 0 1); [apply adds_load_white |]. intro.
  apply (adds_bind _ _ 0 1); [apply adds_lift |]. intro. apply adds_alloc.
Qed.
Lemma adds_deep_xyz p : adds 1 (@rgb_deep_to_xyz F AF p).
Proof.
  apply (adds_bind _ _ 0 1); [apply adds_load_as |]. intro c. apply (adds_bind _ _ 0 1); [apply adds_correct |]. intro c'.
  apply (adds_bind _ _ 0 1); [apply adds_store |]. intros _. apply (adds_bind _ _ 0 1); [apply adds_load_space |]. intro s.
  apply (adds_bind _ _ 0 1); [apply adds_lift |]. intro v. destruct v as [| x [| y [| z v]]]; try apply adds_undef.
  apply (adds_bind _ _ 0 1); [apply adds_lift |]. intro r. apply adds_alloc.
Qed.
Lemma adds_xyz_deep p : adds 1 (@xyz_to_rgb_deep F AF p).
Proof.
  apply (adds_bind _ _ 0 1); [apply adds_load_as |]. intro c. apply (adds_bind _ _ 0 1); [apply adds_load_space |]. intro s.
  apply (adds_bind _ _ 0 1); [apply adds_lift |]. intro v. destruct v as [| x [| y [| z v]]]; try apply adds_undef.
  apply (adds_bind _ _ 0 1); [apply adds_lift |]. intro d. apply (adds_bind _ _ 1 0); [apply adds_alloc |]. intro q.
  do 3 (apply (adds_bind _ _ 0 0); [apply adds_lift |]; intro). apply (adds_bind _ _ 0 0); [apply adds_correct |]. intro.
  apply (adds_bind _ _ 0 0); [apply adds_store |]. intros _. apply adds_ret.
Qed.
Lemma adds_xyz_xyy p : adds 1 (@xyz_to_xyy F AF p).
Proof.
  apply (adds_bind _ _ 0 1); [apply adds_load_as |]. intro c. destruct (comps c) as [| x [| y [| z [| t l]]]]; try apply adds_undef.
  destruct (_ && _).
  - apply (adds_bind _ _ 0 1); [apply adds_load_white |]. intro w. apply (adds_bind _ _ 0 1); [apply adds_lift |]. intro r. apply adds_alloc.
  - apply (adds_bind _ _ 0 1); [apply adds_lift |]. intro r. apply adds_alloc.
Qed.
Lemma adds_true_grey p : adds 2 (@rgb_true_to_grey_deep F AF p).
Proof.
  apply (adds_bind _ _ 1 1); [apply adds_leaf |]. intro q. apply (adds_bind _ _ 0 1); [apply adds_load_as |]. intro g.
  apply (adds_bind _ _ 0 1); [apply adds_load_as |]. intro c. apply (adds_bind _ _ 0 1); [apply adds_lift |]. intro r. apply adds_alloc.
Qed.

(** unfolds a conversion until the leaves are reached *)
Ltac count :=
  first
  [ apply adds_cast | apply adds_leaf | apply adds_leaf_white | apply adds_deep_xyz | apply adds_xyz_deep | apply adds_xyz_xyy | apply adds_true_grey
  | match goal with |- adds _ (bind _ _) => eapply adds_bind; [count | intro; count] end
  | match goal with |- adds _ ?m => let f := head_of m in unfold f end; count ]
with head_of m := match m with ?f _ => head_of f | _ => m end.

Lemma type_adds T U p h r h' c : In U all_types -> ty c = T -> T <> UNDEFINED -> at_addr h p c ->
  @to_type F AF U (Some p) h = (Ok r, h') -> grows_by (chain T U) h h'.
Proof.
  intros I E N A R.
  assert (L : @load F (Some p) h = (Ok c, h)) by (cbn; rewrite A; reflexivity).
  assert (G : forall m n, adds n m -> chain T U = n -> m h = (Ok r, h') -> grows_by (chain T U) h h') by (intros m n H <- Q; exact (H _ _ _ Q)).
  cbn [all_types In] in I.
  decompose [or] I; try contradiction; subst U; cbn [to_type] in R;
  match type of R with ?m _ _ = _ => let f := head_of m in unfold f in R end;
  unfold bind at 1 in R; rewrite L in R; rewrite E in R; destruct T; try congruence;
  (eapply G; [| | exact R]; [count | reflexivity]).
Qed.

Lemma adds_measured X f a b : adds 0 (if ptr_eqb a b then ret (fz 0) else bind (@load_as F X a) (fun c1 => bind (@load_as F X b) (fun c2 => lift (f c1 c2)))).
Proof.
  destruct (ptr_eqb a b); [apply adds_ret |]. apply (adds_bind _ _ 0 0); [apply adds_load_as |]. intro.
  apply (adds_bind _ _ 0 0); [apply adds_load_as |]. intro. apply adds_lift.
Qed.
End Leak.

Lemma conversion_count o (h : heap f32) p c X Y : at_addr h p c -> @wf_color f32 (F32 o) X c -> In Y all_types -> (needs_space X Y = true -> has_space h c) ->
  exists q h', @to_type f32 (F32 o) Y (Some p) h = (Ok (Some q), h') /\ grows_by (chain X Y) h h'.
Proof.
  intros A W I N. destruct (conversion_total o h p c X Y A W I N) as [q [r [h' [E _]]]].
  exists q, h'. split; [exact E |]. exact (type_adds X Y p h _ h' c I (wf_ty _ _ W) (wf_real _ _ W) A E).
Qed.

Lemma conversion_leaks o X Y : In X all_types -> In Y all_types -> 2 <= chain X Y -> exists (h : heap f32) p c q h' i t,
  at_addr h p c /\ @reachable f32 (F32 o) c /\ ty c = X /\ @to_type f32 (F32 o) Y (Some p) h = (Ok (Some q), h') /\
  fresh h i /\ i <> q /\ at_addr h' i t.
Proof.
  intros IX IY L. destruct (alpha_example o X IX) as [h [p [c [A [R [K [HS _]]]]]]].
  pose proof (reachable_wf o c R) as W. rewrite K in W.
  destruct (conversion_count o h p c X Y A W IY (fun _ => HS)) as [q [h' [E G]]].
  unfold grows_by in G.
  assert (T : forall i, i < length (colors h') -> exists t, at_addr h' i t).
  { intros i Hi. unfold at_addr. destruct (nth_error (colors h') i) eqn:Q; [eauto |]. apply nth_error_None in Q. lia. }
  set (i := if Nat.eqb q (length (colors h)) then S (length (colors h)) else length (colors h)).
  assert (P : length (colors h) <= i < length (colors h') /\ i <> q).
  { unfold i. destruct (Nat.eqb q (length (colors h))) eqn:Q; [apply Nat.eqb_eq in Q | apply Nat.eqb_neq in Q]; lia. }
  destruct (T i ltac:(lia)) as [t Ht]. exists h, p, c, q, h', i, t.
  split; [exact A |]. split; [exact R |]. split; [exact (wf_ty _ _ W) |]. split; [exact E |]. split; [unfold fresh; lia |]. split; [lia | exact Ht].
Qed.

Lemma distance_count o (d : distance_fun f32) X1 X2 (h : heap f32) p1 c1 p2 c2 : p1 <> p2 -> at_addr h p1 c1 -> at_addr h p2 c2 ->
  @wf_color f32 (F32 o) X1 c1 -> @wf_color f32 (F32 o) X2 c2 ->
  (needs_space X1 (compared_in d) = true -> has_space h c1) -> (needs_space X2 (compared_in d) = true -> has_space h c2) ->
  grows_by (chain X1 (compared_in d) + chain X2 (compared_in d)) h (snd (@distance f32 (F32 o) d (Some p1) (Some p2) h)).
Proof.
  intros NP H1 H2 W1 W2 N1 N2.
  assert (I : In (compared_in d) all_types) by (destruct d as [[] | | | | | |]; cbn; tauto).
  destruct (distance_run (AF := F32 o) (AL := F32Laws o) d X1 X2 h p1 c1 p2 c2 NP H1 H2 W1 W2 N1 N2) as [h' [d1 [d2 [[a1 [h1 [a2 [E1 [E2 _]]]]] [_ [_ [E _]]]]]]].
  rewrite E. cbn [snd].
  destruct (conversion_footprint o h p1 c1 X1 _ H1 W1 I N1) as [c' [_ [_ [_ [_ [_ K]]]]]]. rewrite E1 in K. cbn [snd] in K.
  pose proof (type_adds X1 _ p1 h _ h1 c1 I (wf_ty _ _ W1) (wf_real _ _ W1) H1 E1) as G1.
  pose proof (type_adds X2 _ p2 h1 _ h' c2 I (wf_ty _ _ W2) (wf_real _ _ W2) (K p2 c2 (fun Q => NP (eq_sym Q)) H2) E2) as G2.
  unfold grows_by in *. lia.
Qed.
