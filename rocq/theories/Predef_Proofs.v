(** * Named colours (C124 - C126) *)
From Coq Require Import ZArith QArith Reals Lra Lia List Bool String.
From Flocq Require Import Core IEEE754.BinarySingleNaN.
From Verif Require Import Arith Outcome ColorModel HexModel GammaModel MatrixModel SpaceModel Heap Converter Predef F32 F32Facts
  Spec Spec32 History Laws Spec_Conv Spec_Predef.
From Verif Require Import Core_Proofs Hex_Proofs Core3_Proofs Total_Proofs Convert_Proofs.
Import ListNotations.
Local Open Scope Z_scope.

Lemma ok_same {A} (x y : A) : Ok x = Ok y -> x = y.
Proof. intros H. injection H. auto. Qed.

Lemma alpha8_full o : is_value (@alpha8 f32 (F32 o) (@fofZ f32 (F32 o) 255)) 1.
Proof.
  destruct (fval_SF (@alpha8 f32 (F32 o) (@fofZ f32 (F32 o) 255)) false 8388608 (-23)) as [A B]; [vm_compute; reflexivity|].
  split; [exact A|]. rewrite B. unfold F2R. simpl. lra.
Qed.
Lemma alpha8_none o : is_value (@alpha8 f32 (F32 o) (@fofZ f32 (F32 o) 0)) 0.
Proof.
  split; [vm_compute; reflexivity|].
  replace (@alpha8 f32 (F32 o) (@fofZ f32 (F32 o) 0)) with (B754_zero (prec := 24) (emax := 128) false); [reflexivity|].
  symmetry. apply B2SF_inj. vm_compute. reflexivity.
Qed.

Lemma getter_is_conversion {F} {AF : Arith F} T b h : In T offered -> T <> RGB_TRUE -> getter (F := F) T b h = to_type T b h.
Proof. intros I N. repeat (destruct I as [<-|I]; [reflexivity || congruence|]). destruct I. Qed.

(** Everything about a newly made factory *)
Lemma new_base o n v sp (h : heap f32) : In (n, v) hexcode_colors -> exists c,
  @new_predefined_color f32 (F32 o) v sp h = (Ok (Some (List.length (colors h))), Heap (colors h ++ [c]) (spaces h)) /\
  @reachable f32 (F32 o) c /\ cls c = RGB_TRUE /\ rgb_space c = sp /\ @predefined_color f32 (F32 o) v sp = Ok c /\
  is_value (m_alpha c) (if string_dec n "Transparent" then 0 else 1).
Proof.
  intros I. destruct (predefined_channels o n v sp I) as [a [r [g [b [c [Hr [Hg [Hb [Ev [Ea [E [K [T [S _]]]]]]]]]]]]]].
  exists c. unfold new_predefined_color, bind, lift. rewrite E. split; [reflexivity|].
  assert (R : @reachable f32 (F32 o) c) by (apply r_new, (mk_int (to_int32 v) sp); exact E).
  split; [exact R|]. split; [exact K|]. split; [exact S|]. split; [reflexivity|].
  assert (M : m_alpha c = @alpha8 f32 (F32 o) (@fofZ f32 (F32 o) a)).
  { assert (Ha : 0 <= a <= 255) by (destruct (string_dec n "Transparent"); lia).
    unfold predefined_color in E. rewrite (int_fill (to_int32 v) a r g b sp Ha Hr Hg Hb) in E.
    - destruct (@truecolor_fill_made f32 (F32 o) _ a r g b sp) as [c' [E' [_ [Mc _]]]].
      rewrite E in E'. apply ok_same in E'. rewrite E'. exact Mc.
    - rewrite to_int32_mod. rewrite Z.mod_small; auto. unfold argb in Ev. lia. }
  rewrite M, Ea. destruct (string_dec n "Transparent"); [apply alpha8_none|apply alpha8_full].
Qed.

Lemma value_in_unit x (b : bool) : is_value x (if b then 0 else 1) -> in_interval 0 1 x.
Proof. intros [A B]. split; [exact A|]. rewrite B. destruct b; lra. Qed.

Lemma named_colour o n v sp i s T (h : heap f32) : In (n, v) hexcode_colors -> In T offered ->
  (cie T = true -> sp = Some i /\ nth_error (spaces h) i = Some s /\ usable_space s) ->
  exists b h1 q r h2, @new_predefined_color f32 (F32 o) v sp h = (Ok (Some b), h1) /\
    @getter f32 (F32 o) T (Some b) h1 = (Ok (Some q), h2) /\ at_addr h2 q r /\
    colour_of_type T r /\ rgb_space r = sp /\ is_value (m_alpha r) (if string_dec n "Transparent" then 0 else 1) /\
    unchanged h h2.
Proof.
  intros I IT HS. destruct (new_base o n v sp h I) as [c [E [R [K [S [_ A]]]]]].
  set (b := List.length (colors h)) in *. set (h1 := Heap (colors h ++ [c]) (spaces h)) in *.
  assert (P : at_addr h1 b c).
  { unfold at_addr, h1, b. cbn. rewrite nth_error_app2 by lia. rewrite Nat.sub_diag. reflexivity. }
  assert (U : unchanged h h1).
  { split; [reflexivity|]. intros j d J. unfold at_addr, h1 in *. cbn. rewrite nth_error_app1; auto.
    apply nth_error_Some. congruence. }
  pose proof (reachable_wf o c R) as W. rewrite K in W.
  assert (A1 : in_interval 0 1 (m_alpha c)).
  { destruct A as [A B]. split; [exact A|]. rewrite B. destruct (string_dec n "Transparent"); lra. }
  destruct (ctype_eq_dec T RGB_TRUE) as [->|D].
  - exists b, h1, b, c, h1. split; [exact E|]. split; [reflexivity|]. split; [exact P|]. split; [apply (wf32 o), W|]. auto.
  - assert (HT : In T all_types) by (repeat (destruct IT as [<-|IT]; [cbn; intuition|]); destruct IT).
    assert (N : needs_space RGB_TRUE T = true -> has_space h1 c).
    { intros X. destruct HS as [Q [Q1 Q2]]; [exact X|]. exists i, s. rewrite S, Q. auto. }
    assert (NB : ~ @black_hsl f32 (F32 o) c).
    { intros [X _]. destruct (proj1 (wf32 o _ _) W) as [Y _]. destruct Y as [_ [_ [Y _]]]. congruence. }
    destruct (conversion_total o h1 b c RGB_TRUE T P W HT N) as [q [r [h2 [C1 [C2 [C3 _]]]]]].
    destruct (conversion_space o h1 b c RGB_TRUE T P W HT N) as [q' [r' [h2' [C1' [C2' [C4 _]]]]]].
    destruct (conversion_alpha o h1 b c RGB_TRUE T P R K HT N A1 NB) as [q'' [r'' [h2'' [C1'' [C2'' [C5 _]]]]]].
    assert (D1 : RGB_TRUE <> RGB_DEEP) by discriminate.
    pose proof (conversion_unchanged o h1 b c RGB_TRUE T P W HT N (or_introl D1)) as C6.
    rewrite C1 in C1', C1''. rewrite C1 in C6. cbn [snd] in C6.
    injection C1' as <- <-. injection C1'' as <- <-.
    unfold at_addr in C2', C2''. rewrite C2 in C2', C2''. injection C2' as <-. injection C2'' as <-.
    exists b, h1, q, r, h2. split; [exact E|]. rewrite (getter_is_conversion T _ _ IT D). split; [exact C1|].
    split; [exact C2|]. split; [exact C3|]. split; [congruence|]. split; [rewrite C5; [exact A|auto]|].
    split; [destruct U as [U _], C6 as [C6 _]; congruence|]. intros j d J. apply C6, U, J.
Qed.

(** ** The RGB colour is shared *)
Lemma rgb_shared {F} {AF : Arith F} (b : nat) (h : heap F) c d :
  at_addr h b c ->
  getter RGB_TRUE (Some b) h = (Ok (Some b), h) /\
  exists h', store (Some b) d h = (Ok tt, h') /\
    getter RGB_TRUE (Some b) h' = (Ok (Some b), h') /\
    at_addr h' b d.
Proof.
  intros P. split; [reflexivity|]. unfold store. assert (L : (b < List.length (colors h))%nat) by (apply nth_error_Some; unfold at_addr in P; congruence).
  apply Nat.ltb_lt in L. rewrite L. eexists. split; [reflexivity|]. split; [reflexivity|]. unfold at_addr. cbn.
  apply Nat.ltb_lt in L. revert b P L. unfold at_addr. generalize (colors h). intros l. induction l as [|x l IH]; intros [|b] P L; cbn in *; try lia; auto.
  apply IH; [exact P|lia].
Qed.

(** ** The table *)
Fixpoint distinct (l : list string) : bool :=
  match l with [] => true | x :: t => negb (existsb (String.eqb x) t) && distinct t end.
Lemma distinct_NoDup l : distinct l = true -> NoDup l.
Proof.
  induction l as [|x l IH]; intros H; constructor; cbn in H; apply andb_true_iff in H; destruct H as [H1 H2]; auto.
  intros I. apply negb_true_iff in H1. apply not_true_iff_false in H1. apply H1, existsb_exists. exists x. split; auto. apply String.eqb_refl.
Qed.
Lemma table_names : NoDup (map fst hexcode_colors).
Proof. apply distinct_NoDup. vm_compute. reflexivity. Qed.

Definition same_value : list (string * string) := [("Aqua", "Cyan"); ("Cyan", "Aqua"); ("Fuchsia", "Magenta"); ("Magenta", "Fuchsia")]%string.
Definition pair_eqb (p q : string * string) : bool := String.eqb (fst p) (fst q) && String.eqb (snd p) (snd q).
Definition values_distinct : bool :=
  forallb (fun x => forallb (fun y => negb (snd x =? snd y) || String.eqb (fst x) (fst y) || existsb (pair_eqb (fst x, fst y)) same_value) hexcode_colors) hexcode_colors.
Lemma table_values n v m w : In (n, v) hexcode_colors -> In (m, w) hexcode_colors -> v = w -> n = m \/ In (n, m) same_value.
Proof.
  intros I J ->. assert (H : values_distinct = true) by (vm_compute; reflexivity).
  unfold values_distinct in H. rewrite forallb_forall in H. apply H in I. rewrite forallb_forall in I. apply I in J. cbn [fst snd] in J.
  rewrite Z.eqb_refl in J. cbn [negb orb] in J. apply orb_true_iff in J. destruct J as [J|J].
  - left. apply String.eqb_eq, J.
  - right. apply existsb_exists in J. destruct J as [[a b] [X Y]]. unfold pair_eqb in Y. apply andb_true_iff in Y. cbn in Y.
    destruct Y as [Y1 Y2]. apply String.eqb_eq in Y1, Y2. subst. exact X.
Qed.
