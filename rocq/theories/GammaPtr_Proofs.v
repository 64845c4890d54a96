(** * Gamma curves with pieces behind pointers (C127 - C130) *)
From Coq Require Import ZArith QArith Reals Lra Lia List Bool Permutation Sorted.
From Verif Require Import Arith Outcome ColorModel GammaModel GammaPtr RArith Laws Spec_Matrix Spec_Space Gamma_Proofs.
Import ListNotations.

Section G.
Context {F : Type} {AF : Arith F}.
Implicit Types st : piece_store F.

(** The pointers [l] refer to the pieces [xs]. *)
Definition refer st (l : list piece_ptr) (xs : list (gamma_part F)) : Prop :=
  Forall2 (fun p x => piece_at st p = Ok x) l xs.

Lemma insert_ptr_ok st p x l xs : piece_at st p = Ok x -> refer st l xs ->
  exists l', insert_ptr st p l = Ok l' /\ refer st l' (insert_part x xs) /\ Permutation (p :: l) l'.
Proof.
  intros P H. induction H as [|q y l ys Q H IH]; cbn.
  - exists [p]. repeat constructor. exact P.
  - unfold ptr_lt. rewrite P, Q. cbn. destruct (part_lt y x).
    + destruct IH as [l' [E [R M]]]. rewrite E. exists (q :: l'). split; [reflexivity|].
      split; [constructor; assumption|]. rewrite perm_swap. constructor. exact M.
    + exists (p :: q :: l). repeat split; auto. repeat constructor; assumption.
Qed.
Lemma sort_ptrs_ok st l xs : refer st l xs ->
  exists l', sort_ptrs st l = Ok l' /\ refer st l' (sort_parts xs) /\ Permutation l l'.
Proof.
  intros H. induction H as [|p x l xs P H IH]; cbn.
  - exists []. repeat constructor.
  - destruct IH as [l1 [E [R M]]]. rewrite E. cbn.
    destruct (insert_ptr_ok st p x l1 _ P R) as [l' [E' [R' M']]]. exists l'. repeat split; auto.
    rewrite <- M'. constructor. exact M.
Qed.
Lemma apply_ptrs_ok st l xs x : refer st l xs -> apply_ptrs st l x = Ok (apply_parts xs x).
Proof.
  intros H. induction H as [|p y l ys P H IH]; cbn; auto.
  destruct p as [i|]; [|discriminate P]. cbn in P. rewrite P. cbn.
  destruct (g_fun y) as [f|]; [destruct (fle x (g_border y))|]; auto.
Qed.

Lemma ctor_refers st l ig xs ys : refer st l xs -> refer st ig ys ->
  exists g, pgamma_ctor st l ig = Ok g /\ Permutation l (pg_parts g) /\ Permutation ig (pig_parts g) /\
    forall x, pgamma_correction st g x = Ok (gamma_correction (gamma_ctor xs ys) x) /\
              pinverse_gamma_correction st g x = Ok (inverse_gamma_correction (gamma_ctor xs ys) x).
Proof.
  intros A B. destruct (sort_ptrs_ok st l xs A) as [l' [E [R M]]]. destruct (sort_ptrs_ok st ig ys B) as [k' [E' [R' M']]].
  exists (PGamma l' k'). unfold pgamma_ctor. rewrite E, E'. repeat split; auto; intros;
  unfold pgamma_correction, pinverse_gamma_correction, gamma_correction, inverse_gamma_correction; cbn;
  apply apply_ptrs_ok; assumption.
Qed.

Lemma sort_null st (l : list piece_ptr) : In None l -> (2 <= length l)%nat -> sort_ptrs st l = Undef.
Proof.
  assert (INS : forall (p : piece_ptr) l, l <> [] -> p = None \/ hd (Some O) l = None -> insert_ptr st p l = Undef).
  { intros p [|q t] N H; [congruence|]. cbn. unfold ptr_lt. destruct H as [->|H].
    - destruct (piece_at st q) eqn:E; cbn; auto; destruct q as [i|]; cbn in E; try discriminate; destruct (nth_error st i); discriminate.
    - cbn in H. subst q. reflexivity. }
  induction l as [|p l IH]; [intros []|]. intros I L. cbn in L.
  change (obind (sort_ptrs st l) (insert_ptr st p) = Undef).
  destruct l as [|q l]; [cbn in L; lia|].
  destruct l as [|r l].
  - change (insert_ptr st p [q] = Undef). apply INS; [discriminate|]. destruct I as [->|[->|[]]]; auto.
  - destruct (in_dec (fun a b : piece_ptr => ltac:(decide equality; decide equality)) None (q :: r :: l)) as [J|J].
    + rewrite IH; auto. cbn. lia.
    + destruct I as [->|I]; [|contradiction].
      destruct (sort_ptrs st (q :: r :: l)) as [k| | |] eqn:E; cbn [obind]; auto.
      * apply INS; auto. intros ->.
        assert (H : forall l k, sort_ptrs st l = Ok k -> length k = length l).
        { assert (IL : forall p l k, insert_ptr st p l = Ok k -> length k = S (length l)).
          { intros p l0. induction l0 as [|a l0 IHl]; cbn; intros k H.
            - injection H as <-. reflexivity.
            - destruct (ptr_lt st a p) as [[]| | |]; try discriminate; cbn in H.
              + destruct (insert_ptr st p l0) as [k0| | |]; try discriminate. cbn in H. injection H as <-. cbn. rewrite (IHl k0); auto.
              + injection H as <-. reflexivity. }
          induction l0 as [|a l0 IHl]; cbn; intros k H.
          - injection H as <-. reflexivity.
          - destruct (sort_ptrs st l0) as [k0| | |]; try discriminate. cbn in H. rewrite (IL _ _ _ H), (IHl k0); auto. }
        apply H in E. discriminate.
      * exfalso. revert E. generalize (q :: r :: l). clear. intros l.
        assert (IL : forall p l e, insert_ptr st p l <> Throw e).
        { intros p l0 e0. induction l0 as [|a l0 IHl]; cbn; [discriminate|]. unfold ptr_lt, piece_at.
          destruct a as [a|]; [destruct (nth_error st a)|]; cbn; try discriminate.
          destruct p as [p|]; [destruct (nth_error st p)|]; cbn; try discriminate.
          destruct (part_lt _ _); [|discriminate]. destruct (insert_ptr st _ l0); try discriminate. cbn. congruence. }
        induction l as [|p l IH]; cbn; [discriminate|].
        destruct (sort_ptrs st l); cbn; try discriminate; [apply IL|exact IH].
      * exfalso. revert E. generalize (q :: r :: l). clear. intros l.
        assert (IL : forall p l, insert_ptr st p l <> Diverge).
        { intros p l0. induction l0 as [|a l0 IHl]; cbn; [discriminate|]. unfold ptr_lt, piece_at.
          destruct a as [a|]; [destruct (nth_error st a)|]; cbn; try discriminate.
          destruct p as [p|]; [destruct (nth_error st p)|]; cbn; try discriminate.
          destruct (part_lt _ _); [|discriminate]. destruct (insert_ptr st _ l0); try discriminate. cbn. congruence. }
        induction l as [|p l IH]; cbn; [discriminate|].
        destruct (sort_ptrs st l); cbn; try discriminate; [apply IL|exact IH].
Qed.

Lemma ctor_null st (l ig : list piece_ptr) : In None l -> (2 <= length l)%nat -> pgamma_ctor st l ig = Undef.
Proof. intros I L. unfold pgamma_ctor. rewrite sort_null; auto. Qed.

Lemma only_null st : exists g, pgamma_ctor st [None] [None] = Ok g /\ forall x, pgamma_correction st g x = Ok x.
Proof. exists (PGamma [None] [None]). split; reflexivity. Qed.

(** ** Comparison *)
Lemma ptr_eqb_iff p q : piece_ptr_eqb p q = true <-> p = q.
Proof. destruct p, q; cbn; try rewrite Nat.eqb_eq; split; congruence. Qed.
Lemma ptrs_eqb_iff a : forall b, ptrs_eqb a b = true <-> a = b.
Proof.
  induction a as [|p a IH]; destruct b as [|q b]; cbn; try (split; congruence).
  rewrite andb_true_iff, ptr_eqb_iff, IH. split; [intros [-> ->]; auto|intros H; injection H; auto].
Qed.
Lemma pgamma_eqb_iff a b : pgamma_eqb a b = true <-> a = b.
Proof.
  unfold pgamma_eqb. rewrite andb_true_iff, !ptrs_eqb_iff. destruct a, b; cbn. split; [intros [-> ->]; auto|intros H; injection H; auto].
Qed.

(** A curve built a second time from new pieces with the same contents is different. *)
Lemma rebuilt_differs st l ig l' ig' g g' : l <> [] -> (forall p, In p l -> ~ In p l') ->
  pgamma_ctor st l ig = Ok g -> pgamma_ctor st l' ig' = Ok g' ->
  (exists xs, refer st l xs) -> (exists xs, refer st l' xs) -> pgamma_eqb g g' = false.
Proof.
  intros N D E E' [xs R] [ys R'].
  destruct (sort_ptrs_ok st l xs R) as [k [K [_ M]]]. destruct (sort_ptrs_ok st l' ys R') as [k' [K' [_ M']]].
  unfold pgamma_ctor in E, E'. rewrite K in E. rewrite K' in E'. cbn in E, E'.
  destruct (sort_ptrs st ig); try discriminate. destruct (sort_ptrs st ig'); try discriminate. cbn in E, E'.
  injection E as <-. injection E' as <-.
  apply not_true_is_false. rewrite pgamma_eqb_iff. intros Q. injection Q as Q _. subst k'.
  destruct l as [|p l]; [congruence|]. apply (D p); [left; reflexivity|].
  eapply Permutation_in; [apply Permutation_sym, M'|]. eapply Permutation_in; [exact M|left; reflexivity].
Qed.

Lemma part_eqb_undef p f : g_fun p = Some f -> feq (g_border p) (g_border p) = true -> part_eqb p p = Undef.
Proof. intros E B. unfold part_eqb. rewrite B. unfold get_gamma_function_address. rewrite E. reflexivity. Qed.
Lemma part_eqb_border p q : feq (g_border p) (g_border q) = false -> part_eqb p q = Ok false.
Proof. intros B. unfold part_eqb. rewrite B. reflexivity. Qed.

Lemma remove_undef g n : premove_part g n = Undef /\ premove_inverse_part g n = Undef.
Proof. auto. Qed.
End G.

(** ** Shared pieces *)
Local Open Scope R_scope.
Definition two_pieces (f g : R -> R) : piece_store R := [GammaPart (Some f) (1 / 2); GammaPart (Some g) 1].

Lemma two_ctor f g ig : sort_ptrs (two_pieces f g) ig = Ok ig ->
  pgamma_ctor (two_pieces f g) [Some 1; Some 0]%nat ig = Ok (PGamma [Some 0; Some 1]%nat ig).
Proof.
  intros E. unfold pgamma_ctor. rewrite E. unfold two_pieces. cbn. unfold part_lt. cbn.
  replace (Rltb (1 / 2) 1) with true; [reflexivity|]. symmetry. apply Rltb_true. lra.
Qed.

(** Raising a border: the curve keeps the old order and no longer selects the piece that
    covers the input. *)
Lemma stale_order f g : exists c st', let st := two_pieces f g in
  pgamma_ctor st [Some 1; Some 0]%nat [] = Ok c /\ set_upper_border st 0 2 = Ok st' /\
  covers st' (GammaPart (Some g) 1) g (3 / 4) /\ pgamma_correction st' c (3 / 4) = Ok (f (3 / 4)).
Proof.
  eexists. eexists. split; [apply two_ctor; reflexivity|]. split; [reflexivity|]. split.
  - split; [right; left; reflexivity|]. split; [reflexivity|]. split; [apply Rleb_true; cbn; lra|].
    intros q h [<-|[<-|[]]] _ _; [right; apply Rltb_true; cbn; lra|left; reflexivity].
  - unfold pgamma_correction. cbn. replace (Rleb (3 / 4) 2) with true; [reflexivity|]. symmetry. apply Rleb_true. lra.
Qed.

(** Changing a piece of the copy changes the original curve. *)
Lemma copy_shares f g : exists c c' st', let st := two_pieces f g in
  pgamma_ctor st [Some 1; Some 0]%nat [] = Ok c /\ pgamma_copy st c = Ok c' /\ In (Some 0%nat) (pg_parts c') /\
  set_upper_border st 0 (1 / 8) = Ok st' /\
  pgamma_correction st c (1 / 4) = Ok (f (1 / 4)) /\ pgamma_correction st' c (1 / 4) = Ok (g (1 / 4)).
Proof.
  eexists. eexists. eexists. split; [apply two_ctor; reflexivity|].
  split. { unfold pgamma_copy, pgamma_ctor, two_pieces. cbn. unfold part_lt. cbn.
    replace (Rltb 1 (1 / 2)) with false; [reflexivity|]. symmetry. apply Rltb_false. lra. }
  split; [left; reflexivity|]. split; [reflexivity|]. unfold pgamma_correction. cbn. split.
  - replace (Rleb (1 / 4) (1 / 2)) with true; [reflexivity|]. symmetry. apply Rleb_true. lra.
  - replace (Rleb (1 / 4) (1 / 8)) with false; [|symmetry; apply Rleb_false; lra].
    replace (Rleb (1 / 4) 1) with true; [reflexivity|]. symmetry. apply Rleb_true. lra.
Qed.
