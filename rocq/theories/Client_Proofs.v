(** * Proofs about programs that use the library *)
From Coq Require Import ZArith QArith Reals List Bool Lia Lra.
From Flocq Require Import Core IEEE754.BinarySingleNaN.
From Verif Require Import Arith Outcome ColorModel GammaModel MatrixModel SpaceModel Heap Converter Calculation Blend Adjust Combine Distance Adapt
  F32 F32Facts Laws Spec Spec32 History Spec_Conv Spec_Calc Spec_Blend Spec_Adjust Spec_Combine Spec_Distance Spec_Adapt
  Core_Proofs Core2_Proofs Core4_Proofs Conv_Proofs Conv2_Proofs Conv3_Proofs Convert_Proofs Total_Proofs Calc_Proofs Calc2_Proofs Calc4_Proofs
  Blend_Proofs Blend2_Proofs BlendHcy_Proofs Adjust_Proofs Adjust2_Proofs Combine_Proofs Combine2_Proofs Distance_Proofs
  Adapt_Proofs Adapt4_Proofs Client.
Import ListNotations.

Section Client.
Variable o : oracle.
Local Notation wf := (@wf_color f32 (F32 o)).
Local Notation heap := (heap f32).
Local Notation color := (color f32).

(** Every object stays well-formed and in its space, and only those with [P] change. *)
Definition evolves (P : nat -> Prop) (h h' : heap) : Prop :=
  (forall i c X, at_addr h i c -> wf X c -> exists c', at_addr h' i c' /\ wf X c' /\ rgb_space c' = rgb_space c) /\
  (forall i c, at_addr h i c -> ~ P i -> at_addr h' i c).

Lemma evolves_unchanged P h h' : unchanged h h' -> evolves P h h'.
Proof. intros [S U]. split; [|auto]. intros i c X H W. exists c. auto. Qed.
Lemma evolves_refl P h : evolves P h h.
Proof. apply evolves_unchanged, unchanged_refl. Qed.
Lemma evolves_trans P h1 h2 h3 : evolves P h1 h2 -> evolves P h2 h3 -> evolves P h1 h3.
Proof.
  intros [A1 B1] [A2 B2]. split; [|auto]. intros i c X H W. destruct (A1 i c X H W) as [c1 [H1 [W1 S1]]].
  destruct (A2 i c1 X H1 W1) as [c2 [H2 [W2 S2]]]. exists c2. split; [exact H2|]. split; [exact W2|]. congruence.
Qed.
Lemma evolves_weaken (P Q : nat -> Prop) h h' : (forall i, P i -> Q i) -> evolves P h h' -> evolves Q h h'.
Proof. intros I [A B]. split; [exact A|]. intros i c H N. apply B; auto. Qed.
(** One object replaced by another one of the same type. *)
Lemma evolves_one (P : nat -> Prop) h h' p c c' X : at_addr h p c -> wf X c -> at_addr h' p c' -> wf X c' -> rgb_space c' = rgb_space c -> P p ->
  (forall i d, i <> p -> at_addr h i d -> at_addr h' i d) -> evolves P h h'.
Proof.
  intros H W H' W' S Pp O. split.
  - intros i d Y Hi Wd. destruct (Nat.eq_dec i p) as [->|N].
    + assert (d = c) by (unfold at_addr in *; congruence). subst d. exists c'. split; [exact H'|].
      assert (X = Y) by (rewrite <- (wf_cls _ _ W), <- (wf_cls _ _ Wd); reflexivity). subst Y. auto.
    + exists d. auto.
  - intros i d Hi N. apply O; [|exact Hi]. intros ->. contradiction.
Qed.

Lemma deep_or X Y : (X <> RGB_DEEP \/ cie Y = false) \/ (X = RGB_DEEP /\ cie Y = true).
Proof. destruct (ctype_eq_dec X RGB_DEEP) as [E|N]; [|auto]. destruct (cie Y); auto. Qed.

(** Conversion. *)
Lemma to_evolves X Y h p c : Y <> UNDEFINED -> at_addr h p c -> wf X c -> (needs_space X Y = true -> has_space h c) ->
  exists q r h', @to_type f32 (F32 o) Y (Some p) h = (Ok (Some q), h') /\ at_addr h' q r /\ wf Y r /\ rgb_space r = rgb_space c /\ spaces h' = spaces h /\
    evolves (fun i => X = RGB_DEEP /\ cie Y = true /\ i = p) h h'.
Proof.
  intros UY H W N. destruct (ctype_eq_dec X Y) as [->|D].
  - exists p, c, h. split; [apply (to_type_same (AF := F32 o) Y h p c H W)|]. do 4 (split; [auto|]). apply evolves_refl.
  - destruct (deep_or X Y) as [P|P].
    + destruct (to_pure (AF := F32 o) X Y (wf_real _ _ W) UY P h p c H W N) as [q [r [h' [E [A [Wr [S [U _]]]]]]]].
      exists q, r, h'. do 4 (split; [assumption|]). split; [apply U|]. apply evolves_unchanged, U.
    + destruct (to_type_cv (AF := F32 o) X Y (wf_real _ _ W) UY D h p c H W N) as [q [r [h' [c' [E [_ [A [Wr [S [O [Hp [Wc [_ [Sc _]]]]]]]]]]]]]].
      exists q, r, h'. do 4 (split; [assumption|]). split; [apply O|].
      apply (evolves_one _ h h' p c c' X H W Hp Wc Sc); [tauto|]. intros i d Ni Hi. apply (proj2 O i d Ni Hi).
Qed.

(** ** Results of calls *)
Definition result (n : nat) (h : heap) (k : known) (q : ptr) : Prop :=
  forall X s, k = Some (X, s) -> exists p c, q = Some p /\ at_addr h p c /\ wf X c /\ rgb_space c = s /\ forall i, s = Some i -> (i < n)%nat.
Definition white_at (a : nat) (s : space_def f32) : Prop := usable_space s /\ exists w, s_white s = Some (a, w).
Definition does (G : context) (c : call) (ks : list known) (ws ms : list nat) : Prop :=
  forall h env, good_state o G (h, env) -> exists h' qs l, exec o c (h, env) = Ok (h', env ++ qs) /\ spaces h' = spaces h ++ l /\ Forall2 white_at ws l /\
    evolves (fun i => exists x, In x ms /\ var env x = Some i) h h' /\ Forall2 (result (length (whites G ++ ws)) h') ks qs.

Lemma nth_var env x (p : ptr) : nth_error env x = Some p -> var env x = p.
Proof. intros H. unfold var. apply nth_error_nth, H. Qed.

Lemma Forall2_nth {A B} (R : A -> B -> Prop) l m i a : Forall2 R l m -> nth_error l i = Some a -> exists b, nth_error m i = Some b /\ R a b.
Proof.
  intros H. revert i. induction H as [|x y l m Rxy _ IH]; intros [|i] E; try discriminate E.
  - injection E as <-. exists y. auto.
  - apply IH, E.
Qed.

Lemma Forall2_len {A B} (R : A -> B -> Prop) l m : Forall2 R l m -> length l = length m.
Proof. induction 1; simpl; congruence. Qed.

Lemma good_step G c ks ws ms st : does G c ks ws ms -> good_state o G st ->
  exists st', exec o c st = Ok st' /\ good_state o (extend G ks ws) st' /\ only_changed ms st st' /\
    (forall i X d, at_addr (fst st) i d -> wf X d -> exists d', at_addr (fst st') i d' /\ wf X d').
Proof.
  destruct st as [h env]. intros D GS. destruct (D h env GS) as [h' [qs [l [E [S [FW [[EV FR] R]]]]]]]. clear D.
  destruct GS as [L [V [LW W]]]. cbn [fst snd] in *. exists (h', env ++ qs). split; [exact E|]. split; [|split].
  - unfold good_state, extend, is_var. cbn [fst snd vars whites]. split; [|split; [|split]].
    + rewrite !app_length, L, (Forall2_len _ _ _ R). reflexivity.
    + intros x X s Hx. destruct (le_lt_dec (length (vars G)) x) as [Q|Q].
      * rewrite nth_error_app2 in Hx by exact Q. destruct (Forall2_nth _ _ _ _ _ R Hx) as [q [Hq Rq]].
        destruct (Rq X s eq_refl) as [p [d [-> Z1]]]. exists p, d. split; [|exact Z1]. rewrite nth_error_app2 by lia. rewrite L. exact Hq.
      * rewrite nth_error_app1 in Hx by exact Q. destruct (V x X s Hx) as [p [d [Hp [A [Wd [Sd B]]]]]].
        destruct (EV p d X A Wd) as [d' [A' [Wd' Sd']]]. exists p, d'. rewrite nth_error_app1 by lia. split; [exact Hp|]. split; [exact A'|]. split; [exact Wd'|].
        split; [congruence|]. intros i Hi. rewrite app_length. specialize (B i Hi). lia.
    + rewrite S, !app_length, LW, (Forall2_len _ _ _ FW). reflexivity.
    + intros i a Hi. rewrite S. destruct (le_lt_dec (length (whites G)) i) as [Q|Q].
      * rewrite nth_error_app2 in Hi by exact Q. destruct (Forall2_nth _ _ _ _ _ FW Hi) as [s [Hs [U [w Ew]]]]. exists s, w.
        rewrite nth_error_app2 by lia. rewrite LW. auto.
      * rewrite nth_error_app1 in Hi by exact Q. destruct (W i a Hi) as [s [w [Hs Z1]]]. exists s, w. split; [|exact Z1].
        rewrite nth_error_app1; [exact Hs|lia].
  - split; [exists qs; reflexivity|]. split; [exists l; exact S|]. cbn [fst snd]. intros i d Hi N. apply FR; [exact Hi|]. intros [x [Hx Vx]].
    apply (N x Hx). unfold var in *. destruct (le_lt_dec (length env) x) as [Q|Q]; [rewrite nth_overflow in Vx by exact Q; discriminate Vx|].
    rewrite app_nth1 by exact Q. exact Vx.
  - intros i X d Hi Wd. destruct (EV i d X Hi Wd) as [d' [A' [Wd' _]]]. exists d'. auto.
Qed.

(** A variable of a good state. *)
Lemma lookup G h env x X s : good_state o G (h, env) -> is_var G x X s -> exists p c, var env x = Some p /\ at_addr h p c /\ wf X c /\ rgb_space c = s /\
  (forall i, s = Some i -> (i < length (whites G))%nat) /\ (s <> None -> has_space h c).
Proof.
  intros [L [V [LW W]]] Hx. destruct (V x X s Hx) as [p [c [Hp [A [Wc [S B]]]]]]. cbn [fst snd] in *.
  exists p, c. split; [apply nth_var, Hp|]. do 4 (split; [assumption|]). intros N.
  destruct s as [i|]; [|congruence]. specialize (B i eq_refl).
  destruct (nth_error (whites G) i) as [a|] eqn:Ea; [|apply nth_error_None in Ea; lia].
  destruct (W i a Ea) as [sp [w [Hs [U _]]]]. exists i, sp. auto.
Qed.

Lemma pushes {A} (m : M f32 A) f h env a h' : m h = (Ok a, h') -> push m f (h, env) = Ok (h', env ++ f a).
Proof. intros E. unfold push. cbn [fst snd]. rewrite E. reflexivity. Qed.

Lemma news (m : M f32 ptr) h env q h' : m h = (Ok q, h') -> new m (h, env) = Ok (h', env ++ [q]).
Proof. apply (pushes m (fun p => [p])). Qed.
Lemma manys (m : M f32 (list ptr)) h env qs h' : m h = (Ok qs, h') -> several m (h, env) = Ok (h', env ++ qs).
Proof. apply (pushes m (fun l => l)). Qed.
Lemma effects {A} (m : M f32 A) h env a h' : m h = (Ok a, h') -> effect m (h, env) = Ok (h', env ++ []).
Proof. apply (pushes m (fun _ => [])). Qed.

Lemma result_same G (h : heap) X s p c ws : at_addr h p c -> wf X c -> rgb_space c = s -> (forall i, s = Some i -> (i < length (whites G))%nat) ->
  result (length (whites G ++ ws)) h (same_color X s) (Some p).
Proof.
  intros A W S B X' s' E. unfold same_color in E. assert (X' = X /\ s' = s) as [-> ->] by (split; congruence).
  exists p, c. do 4 (split; [auto|]). intros i Hi. rewrite app_length. specialize (B i Hi). lia.
Qed.
Lemma result_none n h q : result n h None q.
Proof. intros X s E. discriminate E. Qed.

(** Calls that return one colour and change nothing. *)
Lemma does_pure G c ks (m : list ptr -> M f32 ptr) ms : (forall h env, exec o c (h, env) = new (m env) (h, env)) ->
  (forall h env, good_state o G (h, env) -> exists q h', m env h = (Ok q, h') /\ unchanged h h' /\ result (length (whites G)) h' ks q) ->
  does G c [ks] [] ms.
Proof.
  intros EX H h env GS. destruct (H h env GS) as [q [h' [E [U R]]]]. exists h', [q], []. split; [rewrite EX; apply (news _ _ _ _ _ E)|].
  split; [rewrite app_nil_r; apply U|]. split; [constructor|]. split; [apply evolves_unchanged, U|]. rewrite app_nil_r. constructor; [exact R|constructor].
Qed.

Lemma result0 G (h : heap) X s p c : at_addr h p c -> wf X c -> rgb_space c = s -> (forall i, s = Some i -> (i < length (whites G))%nat) ->
  result (length (whites G)) h (same_color X s) (Some p).
Proof. intros A W S B. pose proof (result_same G h X s p c [] A W S B) as R. rewrite app_nil_r in R. exact R. Qed.

Lemma if_deep_in X Y x (env : list ptr) p : var env x = Some p ->
  forall i, X = RGB_DEEP /\ cie Y = true /\ i = p -> exists y, In y (if_deep X Y x) /\ var env y = Some i.
Proof. intros V i [-> [C ->]]. exists x. cbn [if_deep]. rewrite C. simpl. auto. Qed.

Lemma convert_does G Y x X s : is_var G x X s -> In Y all_types -> (needs_space X Y = true -> s <> None) ->
  does G (Convert Y x) [same_color Y s] [] (if_deep X Y x).
Proof.
  intros Hx HY N h env GS. destruct (lookup G h env x X s GS Hx) as [p [c [V [A [W [S [B HS]]]]]]].
  destruct (to_evolves X Y h p c (proj1 (types_real Y) HY) A W (fun K => HS (N K))) as [q [r [h' [E [Aq [Wr [Sr [SS EV]]]]]]]].
  exists h', [Some q], []. split; [cbn [exec snd]; rewrite V; apply (news _ _ _ _ _ E)|]. split; [rewrite app_nil_r; exact SS|].
  split; [constructor|]. split; [apply (evolves_weaken _ _ _ _ (if_deep_in X Y x env p V) EV)|].
  constructor; [|constructor]. apply (result_same G h' Y s q r); auto. congruence.
Qed.

(** The generic operations: only the second argument can change, and it stays well-formed. *)
Lemma gen_does G c keep X Y x y s t (f : ptr -> ptr -> M f32 ptr) g : is_var G x X s -> is_var G y Y t ->
  (forall h env, exec o c (h, env) = new (f (var env x) (var env y)) (h, env)) ->
  gen_ok (AF := F32 o) keep X Y f -> @op_ok f32 (F32 o) keep X g ->
  (forall h p1 c1 p2, at_addr h p1 c1 -> wf X c1 -> f (Some p1) (Some p2) h = @both f32 (@to_type f32 (F32 o) X) g (Some p1) (Some p2) h) ->
  (cie X = true -> s <> None) -> (needs_space X Y = true -> t <> None) -> does G c [same_color X s] [] (if_deep Y X y).
Proof.
  intros Hx Hy EX GO OO FB Ns Nt h env GS.
  destruct (lookup G h env x X s GS Hx) as [p1 [c1 [V1 [A1 [W1 [S1 [B1 HS1]]]]]]].
  destruct (lookup G h env y Y t GS Hy) as [p2 [c2 [V2 [A2 [W2 [S2 [B2 HS2]]]]]]].
  destruct (GO h p1 c1 p2 c2 A1 A2 W1 W2 (fun K => HS1 (Ns K)) (fun K => HS2 (Nt K))) as [q [r [h' [E [Fq [Aq [Wr [Sr [O [U _]]]]]]]]]].
  exists h', [Some q], []. split; [rewrite EX, V1, V2; apply (news _ _ _ _ _ E)|]. split; [rewrite app_nil_r; apply O|]. split; [constructor|].
  split; [|constructor; [|constructor]; apply (result_same G h' X s q r); auto; congruence].
  destruct (ctype_eq_dec X Y) as [XY|XY]; [apply evolves_unchanged, U; auto|].
  destruct (deep_or Y X) as [P|P]; [apply evolves_unchanged, U; tauto|].
  rewrite (FB h p1 c1 p2 A1 W1) in E. unfold both, bind in E. rewrite (to_type_same (AF := F32 o) X h p1 c1 A1 W1) in E.
  assert (N2' : needs_space Y X = true -> has_space h c2). { intros K. apply HS2, Nt. unfold needs_space in *. rewrite orb_comm. exact K. }
  destruct (to_type_cv (AF := F32 o) Y X (wf_real _ _ W2) (wf_real _ _ W1) (not_eq_sym XY) h p2 c2 A2 W2 N2')
    as [q2 [r2 [h2 [c2' [E2 [F2 [Aq2 [Wr2 [Sr2 [O2 [Hp2 [Wc2 [_ [Sc2 _]]]]]]]]]]]]]].
  rewrite E2 in E.
  assert (N12 : p1 <> p2). { intros ->. assert (c1 = c2) by (unfold at_addr in *; congruence). subst c2. apply XY. rewrite <- (wf_cls _ _ W1), <- (wf_cls _ _ W2). reflexivity. }
  destruct (OO h2 p1 c1 q2 r2 (proj2 O2 p1 c1 N12 A1) Aq2 W1 Wr2) as [q3 [r3 [h3 [E3 [_ [_ [_ [_ [U3 _]]]]]]]]].
  { intros K. assert (Q : forall d d', rgb_space d' = rgb_space d -> has_space h d -> has_space h2 d').
    { intros d d' Q [i [sp [Q1 [Q2 Q3]]]]. exists i, sp. rewrite Q, (proj1 O2). auto. }
    split; [apply (Q c1 c1 eq_refl), HS1, Ns, K|]. apply (Q c2 r2 Sr2), HS2, Nt. unfold needs_space. rewrite K. reflexivity. }
  rewrite E3 in E. assert (h3 = h') by congruence. subst h3.
  apply (evolves_one _ h h' p2 c2 c2' Y A2 W2 (proj2 U3 _ _ Hp2) Wc2 Sc2).
  - exists y. destruct P as [-> C]. cbn [if_deep]. rewrite C. simpl. auto.
  - intros i d Ni Hi. apply (proj2 U3), (proj2 O2); assumption.
Qed.

Lemma add_does G x y w1 w2 ia X s Y t : is_var G x X s -> is_var G y Y t -> In X add_types -> (cie X = true -> s <> None) -> (needs_space X Y = true -> t <> None) ->
  in_interval 0 1 w1 -> in_interval 0 1 w2 -> does G (Add x y w1 w2 ia) [same_color X s] [] (if_deep Y X y).
Proof.
  intros Hx Hy HX Ns Nt I1 I2. destruct (weight_ok o w1 I1) as [B1 _]. destruct (weight_ok o w2 I2) as [B2 _].
  assert (UX : X <> UNDEFINED) by (intros ->; simpl in HX; intuition discriminate).
  intros h env GS. destruct (lookup G h env y Y t GS Hy) as [p2 [c2 [_ [_ [W2 _]]]]]. revert h env GS.
  apply (gen_does G _ (negb ia) X Y x y s t (fun a b => @add f32 (F32 o) a b w1 w2 ia) (fun a b => @typed_add f32 (F32 o) X a b w1 w2 ia)); auto.
  - apply (add_ok (AF := F32 o)); auto. apply (wf_real _ _ W2).
  - apply (typed_add_ok (AF := F32 o)); auto.
  - intros h p1 c1 q A1 W1. unfold add, check2. rewrite B1, B2. cbn [orb]. unfold bind at 1, load at 1. unfold at_addr in A1. rewrite A1, (wf_ty _ _ W1).
    destruct X; try reflexivity; simpl in HX; exfalso; intuition discriminate.
Qed.
Lemma mix_does G x y w ia X s Y t : is_var G x X s -> is_var G y Y t -> In X mix_types -> (cie X = true -> s <> None) -> (needs_space X Y = true -> t <> None) ->
  positive_unit w -> does G (Mix x y w ia) [same_color X s] [] (if_deep Y X y).
Proof.
  intros Hx Hy HX Ns Nt I. destruct (weight_strict o w I) as [B0 I1]. destruct (weight_ok o w I1) as [B1 B2].
  assert (UX : X <> UNDEFINED) by (intros ->; simpl in HX; intuition discriminate).
  intros h env GS. destruct (lookup G h env y Y t GS Hy) as [p2 [c2 [_ [_ [W2 _]]]]]. revert h env GS.
  apply (gen_does G _ (negb ia) X Y x y s t (fun a b => @mix f32 (F32 o) a b w ia) (fun a b => @typed_mix f32 (F32 o) X a b w ia)); auto.
  - apply (mix_ok (AF := F32 o)); auto. apply (wf_real _ _ W2).
  - apply (typed_mix_ok (AF := F32 o)); auto.
  - intros h p1 c1 q A1 W1. unfold mix, check_strict. apply orb_false_iff in B1 as B1'. rewrite B0, (proj2 B1'). cbn [orb].
    unfold bind at 1, load at 1. unfold at_addr in A1. rewrite A1, (wf_ty _ _ W1).
    destruct X; try reflexivity; simpl in HX; exfalso; intuition discriminate.
Qed.
Lemma minus_does G x y w ia X s Y t : is_var G x X s -> is_var G y Y t -> In X mix_types -> (cie X = true -> s <> None) -> (needs_space X Y = true -> t <> None) ->
  positive_unit w -> does G (Minus x y w ia) [same_color X s] [] (if_deep Y X y).
Proof.
  intros Hx Hy HX Ns Nt I. destruct (weight_strict o w I) as [B0 I1]. destruct (weight_ok o w I1) as [B1 B2].
  assert (UX : X <> UNDEFINED) by (intros ->; simpl in HX; intuition discriminate).
  intros h env GS. destruct (lookup G h env y Y t GS Hy) as [p2 [c2 [_ [_ [W2 _]]]]]. revert h env GS.
  apply (gen_does G _ (composed X || negb ia) X Y x y s t (fun a b => @subtract f32 (F32 o) a b w ia) (fun a b => @typed_subtract f32 (F32 o) X a b w ia)); auto.
  - apply (subtract_ok (AF := F32 o)); auto. apply (wf_real _ _ W2).
  - apply (typed_subtract_ok (AF := F32 o)); auto.
  - intros h p1 c1 q A1 W1. unfold subtract, check_strict. apply orb_false_iff in B1 as B1'. rewrite B0, (proj2 B1'). cbn [orb].
    unfold bind at 1, load at 1. unfold at_addr in A1. rewrite A1, (wf_ty _ _ W1).
    destruct X; try reflexivity; simpl in HX; exfalso; intuition discriminate.
Qed.

Lemma op_does G c keep X x y s t (f : ptr -> ptr -> M f32 ptr) : is_var G x X s -> is_var G y X t ->
  (forall h env, exec o c (h, env) = new (f (var env x) (var env y)) (h, env)) ->
  @op_ok f32 (F32 o) keep X f -> (cie X = true -> s <> None /\ t <> None) -> does G c [same_color X s] [] [].
Proof.
  intros Hx Hy EX OO N. apply (does_pure G c _ (fun env => f (var env x) (var env y)) [] EX). intros h env GS.
  destruct (lookup G h env x X s GS Hx) as [p1 [c1 [V1 [A1 [W1 [S1 [B1 HS1]]]]]]].
  destruct (lookup G h env y X t GS Hy) as [p2 [c2 [V2 [A2 [W2 [S2 [B2 HS2]]]]]]].
  destruct (OO h p1 c1 p2 c2 A1 A2 W1 W2 (fun K => conj (HS1 (proj1 (N K))) (HS2 (proj2 (N K))))) as [q [r [h' [E [_ [Aq [Wr [Sr [U _]]]]]]]]].
  exists (Some q), h'. rewrite V1, V2. split; [exact E|]. split; [exact U|]. apply (result0 G h' X s q r); auto. congruence.
Qed.

Lemma typed_add_does G x y w1 w2 ia X s t : is_var G x X s -> is_var G y X t -> (cie X = true -> s <> None /\ t <> None) ->
  in_interval 0 1 w1 -> in_interval 0 1 w2 -> does G (TypedAdd X x y w1 w2 ia) [same_color X s] [] [].
Proof.
  intros Hx Hy N I1 I2 h env GS. destruct (lookup G h env x X s GS Hx) as [p1 [c1 [_ [_ [W1 _]]]]]. revert h env GS.
  apply (op_does G _ (negb ia) X x y s t (fun a b => @typed_add f32 (F32 o) X a b w1 w2 ia)); auto.
  apply (typed_add_ok (AF := F32 o)); [apply (wf_real _ _ W1)|apply weight_ok, I1|apply weight_ok, I2].
Qed.
Lemma typed_mix_does G x y w ia X s t : is_var G x X s -> is_var G y X t -> (cie X = true -> s <> None /\ t <> None) ->
  in_interval 0 1 w -> does G (TypedMix X x y w ia) [same_color X s] [] [].
Proof.
  intros Hx Hy N I h env GS. destruct (lookup G h env x X s GS Hx) as [p1 [c1 [_ [_ [W1 _]]]]]. revert h env GS.
  apply (op_does G _ (negb ia) X x y s t (fun a b => @typed_mix f32 (F32 o) X a b w ia)); auto.
  apply (typed_mix_ok (AF := F32 o)); [apply (wf_real _ _ W1)|apply weight_ok, I|apply weight_ok, I].
Qed.
Lemma typed_minus_does G x y w ia X s t : is_var G x X s -> is_var G y X t -> (cie X = true -> s <> None /\ t <> None) ->
  in_interval 0 1 w -> does G (TypedMinus X x y w ia) [same_color X s] [] [].
Proof.
  intros Hx Hy N I h env GS. destruct (lookup G h env x X s GS Hx) as [p1 [c1 [_ [_ [W1 _]]]]]. revert h env GS.
  apply (op_does G _ (composed X || negb ia) X x y s t (fun a b => @typed_subtract f32 (F32 o) X a b w ia)); auto.
  apply (typed_subtract_ok (AF := F32 o)); [apply (wf_real _ _ W1)|apply weight_ok, I].
Qed.

Lemma average_does G x xs ia X s : is_var G x X s -> (forall y, In y xs -> exists t, is_var G y X t) ->
  does G (Average X (x :: xs) ia) [same_color X s] [] [].
Proof.
  intros Hx Hxs. apply (does_pure G _ _ (fun env => @average f32 (F32 o) X (map (var env) (x :: xs)) ia) []); [reflexivity|]. intros h env GS.
  destruct (lookup G h env x X s GS Hx) as [p [c [V [A [W [S [B _]]]]]]].
  assert (Q : exists cs, points_to h (map (var env) xs) cs /\ Forall (wf X) cs).
  { clear Hx V A W S B. induction xs as [|y xs IH]; [exists []; split; constructor|].
    destruct IH as [cs [P F]]; [intros z Hz; apply Hxs; right; exact Hz|].
    destruct (Hxs y (or_introl eq_refl)) as [t Hy]. destruct (lookup G h env y X t GS Hy) as [p' [c' [V' [A' [W' _]]]]].
    exists (c' :: cs). split; constructor; auto. exists p'. auto. }
  destruct Q as [cs [P F]].
  destruct (average_ok (AF := F32 o) X ia h (var env x) (map (var env) xs) c cs (wf_real _ _ W)) as [q [r [h' [E [_ [Aq [Wr [Sr U]]]]]]]].
  { constructor; [exists p; auto|exact P]. } { constructor; assumption. }
  exists (Some q), h'. split; [exact E|]. split; [exact U|]. apply (result0 G h' X s q r); auto. congruence.
Qed.

Lemma checked_does G c x y X Y s us ud ub f : is_var G x X s -> is_var G y Y s -> convertible X = true -> (cie X || cie Y = true -> s <> None) ->
  (forall h env, exec o c (h, env) = new (@checked_blend f32 (F32 o) us ud ub f (var env x) (var env y)) (h, env)) ->
  does G c [if ctype_eq_dec X RGB_DEEP then None else same_color X s] [] [].
Proof.
  intros Hx Hy C N EX. apply (does_pure G c _ (fun env => @checked_blend f32 (F32 o) us ud ub f (var env x) (var env y)) [] EX). intros h env GS.
  destruct (lookup G h env x X s GS Hx) as [p1 [c1 [V1 [A1 [W1 [S1 [B1 HS1]]]]]]].
  destruct (lookup G h env y Y s GS Hy) as [p2 [c2 [V2 [A2 [W2 [S2 [B2 HS2]]]]]]].
  destruct (checked_total (AF := F32 o) us ud ub f h X Y p1 c1 p2 c2 A1 A2 W1 W2) as [q [r [h' [E [_ [Aq [_ [_ [_ [Wr [Sr U]]]]]]]]]]];
    [congruence|intros K; apply HS1, N, K|exact C|].
  exists (Some q), h'. rewrite V1, V2. split; [exact E|]. split; [exact U|].
  destruct (ctype_eq_dec X RGB_DEEP) as [D|D]; [apply result_none|]. apply (result0 G h' X s q r); auto. congruence.
Qed.

Lemma hcy_does G m x y us ud X s Y t : is_var G x X s -> is_var G y Y t -> convertible X = true -> (cie X = true -> s <> None) -> (cie Y = true -> t <> None) ->
  does G (BlendHcy m x y us ud) [same_color X s] [] [].
Proof.
  intros Hx Hy C Ns Nt. apply (does_pure G _ _ (fun env => @blend_hcy f32 (F32 o) m (var env x) (var env y) us ud) []); [reflexivity|]. intros h env GS.
  destruct (lookup G h env x X s GS Hx) as [p1 [c1 [V1 [A1 [W1 [S1 [B1 HS1]]]]]]].
  destruct (lookup G h env y Y t GS Hy) as [p2 [c2 [V2 [A2 [W2 [S2 [B2 HS2]]]]]]].
  destruct (hcy_total (AF := F32 o) m us ud h X Y p1 c1 p2 c2 A1 A2 W1 W2 (fun K => HS1 (Ns K)) (fun K => HS2 (Nt K)) C) as [q [r [h' [E [_ [Aq [Wr [Sr U]]]]]]]].
  exists (Some q), h'. rewrite V1, V2. split; [exact E|]. split; [exact U|]. apply (result0 G h' X s q r); auto. congruence.
Qed.

Lemma evolves_upd (P : nat -> Prop) h p c v X : at_addr h p c -> wf X c -> wf X v -> rgb_space v = rgb_space c -> P p ->
  evolves P h (Heap (upd p v (colors h)) (spaces h)).
Proof.
  intros A W Wv S Pp. apply (evolves_one P h _ p c v X A W (at_upd h p c v A) Wv S Pp).
  intros i d N Hi. unfold at_addr in *. cbn [colors]. rewrite upd_nth_other by congruence. exact Hi.
Qed.

Lemma adjust_does G a x pc X s : is_var G x X s -> convertible X = true -> (cie X = true -> s <> None) ->
  does G (AdjustNew a x pc) [same_color X s] [] (match X with HSL => if in_hsl a then [x] else [] | _ => [] end).
Proof.
  intros Hx C N h env GS. destruct (lookup G h env x X s GS Hx) as [p [c [V [A [W [S [B HS]]]]]]].
  assert (Q : exists q r h', @adjust f32 (F32 o) a (Some p) pc h = (Ok (Some q), h') /\ at_addr h' q r /\ wf X r /\ rgb_space r = rgb_space c /\ spaces h' = spaces h /\
    evolves (fun i => X = HSL /\ in_hsl a = true /\ i = p) h h').
  { destruct (in_hsl a) eqn:Ha.
    - destruct (@feq f32 (F32 o) pc (@fz f32 (F32 o) 0)) eqn:P.
      + destruct (adjust_is_hsl o a Ha) as [-> Hi]. exists p, c, h. split; [apply (adjust_hsl_zero (AF := F32 o)), P|].
        do 4 (split; [auto|]). apply evolves_refl.
      + destruct (ctype_eq_dec X HSL) as [->|D].
        * destruct (adjust_is_hsl o a Ha) as [-> Hi].
          destruct (adjust_hsl_self (AF := F32 o) (hsl_component a) h p c pc Hi P A W) as [z [v [_ [_ [Wv [Av [Sv E]]]]]]].
          exists p, v, (Heap (upd p v (colors h)) (spaces h)). split; [exact E|]. split; [apply (at_upd h p c v A)|]. do 3 (split; [auto|]).
          apply (evolves_upd _ h p c v HSL A W Wv Sv). auto.
        * destruct (adjust_total o a pc h X p c A W C (fun K => HS (N K))) as [q [r [h' [E [_ [Aq [_ [Sr [U Wr]]]]]]]]].
          { intros _. split; [exact D|]. intros K. rewrite (zero_eq o pc K) in P. discriminate P. }
          exists q, r, h'. do 4 (split; [assumption|]). split; [apply U|apply evolves_unchanged, U].
    - destruct (adjust_total o a pc h X p c A W C (fun K => HS (N K))) as [q [r [h' [E [_ [Aq [_ [Sr [U Wr]]]]]]]]]; [congruence|].
      exists q, r, h'. do 4 (split; [assumption|]). split; [apply U|apply evolves_unchanged, U]. }
  destruct Q as [q [r [h' [E [Aq [Wr [Sr [SS EV]]]]]]]].
  exists h', [Some q], []. split; [cbn [exec snd]; rewrite V; apply (news _ _ _ _ _ E)|]. split; [rewrite app_nil_r; exact SS|]. split; [constructor|].
  split; [|constructor; [|constructor]; apply (result_same G h' X s q r); auto; congruence].
  apply (evolves_weaken _ _ _ _) with (2 := EV). intros i [-> [-> ->]]. exists x. simpl. auto.
Qed.

(** Calls that change the object of one variable and return nothing. *)
Lemma does_set G c x X s (m : list ptr -> M f32 unit) : is_var G x X s ->
  (forall h env p, var env x = Some p -> exec o c (h, env) = effect (m env) (h, env)) ->
  (forall h env p d, var env x = Some p -> at_addr h p d -> wf X d -> (s <> None -> has_space h d) ->
     exists h' v, m env h = (Ok tt, h') /\ at_addr h' p v /\ wf X v /\ rgb_space v = rgb_space d /\ others_unchanged h h' p) ->
  does G c [] [] [x].
Proof.
  intros Hx EX H h env GS. destruct (lookup G h env x X s GS Hx) as [p [d [V [A [W [S [B HS]]]]]]].
  destruct (H h env p d V A W HS) as [h' [v [E [Av [Wv [Sv [SS O]]]]]]].
  exists h', [], []. split; [rewrite (EX h env p V); apply (effects _ _ _ _ _ E)|]. split; [rewrite app_nil_r; exact SS|]. split; [constructor|].
  split; [|constructor]. apply (evolves_one _ h h' p d v X A W Av Wv Sv); [|exact O]. exists x. simpl. auto.
Qed.
Lemma others_upd (h : heap) p v : others_unchanged h (Heap (upd p v (colors h)) (spaces h)) p.
Proof. split; [reflexivity|]. intros i c N H. unfold at_addr in *. cbn [colors]. rewrite upd_nth_other by congruence. exact H. Qed.

Lemma on_object_ok h p d (f : color -> M f32 color) v : at_addr h p d -> f d h = (Ok v, h) ->
  on_object (Some p) f h = (Ok tt, Heap (upd p v (colors h)) (spaces h)).
Proof. intros A E. unfold on_object, bind. rewrite (load_ok h p d A), E. apply (store_ok h p d v A). Qed.

Lemma adjust_ref_does G a x pc X s : is_var G x X s -> convertible X = true -> (cie X = true -> s <> None) -> does G (AdjustRef a x pc) [] [] [x].
Proof.
  intros Hx C N. apply (does_set G _ x X s (fun env => match var env x with Some p => @adjust_in_place f32 (F32 o) a p pc | None => lift Undef end) Hx).
  - intros h env p V. cbn [exec snd]. rewrite V. reflexivity.
  - intros h env p d V A W HS. rewrite V. destruct (in_place_wf o a pc h X p d A W C (fun K => HS (N K))) as [h' [r [E [Ar [Wr [Sr O]]]]]].
    exists h', r. auto 6.
Qed.
Lemma set_does G k x v i s : is_var G x k s -> (i < arity k)%nat -> does G (SetComponent k x v i) [] [] [x].
Proof.
  intros Hx Hi. apply (does_set G _ x k s (fun env => bind (load_as k (var env x)) (fun c => bind (lift (@named_set f32 (F32 o) k c v i)) (store (var env x)))) Hx); [reflexivity|].
  intros h env p d V A W HS. rewrite V. destruct (named_set_wf (AF := F32 o) k d v i W Hi) as [d' [E [Wd' [_ Sd']]]].
  exists (Heap (upd p d' (colors h)) (spaces h)), d'. split; [|split; [apply (at_upd h p d d' A)|split; [exact Wd'|split; [exact Sd'|apply others_upd]]]].
  unfold bind, lift. rewrite (load_as_ok (AF := F32 o) h p d k A W), E. apply (store_ok h p d d' A).
Qed.
Lemma alpha_does G x a X s : is_var G x X s -> does G (SetAlpha x a) [] [] [x].
Proof.
  intros Hx. apply (does_set G _ x X s (fun env => on_object (var env x) (fun c => ret (@alpha_set f32 (F32 o) c a))) Hx); [reflexivity|].
  intros h env p d V A W HS. rewrite V. exists (Heap (upd p (@alpha_set f32 (F32 o) d a) (colors h)) (spaces h)), (@alpha_set f32 (F32 o) d a).
  split; [apply (on_object_ok h p d _ _ A); reflexivity|]. split; [apply (at_upd h p d _ A)|]. split; [apply (wf_alpha_set (AF := F32 o)), W|].
  split; [unfold alpha_set; destruct (cls d); reflexivity|apply others_upd].
Qed.
Lemma index_does G x v i X s : is_var G x X s -> (0 <= i < Z.of_nat (arity X))%Z -> (own_first_limit X = false \/ i <> 0%Z) -> does G (SetIndex x v i) [] [] [x].
Proof.
  intros Hx Hi OF. apply (does_set G _ x X s (fun env => on_object (var env x) (fun c => lift (@set_component f32 (F32 o) c v i))) Hx); [reflexivity|].
  intros h env p d V A W HS. rewrite V.
  assert (Q : exists d', @set_component f32 (F32 o) d v i = Ok d').
  { unfold set_component, set_component_lim, bad_index. rewrite (wf_len _ _ W).
    destruct (i <? 0)%Z eqn:E1; [apply Z.ltb_lt in E1; lia|]. destruct (Z.of_nat (arity X) <=? i)%Z eqn:E2; [apply Z.leb_le in E2; lia|]. eexists. reflexivity. }
  destruct Q as [d' E]. pose proof (index_set_wf (AF := F32 o) X d v i d' W OF E) as Wd'.
  exists (Heap (upd p d' (colors h)) (spaces h)), d'. split; [apply (on_object_ok h p d _ _ A); unfold lift; rewrite E; reflexivity|].
  split; [apply (at_upd h p d d' A)|]. split; [exact Wd'|]. split; [|apply others_upd].
  unfold set_component in E. apply set_lim_spec in E. destruct E as [_ ->]. reflexivity.
Qed.
Lemma copy_does G k x s : is_var G x k s -> does G (Copy k x) [same_color k s] [] [].
Proof.
  intros Hx. apply (does_pure G _ _ (fun env => bind (load_as k (var env x)) (fun c => alloc (@copy_ctor f32 (F32 o) k c))) []); [reflexivity|]. intros h env GS.
  destruct (lookup G h env x k s GS Hx) as [p [c [V [A [W [S [B _]]]]]]]. rewrite V.
  exists (Some (length (colors h))), (Heap (colors h ++ [@copy_ctor f32 (F32 o) k c]) (spaces h)).
  split; [unfold bind; rewrite (load_as_ok (AF := F32 o) h p c k A W); reflexivity|]. split; [apply unchanged_new|].
  apply (result0 G _ k s (length (colors h)) (@copy_ctor f32 (F32 o) k c)); [apply at_new|apply (copy_wf (AF := F32 o)), W| |exact B].
  rewrite <- S. apply (copy_ctor_fields (AF := F32 o)).
Qed.
Lemma assign_does G k x y s t : is_var G x k s -> is_var G y k t -> does G (Assign k x y) [] [] [x].
Proof.
  intros Hx Hy h env GS. destruct (lookup G h env y k t GS Hy) as [p2 [c2 [V2 [A2 [W2 _]]]]].
  destruct (lookup G h env x k s GS Hx) as [p [c [V [A [W [S [B HS]]]]]]].
  pose proof (Core_Proofs.assign_wf (AF := F32 o) k c c2 W W2) as Wa.
  exists (Heap (upd p (assign c c2) (colors h)) (spaces h)), [], []. split.
  { cbn [exec snd]. apply (effects _ _ _ tt). rewrite V, V2. unfold bind. rewrite (load_as_ok (AF := F32 o) h p2 c2 k A2 W2), (load_as_ok (AF := F32 o) h p c k A W).
    apply (store_ok h p c _ A). }
  split; [symmetry; apply app_nil_r|]. split; [constructor|]. split; [|constructor].
  apply (evolves_upd _ h p c (assign c c2) k A W Wa eq_refl). exists x. simpl. auto.
Qed.
Lemma gamma_does G c x X s curve : is_var G x X s -> s <> None -> own_first_limit X = false ->
  (forall h env, exec o c (h, env) = effect (on_object (var env x) (@correct_with f32 (F32 o) curve)) (h, env)) -> does G c [] [] [x].
Proof.
  intros Hx N OF EX. apply (does_set G _ x X s (fun env => on_object (var env x) (@correct_with f32 (F32 o) curve)) Hx); [intros; apply EX|].
  intros h env p d V A W HS. rewrite V.
  assert (Q : exists v, @correct_with f32 (F32 o) curve d h = (Ok v, h)).
  { unfold correct_with. destruct (comps d); [eexists; reflexivity|]. destruct (HS N) as [i [sp [E1 [E2 [_ [E3 _]]]]]].
    unfold bind, load_gamma, bind, load_space. rewrite E1, E2. destruct (s_gamma sp); [|congruence]. eexists. reflexivity. }
  destruct Q as [v E]. destruct (correct_with_wf (AF := F32 o) X curve d v h h W OF E) as [Wv [_ [Sv _]]].
  exists (Heap (upd p v (colors h)) (spaces h)), v. split; [apply (on_object_ok h p d _ _ A E)|]. split; [apply (at_upd h p d v A)|].
  split; [exact Wv|]. split; [exact Sv|apply others_upd].
Qed.

(** Calls that return several colours and change nothing. *)
Lemma does_many G c x X s n (m : list ptr -> M f32 (list ptr)) : is_var G x X s ->
  (forall h env, exec o c (h, env) = several (m env) (h, env)) ->
  (forall h env p d, var env x = Some p -> at_addr h p d -> wf X d -> (s <> None -> has_space h d) ->
     exists qs h', m env h = (Ok (map Some qs), h') /\ unchanged h h' /\ length qs = n /\
       forall q, In q qs -> exists r, at_addr h' q r /\ wf X r /\ rgb_space r = rgb_space d) ->
  does G c (repeat (same_color X s) n) [] [].
Proof.
  intros Hx EX H h env GS. destruct (lookup G h env x X s GS Hx) as [p [d [V [A [W [S [B HS]]]]]]].
  destruct (H h env p d V A W HS) as [qs [h' [E [U [L K]]]]].
  exists h', (map Some qs), []. split; [rewrite EX; apply (manys _ _ _ _ _ E)|]. split; [rewrite app_nil_r; apply (proj1 U)|]. split; [constructor|].
  split; [apply evolves_unchanged, U|]. subst n. clear E H. induction qs as [|q qs IH]; simpl; constructor.
  - destruct (K q (or_introl eq_refl)) as [r [Ar [Wr Sr]]]. apply (result_same G h' X s q r); auto. congruence.
  - apply IH. intros z Hz. apply K. right. exact Hz.
Qed.

Lemma combination_does G x n X s : is_var G x X s -> convertible X = true -> (cie X = true -> s <> None) -> (2 <= n <= 360)%Z ->
  does G (Combination x n) (repeat (same_color X s) (Z.to_nat n)) [] [].
Proof.
  intros Hx C N Hn. apply (does_many G _ x X s _ (fun env => @create_combination f32 (F32 o) (var env x) n) Hx); [reflexivity|].
  intros h env p d V A W HS. rewrite V.
  destruct (combination_ok (AF := F32 o) X n h p d Hn A W C (fun K => HS (N K))) as [a [e [h1 [u [v [w [qs [h' [_ [_ [_ [_ [_ [E [L [U [_ K]]]]]]]]]]]]]]]]].
  exists (p :: qs), h'. split; [exact E|]. split; [exact U|]. split; [simpl; rewrite L; lia|].
  intros q [<-|Hq]; [exists d; split; [apply (proj2 U), A|auto]|]. apply In_nth_error in Hq. destruct Hq as [k Hk].
  destruct (K k q Hk) as [_ [r [v' [Ar [Wr [Sr _]]]]]]. exists r. auto.
Qed.
Lemma complimentary_does G x X s : is_var G x X s -> convertible X = true -> (cie X = true -> s <> None) -> does G (Complimentary x) [same_color X s] [] [].
Proof.
  intros Hx C N. change [same_color X s] with (repeat (same_color X s) 1).
  apply (does_many G _ x X s _ (fun env => bind (@create_complimentary f32 (F32 o) (var env x)) (fun p => ret [p])) Hx).
  { intros h env. cbn [exec snd]. unfold new, several, push, bind, ret. cbn [fst]. destruct (create_complimentary (var env x) h) as [[q|e| |] h']; reflexivity. }
  intros h env p d V A W HS. rewrite V.
  destruct (combination_ok (AF := F32 o) X 2 h p d ltac:(lia) A W C (fun K => HS (N K))) as [a [e [h1 [u [v [w [qs [h' [_ [_ [_ [_ [_ [E [L [U [_ K]]]]]]]]]]]]]]]]].
  destruct qs as [|q [|q' qs]]; [discriminate L| |discriminate L].
  exists [q], h'. split; [unfold create_complimentary, bind; rewrite E; reflexivity|]. split; [exact U|]. split; [reflexivity|].
  intros z [<-|[]]. destruct (K 0%nat q eq_refl) as [_ [r [v' [Ar [Wr [Sr _]]]]]]. exists r. auto.
Qed.
Lemma analogous_does G x dist X s : is_var G x X s -> convertible X = true -> (cie X = true -> s <> None) -> ~ is_value dist 0 -> ~ above 120 dist ->
  does G (Analogous x dist) (repeat (same_color X s) 3) [] [].
Proof.
  intros Hx C N D1 D2. apply (does_many G _ x X s _ (fun env => @create_analogous f32 (F32 o) (var env x) dist) Hx); [reflexivity|].
  intros h env p d V A W HS. rewrite V.
  destruct (analogous_ok (AF := F32 o) X dist h p d (nonzero_ne o dist D1) (not_above_third o dist D2) A W C (fun K => HS (N K)))
    as [a [e [h1 [u [v [w [q1 [q2 [h' [_ [_ [_ [_ [_ [E [U [_ K]]]]]]]]]]]]]]]]].
  exists [q1; p; q2], h'. split; [exact E|]. split; [exact U|]. split; [reflexivity|].
  destruct (K 0%nat q1 eq_refl) as [_ [r1 [v1 [A1 [W1 [S1 _]]]]]]. destruct (K 1%nat q2 eq_refl) as [_ [r2 [v2 [A2 [W2 [S2 _]]]]]].
  intros z [<-|[<-|[<-|[]]]]; [exists r1|exists d|exists r2]; auto. split; [apply (proj2 U), A|auto].
Qed.
Lemma split_does G x amount X s : is_var G x X s -> convertible X = true -> (cie X = true -> s <> None) -> ~ is_value amount 0 -> ~ above 120 amount ->
  does G (ComplimentarySplit x amount) (repeat (same_color X s) 3) [] [].
Proof.
  intros Hx C N D1 D2. apply (does_many G _ x X s _ (fun env => @create_complimentary_split f32 (F32 o) (var env x) amount) Hx); [reflexivity|].
  intros h env p d V A W HS. rewrite V.
  destruct (split_ok (AF := F32 o) X amount h p d (nonzero_ne o amount D1) (not_above_third o amount D2) A W C (fun K => HS (N K)))
    as [q1 [q2 [r1 [r2 [h' [E [U [_ [_ [_ [A1 [A2 [W1 [W2 [S1 S2]]]]]]]]]]]]]]].
  exists [q1; p; q2], h'. split; [exact E|]. split; [exact U|]. split; [reflexivity|].
  intros z [<-|[<-|[<-|[]]]]; [exists r1|exists d|exists r2]; auto. split; [apply (proj2 U), A|auto].
Qed.
Lemma mono_does G x md amount n X s : is_var G x X s -> convertible X = true -> (cie X = true -> s <> None) ->
  (0 <= md <= 2)%Z -> ~ outside_unit amount -> (1 <= n)%Z -> does G (Monochromatic x md amount n) (repeat (same_color X s) (Z.to_nat n)) [] [].
Proof.
  intros Hx C N Hm Ha Hn. apply (does_many G _ x X s _ (fun env => @create_monochromatic f32 (F32 o) (var env x) md amount n) Hx); [reflexivity|].
  intros h env p d V A W HS. rewrite V. destruct (weight_good o amount Ha) as [A1 A2].
  destruct (mono_ok (AF := F32 o) X md amount n h p d Hm Hn A1 A2 A W C (fun K => HS (N K))) as [qs [h' [E [L [U [_ [K _]]]]]]].
  exists (p :: qs), h'. split; [exact E|]. split; [exact U|]. split; [simpl; rewrite L; lia|].
  intros q [<-|Hq]; [exists d; split; [apply (proj2 U), A|auto]|]. apply In_nth_error in Hq. destruct Hq as [k Hk].
  destruct (K k q Hk) as [_ [r [Ar [Wr Sr]]]]. exists r. auto.
Qed.

Lemma distance_does G d x y X s Y t : is_var G x X s -> is_var G y Y t ->
  (needs_space X (compared_in d) = true -> s <> None) -> (needs_space Y (compared_in d) = true -> t <> None) ->
  match d with Cie00 _ _ _ _ _ => False | _ => True end ->
  does G (DistanceOf d x y) [] [] (if_deep X (compared_in d) x ++ if_deep Y (compared_in d) y).
Proof.
  intros Hx Hy Ns Nt Hd h env GS.
  destruct (lookup G h env x X s GS Hx) as [p1 [c1 [V1 [A1 [W1 [S1 [B1 HS1]]]]]]].
  destruct (lookup G h env y Y t GS Hy) as [p2 [c2 [V2 [A2 [W2 [S2 [B2 HS2]]]]]]].
  destruct (Nat.eq_dec p1 p2) as [<-|NP].
  { exists h, [], []. split; [cbn [exec snd]; rewrite V1, V2; apply (effects _ _ _ _ _ (distance_same (AF := F32 o) d (Some p1) h))|].
    split; [symmetry; apply app_nil_r|]. split; [constructor|]. split; [apply evolves_refl|constructor]. }
  destruct (distance_run (AF := F32 o) d X Y h p1 c1 p2 c2 NP A1 A2 W1 W2 (fun K => HS1 (Ns K)) (fun K => HS2 (Nt K)))
    as [h' [d1 [d2 [[a1 [h1 [a2 [E1 [E2 [Ad1 Ad2]]]]]] [Wd1 [Wd2 [E [SS _]]]]]]]].
  destruct (on_components_ok (AF := F32 o) d d1 d2 Hd Wd1 Wd2) as [v Ev].
  exists h', [], []. split; [cbn [exec snd]; rewrite V1, V2; apply (effects _ _ _ v)|].
  { rewrite E, Ev. reflexivity. }
  split; [rewrite app_nil_r; exact SS|]. split; [constructor|]. split; [|constructor].
  assert (UC : compared_in d <> UNDEFINED) by apply compared_real.
  destruct (to_evolves X (compared_in d) h p1 c1 UC A1 W1 (fun K => HS1 (Ns K))) as [b1 [r1 [k1 [F1 [_ [_ [_ [T1 EV1]]]]]]]].
  assert (k1 = h1) by congruence. subst k1.
  destruct (proj1 EV1 p2 c2 Y A2 W2) as [c2' [A2' [W2' S2']]].
  destruct (to_evolves Y (compared_in d) h1 p2 c2' UC A2' W2') as [b2 [r2 [k2 [F2 [_ [_ [_ [T2 EV2]]]]]]]].
  { intros K. destruct (HS2 (Nt K)) as [i [sp [Q1 [Q2 Q3]]]]. exists i, sp. rewrite S2', T1. auto. }
  assert (k2 = h') by congruence. subst k2.
  apply (evolves_trans _ h h1 h').
  - apply (evolves_weaken _ _ _ _) with (2 := EV1). intros i Hi. destruct (if_deep_in X (compared_in d) x env p1 V1 i Hi) as [z [Hz Vz]]. exists z. rewrite in_app_iff. auto.
  - apply (evolves_weaken _ _ _ _) with (2 := EV2). intros i Hi. destruct (if_deep_in Y (compared_in d) y env p2 V2 i Hi) as [z [Hz Vz]]. exists z. rewrite in_app_iff. auto.
Qed.

Lemma adapt_same_does G m x w X i b : is_var G x X (Some i) -> nth_error (whites G) i = Some b ->
  does G (AdaptTo m x b w) [same_color X (Some i)] [] [].
Proof.
  intros Hx Hw. apply (does_pure G _ _ (fun env => @adaptation f32 (F32 o) m (var env x) (Some (b, w))) []); [reflexivity|]. intros h env GS.
  destruct (lookup G h env x X (Some i) GS Hx) as [p [c [V [A [W [S [B _]]]]]]].
  destruct GS as [_ [_ [_ WH]]]. destruct (WH i b Hw) as [sp [w0 [Hs [U E0]]]]. cbn [fst] in Hs.
  exists (Some p), h. rewrite V. split; [|split; [apply unchanged_refl|apply (result0 G h X (Some i) p c); auto]].
  rewrite adaptation_eq. unfold adapt, bind at 1. unfold load. unfold at_addr in A. rewrite A. unfold bind at 1. unfold load_space. rewrite S, Hs, E0.
  cbn [white_ptr_eqb]. rewrite Nat.eqb_refl. reflexivity.
Qed.
Lemma adapt_does G m x b w X i a : is_var G x X (Some i) -> nth_error (whites G) i = Some a -> a <> b -> convertible X = true ->
  second_component m && grey X = false -> does G (AdaptTo m x b w) [same_color X (Some (length (whites G)))] [b] (if_deep X XYZ x).
Proof.
  intros Hx Hw N C SG h env GS. destruct (lookup G h env x X (Some i) GS Hx) as [p [c [V [A [W [S [B HS]]]]]]].
  destruct GS as [_ [_ [LW WH]]]. destruct (WH i a Hw) as [sp [w0 [Hs [U E0]]]]. cbn [fst] in *.
  assert (HW : has_white h c sp a w0) by (exists i; auto).
  destruct (adapt_run (AF := F32 o) m X h p c sp a w0 b w A W C HW N SG) as [q [r [s' [h' [E [Aq [Wr [Sr [_ [Rw [Sa [_ [_ [_ [t [h1 [Et K]]]]]]]]]]]]]]]]].
  destruct (to_evolves X XYZ h p c ltac:(discriminate) A W (fun _ => HS ltac:(discriminate))) as [t' [r' [k1 [F1 [_ [_ [_ [T1 EV1]]]]]]]].
  change (to_type XYZ) with (@to_xyz f32 (F32 o)) in F1. assert (k1 = h1) by congruence. subst k1.
  exists h', [Some q], [s']. split; [cbn [exec snd]; rewrite V; apply (news _ _ _ _ _ E)|]. split; [apply Sa|].
  split; [constructor; [|constructor]; destruct Rw as [R1 [_ [_ [_ [_ R2]]]]]; split; [exact R2|exists w; exact R1]|].
  split.
  - apply (evolves_weaken _ _ _ _ (if_deep_in X XYZ x env p V)). split.
    + intros j d Z Hj Wj. destruct (proj1 EV1 j d Z Hj Wj) as [d' [Hd' Q]]. exists d'. split; [apply K, Hd'|exact Q].
    + intros j d Hj NP. apply K, (proj2 EV1 j d Hj NP).
  - constructor; [|constructor]. intros X' s0 E'. unfold same_color in E'. assert (X' = X /\ s0 = Some (length (whites G))) as [-> ->] by (split; congruence).
    exists q, r. split; [reflexivity|]. split; [exact Aq|]. split; [exact Wr|]. split; [rewrite Sr, LW; reflexivity|].
    intros j Hj. assert (j = length (whites G)) by congruence. subst j. rewrite app_length. simpl. lia.
Qed.

Lemma space_does G rx ry gx gy bx by_ b w g : does G (NewSpace rx ry gx gy bx by_ b w g) [] [b] [].
Proof.
  intros h env GS. destruct (space_ctor_usable (AF := F32 o) rx ry gx gy bx by_ b w g) as [s [E [U [Ew _]]]].
  exists (Heap (colors h) (spaces h ++ [s])), [], [s]. split.
  { cbn [exec]. apply (effects _ _ _ (Some (length (spaces h)))). unfold bind, lift. rewrite E. reflexivity. }
  split; [reflexivity|]. split; [constructor; [|constructor]; split; [exact U|exists w; exact Ew]|]. split; [|constructor].
  split; [|auto]. intros i c X H W. exists c. auto.
Qed.
Lemma color_does G k l a s : In k all_types -> length l = arity k -> (forall i, s = Some i -> i < length (whites G))%nat ->
  does G (NewColor k l a s) [same_color k s] [] [].
Proof.
  intros Hk Hl Hs. apply (does_pure G _ _ (fun _ => bind (lift (@ctor_of f32 (F32 o) k l a s)) alloc) []); [reflexivity|]. intros h env GS.
  destruct (ctor_stores o k l a s Hk Hl) as [c [E [Ck [_ [Sc _]]]]].
  assert (W : wf k c). { rewrite <- Ck. apply reachable_wf. apply r_new. apply (ctor_constructed k l a s c E). }
  exists (Some (length (colors h))), (Heap (colors h ++ [c]) (spaces h)). split; [unfold bind, lift; rewrite E; reflexivity|].
  split; [apply unchanged_new|]. apply (result0 G _ k s (length (colors h)) c); auto. apply at_new.
Qed.

Lemma accepted_does G c ks ws ms : accepted G c ks ws ms -> does G c ks ws ms.
Proof.
  intros H. destruct H.
  - apply space_does.
  - apply color_does; assumption.
  - apply (set_does G k x v i s); assumption.
  - apply (alpha_does G x a X s); assumption.
  - apply (index_does G x v i X s); assumption.
  - apply copy_does; assumption.
  - apply (assign_does G k x y s t); assumption.
  - apply (gamma_does G _ x X s (@gamma_correction f32 (F32 o))); auto.
  - apply (gamma_does G _ x X s (@inverse_gamma_correction f32 (F32 o))); auto.
  - apply convert_does; assumption.
  - pose proof (convert_does G Y x X s H H0 H2) as D. intros h env GS. specialize (D h env GS).
    replace (exec o (ConvertTo x Y) (h, env)) with (exec o (Convert Y x) (h, env)); [exact D|].
    cbn [exec snd]. rewrite (convertTo_type (AF := F32 o) Y H1). reflexivity.
  - apply (add_does G x y w1 w2 ia X s Y t); assumption.
  - apply (mix_does G x y w ia X s Y t); assumption.
  - apply (minus_does G x y w ia X s Y t); assumption.
  - apply (typed_add_does G x y w1 w2 ia X s t); assumption.
  - apply (typed_mix_does G x y w ia X s t); assumption.
  - apply (typed_minus_does G x y w ia X s t); assumption.
  - apply average_does; assumption.
  - apply (checked_does G _ x y X Y s (op_s p) (op_d p) (op_b p) (op_f (AF := F32 o) p)); auto. intros h env. cbn [exec snd]. rewrite (composite_checked (AF := F32 o)). reflexivity.
  - apply (checked_does G _ x y X Y s us ud true (blend_function (AF := F32 o) m)); auto. intros h env. cbn [exec snd]. rewrite (blend_checked (AF := F32 o)). reflexivity.
  - apply (hcy_does G m x y us ud X s Y t); assumption.
  - apply adjust_does; assumption.
  - apply (adjust_ref_does G a x pc X s); assumption.
  - apply combination_does; assumption.
  - apply complimentary_does; assumption.
  - apply analogous_does; assumption.
  - apply mono_does; assumption.
  - apply split_does; assumption.
  - apply (distance_does G d x y X s Y t); assumption.
  - apply adapt_same_does; assumption.
  - apply (adapt_does G m x b w X i a); assumption.
Qed.

(** ** Programs *)
Lemma only_refl st : only_changed [] st st.
Proof. split; [exists []; symmetry; apply app_nil_r|]. split; [exists []; symmetry; apply app_nil_r|]. auto. Qed.

Lemma only_trans ms ms' st1 st2 st3 : only_changed ms st1 st2 -> only_changed ms' st2 st3 -> only_changed (ms ++ ms') st1 st3.
Proof.
  intros [[l1 E1] [[l2 S1] F1]] [[l3 E2] [[l4 S2] F2]]. split; [exists (l1 ++ l3); rewrite E2, E1, app_assoc; reflexivity|].
  split; [exists (l2 ++ l4); rewrite S2, S1, app_assoc; reflexivity|]. intros i c H N. apply F2.
  - apply F1; [exact H|]. intros x Hx V. apply (N x); [rewrite in_app_iff; auto|]. rewrite E2. unfold var in *.
    destruct (le_lt_dec (length (snd st2)) x) as [Q|Q]; [rewrite nth_overflow in V by exact Q; discriminate V|]. rewrite app_nth1 by exact Q. exact V.
  - intros x Hx. apply N. rewrite in_app_iff. auto.
Qed.

Lemma program_runs G l G' ms : accepts G l G' ms -> forall st, good_state o G st ->
  exists st', run o l st = Ok st' /\ good_state o G' st' /\ only_changed ms st st' /\
    (forall i X d, at_addr (fst st) i d -> wf X d -> exists d', at_addr (fst st') i d' /\ wf X d').
Proof.
  induction 1 as [G|G c l ks ws ms G' ms' A _ IH]; intros st GS.
  - exists st. split; [reflexivity|]. split; [exact GS|]. split; [apply only_refl|]. intros i X d Hi W. exists d. auto.
  - destruct (good_step G c ks ws ms st (accepted_does G c ks ws ms A) GS) as [st1 [E1 [GS1 [O1 K1]]]].
    destruct (IH st1 GS1) as [st2 [E2 [GS2 [O2 K2]]]]. exists st2. split; [cbn [run]; rewrite E1; exact E2|]. split; [exact GS2|].
    split; [apply (only_trans ms ms' st st1 st2 O1 O2)|]. intros i X d Hi W. destruct (K1 i X d Hi W) as [d1 [Hd1 W1]]. apply (K2 i X d1 Hd1 W1).
Qed.

Lemma empty_good : good_state o (Context [] []) (Heap [] [], []).
Proof.
  split; [reflexivity|]. split; [|split; [reflexivity|]].
  - intros x X s H. destruct x; discriminate H.
  - intros i a H. destruct i; discriminate H.
Qed.
End Client.

Lemma program_safe o G l G' ms st : accepts G l G' ms -> good_state o G st -> exists st', run o l st = Ok st' /\ good_state o G' st'.
Proof. intros A GS. destruct (program_runs o G l G' ms A st GS) as [st' [E [G1 _]]]. exists st'. auto. Qed.
Lemma program_safe_empty o l G' ms : accepts (Context [] []) l G' ms -> exists st', run o l (Heap [] [], []) = Ok st' /\ good_state o G' st'.
Proof. intros A. apply (program_safe o _ l G' ms _ A), empty_good. Qed.
Lemma program_types o l G' ms st : accepts (Context [] []) l G' ms -> run o l (Heap [] [], []) = Ok st ->
  forall x X s, is_var G' x X s -> exists p c, var (snd st) x = Some p /\ at_addr (fst st) p c /\ colour_of_type X c /\ rgb_space c = s.
Proof.
  intros A E x X s Hx. destruct (program_safe_empty o l G' ms A) as [st' [E' GS]]. assert (st = st') by congruence. subst st'.
  destruct st as [h env]. destruct (lookup o G' h env x X s GS Hx) as [p [c [V [Ac [W [S _]]]]]]. exists p, c. split; [exact V|]. split; [exact Ac|]. split; [apply (wf_colour o), W|exact S].
Qed.
Lemma program_frame o G l G' ms st st' : accepts G l G' ms -> good_state o G st -> run o l st = Ok st' -> only_changed ms st st'.
Proof. intros A GS E. destruct (program_runs o G l G' ms A st GS) as [st2 [E2 [_ [O _]]]]. assert (st' = st2) by congruence. subst. exact O. Qed.
Lemma program_pure o G l G' st st' : accepts G l G' [] -> good_state o G st -> run o l st = Ok st' ->
  (exists n, snd st' = snd st ++ n) /\ forall i c, at_addr (fst st) i c -> at_addr (fst st') i c.
Proof. intros A GS E. destruct (program_frame o G l G' [] st st' A GS E) as [O1 [_ O2]]. split; [exact O1|]. intros i c H. apply O2; [exact H|]. intros x []. Qed.
Lemma program_reachable o G l G' ms st st' : accepts G l G' ms -> good_state o G st -> run o l st = Ok st' ->
  forall i X c, at_addr (fst st) i c -> @wf_color f32 (F32 o) X c -> exists c', at_addr (fst st') i c' /\ @wf_color f32 (F32 o) X c'.
Proof. intros A GS E. destruct (program_runs o G l G' ms A st GS) as [st2 [E2 [_ [_ K]]]]. assert (st' = st2) by congruence. subst. exact K. Qed.

(** ** An example *)
Definition sample (o : oracle) : list call :=
  let n (z : Z) := @fz f32 (F32 o) z in
  [ NewSpace (n 1%Z) (n 0%Z) (n 0%Z) (n 1%Z) (n 0%Z) (n 0%Z) 0 (@wp_D65_2Degree f32 (F32 o)) (Gamma [] []);
    NewColor RGB_DEEP [n 1%Z; n 0%Z; n 0%Z] (n 1%Z) (Some 0%nat);
    NewColor HSL [n 120%Z; n 1%Z; n 1%Z] (n 1%Z) (Some 0%nat);
    Convert LAB 0;
    Mix 2 1 (n 1%Z) true;
    AdjustNew LuminateHSL 1 (n 1%Z);
    BlendMode Multiply 1 0 true true;
    Average HSL [1; 4; 5]%nat false;
    AdaptTo VonKries 2 1 (@wp_D50_2Degree f32 (F32 o));
    Combination 1 3;
    DistanceOf Cie76 2 3;
    SetAlpha 1 (n 0%Z) ].

Definition sample_context : context :=
  Context ([Some (RGB_DEEP, Some 0%nat); Some (HSL, Some 0%nat); Some (LAB, Some 0%nat); Some (LAB, Some 0%nat); Some (HSL, Some 0%nat); Some (HSL, Some 0%nat);
            Some (HSL, Some 0%nat); Some (LAB, Some 1%nat)] ++ repeat (Some (HSL, Some 0%nat)) 3) [0%nat; 1%nat].
Lemma accepts_step G c l ks ws ms G' ms' m : accepted G c ks ws ms -> accepts (extend G ks ws) l G' ms' -> m = ms ++ ms' -> accepts G (c :: l) G' m.
Proof. intros A B ->. apply (accepts_cons G c l ks ws ms G' ms' A B). Qed.
Lemma sample_accepted o : accepts (Context [] []) (sample o) sample_context [0%nat; 1%nat; 1%nat].
Proof.
  assert (PU : positive_unit (@fz f32 (F32 o) 1)).
  { destruct (fz_val o 1) as [F1 V1]; [sm|]. split; [exact F1|]. change (B2R (@fz f32 (F32 o) 1)) with (fval (@fz f32 (F32 o) 1)). rewrite V1. lra. }
  unfold sample. set (n z := @fz f32 (F32 o) z) in *.
  eapply accepts_step; [apply a_space|cbn [extend vars whites app if_deep cie in_hsl]|].
  eapply accepts_step; [apply a_color; [simpl; tauto|reflexivity|intros i E; injection E as <-; simpl; lia]|cbn [extend vars whites app if_deep cie in_hsl]|].
  eapply accepts_step; [apply a_color; [simpl; tauto|reflexivity|intros i E; injection E as <-; simpl; lia]|cbn [extend vars whites app if_deep cie in_hsl]|].
  eapply accepts_step; [apply (a_convert _ LAB 0 RGB_DEEP (Some 0%nat)); [reflexivity|simpl; tauto|discriminate]|cbn [extend vars whites app if_deep cie in_hsl]|].
  eapply accepts_step; [apply (a_mix _ 2 1 (n 1%Z) true LAB (Some 0%nat) HSL (Some 0%nat)); [reflexivity|reflexivity|simpl; tauto|discriminate|discriminate|exact PU]|cbn [extend vars whites app if_deep cie in_hsl]|].
  eapply accepts_step; [apply (a_adjust _ LuminateHSL 1 (n 1%Z) HSL (Some 0%nat)); [reflexivity|reflexivity|discriminate]|cbn [extend vars whites app if_deep cie in_hsl]|].
  eapply accepts_step; [apply (a_blend _ Multiply 1 0 true true HSL RGB_DEEP (Some 0%nat)); [reflexivity|reflexivity|reflexivity|discriminate]|cbn [extend vars whites app if_deep cie in_hsl]|].
  eapply accepts_step; [apply (a_average _ 1 [4; 5]%nat false HSL (Some 0%nat)); [reflexivity|]|cbn [extend vars whites app if_deep cie in_hsl]|].
  { intros y [<-|[<-|[]]]; exists (Some 0%nat); reflexivity. }
  eapply accepts_step; [apply (a_adapt _ VonKries 2 1 _ LAB 0 0); [reflexivity|reflexivity|discriminate|reflexivity|reflexivity]|cbn [extend vars whites app length if_deep cie]|].
  eapply accepts_step; [apply (a_combination _ 1 3 HSL (Some 0%nat)); [reflexivity|reflexivity|discriminate|lia]|cbn [extend vars whites app if_deep cie in_hsl]|].
  eapply accepts_step; [apply (a_distance _ Cie76 2 3 LAB (Some 0%nat) LAB (Some 0%nat)); [reflexivity|reflexivity|discriminate|discriminate|exact I]|cbn [extend vars whites app if_deep cie in_hsl]|].
  eapply accepts_step; [apply (a_alpha _ 1 (n 0%Z) HSL (Some 0%nat)); reflexivity|cbn [extend vars whites app if_deep cie in_hsl]|].
  match goal with |- accepts ?G [] ?G' _ => replace G with G' by reflexivity end. apply accepts_nil.
  all: reflexivity.
Qed.
