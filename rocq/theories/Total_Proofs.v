(** * Matrix operations on n x n matrices return n x n matrices in any arithmetic; RGB
    space definitions are always usable for conversions *)
From Coq Require Import ZArith QArith List Bool Lia.
From Verif Require Import Arith Outcome ColorModel GammaModel MatrixModel SpaceModel Heap Spec Spec_Matrix Spec_Conv.
Import ListNotations.

Section Total.
Context {F : Type} {AF : Arith F}.

Definition ok {A} (m : outcome A) : Prop := exists a, m = Ok a.

Lemma ok_bind {A B} (m : outcome A) (f : A -> outcome B) : ok m -> (forall a, m = Ok a -> ok (f a)) -> ok (obind m f).
Proof. intros [a E] H. rewrite E. apply H, E. Qed.

Lemma build_total {X} (P : X -> Prop) n (f : nat -> outcome X) : forall s,
  (forall i, (s <= i < s + n)%nat -> exists x, f i = Ok x /\ P x) ->
  exists l, build_from s n f = Ok l /\ length l = n /\ (forall x, In x l -> P x).
Proof.
  induction n as [|n IH]; intros s H; cbn [build_from].
  - exists []. split; [reflexivity|]. split; [reflexivity|]. intros x [].
  - destruct (H s) as [x [E Px]]; [lia|]. rewrite E. cbn [obind].
    destruct (IH (S s)) as [l [El [Ll Pl]]]; [intros i Hi; apply H; lia|]. rewrite El. cbn [obind].
    exists (x :: l). split; [reflexivity|]. split; [simpl; lia|]. intros y [->|Hy]; auto.
Qed.

Lemma mbuild_total r c (f : nat -> nat -> outcome F) :
  (forall i j, (i < r)%nat -> (j < c)%nat -> ok (f i j)) -> exists m, mbuild r c f = Ok m /\ rect r c m.
Proof.
  intros H. unfold mbuild, build.
  destruct (build_total (fun row : list F => length row = c) r (fun i => build_from 0 c (fun j => f i j)) 0) as [l [E [L P]]].
  { intros i Hi. destruct (build_total (fun _ => True) c (fun j => f i j) 0) as [row [Er [Lr _]]].
    { intros j Hj. destruct (H i j) as [x Ex]; [lia|lia|]. exists x. auto. }
    exists row. auto. }
  rewrite E. cbn [obind]. eexists. split; [reflexivity|]. unfold rect. cbn. auto.
Qed.

Lemma sum_total n (f : nat -> outcome F) : forall acc s, (forall i, (s <= i < s + n)%nat -> ok (f i)) -> ok (sum_from acc s n f).
Proof.
  induction n as [|n IH]; intros acc s H; cbn [sum_from].
  - exists acc. reflexivity.
  - destruct (H s) as [x E]; [lia|]. rewrite E. cbn [obind]. apply IH. intros i Hi. apply H. lia.
Qed.

Lemma all_total n f : forall s, (forall i, (s <= i < s + n)%nat -> ok (f i)) -> ok (all_from s n f).
Proof.
  induction n as [|n IH]; intros s H; cbn [all_from].
  - eexists; reflexivity.
  - destruct (H s) as [x E]; [lia|]. rewrite E. cbn [obind]. destruct x; [apply IH; intros i Hi; apply H; lia|eexists; reflexivity].
Qed.
Lemma any_total n f : forall s, (forall i, (s <= i < s + n)%nat -> ok (f i)) -> ok (any_from s n f).
Proof.
  induction n as [|n IH]; intros s H; cbn [any_from].
  - eexists; reflexivity.
  - destruct (H s) as [x E]; [lia|]. rewrite E. cbn [obind]. destruct x; [eexists; reflexivity|apply IH; intros i Hi; apply H; lia].
Qed.

(** An [r] x [c] vector of vectors. *)
Definition shape r c (v : list (list F)) : Prop := length v = r /\ forall row, In row v -> length row = c.
Lemma el_total r c v i j : shape r c v -> (i < r)%nat -> (j < c)%nat -> ok (el v i j).
Proof.
  intros [L R] Hi Hj. unfold el. destruct (nth_error v i) as [row|] eqn:E.
  - apply nth_error_In in E. apply R in E. destruct (nth_error row j) as [x|] eqn:Ej; [eexists; reflexivity|].
    apply nth_error_None in Ej. lia.
  - apply nth_error_None in E. lia.
Qed.
Lemma rect_shape r c (m : matrix F) : rect r c m -> shape r c (m_values m).
Proof. intros [_ [_ H]]. exact H. Qed.

Lemma at_total r c (m : matrix F) i j : rect r c m -> (i < r)%nat -> (j < c)%nat -> ok (at_ m i j).
Proof.
  intros H Hi Hj. pose proof (rect_shape _ _ _ H) as S. destruct H as [R [C _]]. unfold at_. rewrite R, C.
  destruct (Nat.leb_spec r i); [lia|]. destruct (Nat.leb_spec c j); [lia|]. apply (el_total r c); auto.
Qed.

Lemma ok_ok {A} (a : A) : ok (Ok a).
Proof. eexists; reflexivity. Qed.

Lemma mmul_total n (a b : matrix F) : rect n n a -> rect n n b -> exists m, mmul a b = Ok m /\ rect n n m.
Proof.
  intros A B. unfold mmul. pose proof (rect_shape _ _ _ A) as S. pose proof B as [R [C _]]. rewrite R, C.
  apply mbuild_total. intros i j Hi Hj. apply sum_total. intros k Hk.
  apply ok_bind; [apply (el_total n n); auto; lia|]. intros x _. apply ok_bind; [apply (at_total n n); auto; lia|].
  intros y _. apply ok_ok.
Qed.

Lemma cofactor_total n v r c : shape (S n) (S n) v -> (r < S n)%nat -> (c < S n)%nat ->
  exists l, get_cofactor v r c (S n) = Ok l /\ shape n n l.
Proof.
  intros S Hr Hc. unfold get_cofactor, build. replace (Datatypes.S n - 1)%nat with n by lia.
  destruct (build_total (fun row : list F => length row = n) n
    (fun i => build_from 0 n (fun j => el v (skip r i) (skip c j))) 0) as [l [E [L P]]].
  { intros i Hi. destruct (build_total (fun _ => True) n (fun j => el v (skip r i) (skip c j)) 0) as [row [Er [Lr _]]].
    { intros j Hj. destruct (el_total _ _ v (skip r i) (skip c j) S) as [x Ex].
      - unfold skip. destruct (Nat.ltb_spec i r); lia.
      - unfold skip. destruct (Nat.ltb_spec j c); lia.
      - exists x. auto. }
    exists row. auto. }
  exists l. split; [exact E|]. split; auto.
Qed.

Lemma det_total n : forall v, shape n n v -> ok (calculate_determinante n v).
Proof.
  induction n as [|n IH]; intros v S; [apply ok_ok|].
  destruct n as [|n]; [apply (el_total 1 1); auto|].
  change (ok (sum_to (Datatypes.S (Datatypes.S n)) (fun i =>
        let! cf := get_cofactor v 0 i (Datatypes.S (Datatypes.S n)) in
        let! x := el v 0 i in
        let! d := calculate_determinante (Datatypes.S n) cf in
        Ok (fmul (fmul (fofZ (sign_of i)) x) d)))).
  apply sum_total. intros i Hi. destruct (cofactor_total _ v 0 i S) as [cf [E Sc]]; [lia|lia|]. rewrite E. cbn [obind].
  apply ok_bind; [apply (el_total _ _ v _ _ S); lia|]. intros x _. apply ok_bind; [apply IH, Sc|]. intros d _. apply ok_ok.
Qed.

Lemma determinante_total n (m : matrix F) : (0 < n)%nat -> rect n n m -> ok (determinante m).
Proof.
  intros Pn R. pose proof (rect_shape _ _ _ R) as S. destruct R as [Rr [Rc _]].
  unfold determinante. rewrite Rr, Rc, Nat.eqb_refl. cbn [negb].
  destruct (Nat.eqb_spec n 1) as [->|N1]; [apply (el_total 1 1); auto|].
  apply ok_bind.
  { apply any_total. intros i Hi. unfold is_row_null. rewrite Rr, Rc. destruct (Nat.leb_spec n i); [apply ok_ok|].
    apply all_total. intros j Hj. apply ok_bind; [apply (el_total n n); auto; lia|]. intros; apply ok_ok. }
  intros b _. destruct b; [apply ok_ok|]. apply ok_bind.
  { apply any_total. intros i Hi. unfold is_column_null. rewrite Rr, Rc. destruct (Nat.leb_spec n i); [apply ok_ok|].
    apply all_total. intros j Hj. apply ok_bind; [apply (el_total n n); auto; lia|]. intros; apply ok_ok. }
  intros b _. destruct b; [apply ok_ok|]. apply ok_bind.
  { apply any_total. intros i Hi. apply any_total. intros k Hk. unfold are_rows_equal. rewrite Rr, Rc.
    destruct (Nat.leb_spec n i); [apply ok_ok|]. destruct (Nat.leb_spec n k); [apply ok_ok|]. cbn [orb].
    apply all_total. intros j Hj. apply ok_bind; [apply (el_total n n); auto; lia|]. intros.
    apply ok_bind; [apply (el_total n n); auto; lia|]. intros; apply ok_ok. }
  intros b _. destruct b; [apply ok_ok|]. apply ok_bind.
  { apply any_total. intros i Hi. apply any_total. intros k Hk. unfold are_columns_equal. rewrite Rr, Rc.
    destruct (Nat.leb_spec n i); [apply ok_ok|]. destruct (Nat.leb_spec n k); [apply ok_ok|]. cbn [orb].
    apply all_total. intros j Hj. apply ok_bind; [apply (el_total n n); auto; lia|]. intros.
    apply ok_bind; [apply (el_total n n); auto; lia|]. intros; apply ok_ok. }
  intros b _. destruct b; [apply ok_ok|]. apply det_total, S.
Qed.

Lemma adjoint_total n (m : matrix F) : (0 < n)%nat -> rect n n m -> exists a, adjoint m = Ok a /\ rect n n a.
Proof.
  intros Pn R. pose proof (rect_shape _ _ _ R) as S. destruct R as [Rr [Rc _]].
  unfold adjoint. rewrite Rr, Rc, Nat.eqb_refl. cbn [negb].
  destruct (Nat.eqb_spec n 1) as [->|N1]; [apply mbuild_total; intros; apply ok_ok|].
  apply mbuild_total. intros j i Hj Hi. destruct n as [|n]; [lia|].
  destruct (cofactor_total _ _ i j S) as [cf [E Sc]]; [lia|lia|]. rewrite E. cbn [obind].
  replace (Datatypes.S n - 1)%nat with n by lia.
  apply ok_bind; [apply det_total, Sc|]. intros; apply ok_ok.
Qed.

Lemma invert_total n (m : matrix F) : (0 < n)%nat -> rect n n m -> exists i, invert m = Ok i /\ rect n n i.
Proof.
  intros Pn R. unfold invert. destruct (determinante_total n m Pn R) as [d Ed]. rewrite Ed. cbn [obind].
  destruct (feq d (fz 0)); [exists m; auto|].
  destruct (adjoint_total n m Pn R) as [a [Ea Ra]]. rewrite Ea. cbn [obind].
  destruct R as [Rr [Rc _]]. rewrite Rr. apply mbuild_total. intros i j Hi Hj.
  apply ok_bind; [apply (at_total n n); auto|]. intros; apply ok_ok.
Qed.

Lemma mulvec3_total (m : matrix F) x y z : rect 3 3 m -> exists a b c, mulvec m [x; y; z] = Ok [a; b; c].
Proof.
  intros [R [C [L Row]]]. destruct m as [nr nc vs]. cbn [m_rows m_cols m_values] in *. subst nr nc.
  destruct vs as [|r1 [|r2 [|r3 [|]]]]; try discriminate L.
  assert (D : forall row, In row [r1; r2; r3] -> exists a b c, row = [a; b; c]).
  { intros row H. specialize (Row row H). destruct row as [|a [|b [|c [|]]]]; try discriminate Row. eauto. }
  destruct (D r1) as [a1 [b1 [c1 ->]]]; [simpl; auto|].
  destruct (D r2) as [a2 [b2 [c2 ->]]]; [simpl; auto|].
  destruct (D r3) as [a3 [b3 [c3 ->]]]; [simpl; auto|].
  eexists _, _, _. reflexivity.
Qed.

Lemma sq3_total (a b c d e f g h i : F) : exists m, matrix_sq 3 [a; b; c; d; e; f; g; h; i] = Ok m /\ rect 3 3 m.
Proof.
  eexists. split; [reflexivity|]. unfold rect. cbn. do 3 (split; [reflexivity|]).
  intros row [<-|[<-|[<-|[]]]]; reflexivity.
Qed.

Lemma transformation_total r g b w : exists m, calculate_transformation_matrix r g b (tristimulus w) = Ok m /\ rect 3 3 m.
Proof.
  destruct r as [[r0 r1] r2], g as [[g0 g1] g2], b as [[b0 b1] b2]. unfold calculate_transformation_matrix.
  destruct (sq3_total r0 g0 b0 r1 g1 b1 r2 g2 b2) as [cc [E1 R1]]. rewrite E1. cbn [obind].
  destruct (invert_total 3 cc) as [ci [E2 R2]]; [lia|exact R1|]. rewrite E2. cbn [obind]. unfold tristimulus.
  destruct (mulvec3_total ci (tx w) (ty_ w) (tz w) R2) as [t0 [t1 [t2 E3]]]. rewrite E3. cbn [obind].
  destruct (sq3_total t0 (fz 0) (fz 0) (fz 0) t1 (fz 0) (fz 0) (fz 0) t2) as [tm [E4 R4]]. rewrite E4. cbn [obind].
  apply mmul_total; auto.
Qed.

Lemma space_ctor_usable rx ry gx gy bx by_ a (w : white_point F) (g : gamma F) :
  exists s, space_ctor rx ry gx gy bx by_ (Some (a, w)) (Some g) = Ok s /\ usable_space s /\ s_white s = Some (a, w) /\ s_gamma s = Some g.
Proof.
  unfold space_ctor. destruct (transformation_total (primary rx ry) (primary gx gy) (primary bx by_) w) as [m [E R]].
  rewrite E. cbn [obind]. destruct (invert_total 3 m) as [i [E2 R2]]; [lia|exact R|]. rewrite E2. cbn [obind].
  eexists. split; [reflexivity|]. split; [|auto]. unfold usable_space. cbn.
  split; [discriminate|]. split; [discriminate|]. auto.
Qed.

Lemma set_white_usable (s : space_def F) a (w : white_point F) : s_gamma s <> None ->
  exists s', set_white_point s (Some (a, w)) = Ok s' /\ usable_space s' /\ s_white s' = Some (a, w) /\ s_gamma s' = s_gamma s.
Proof.
  intros G. unfold set_white_point. destruct (transformation_total (s_red s) (s_green s) (s_blue s) w) as [m [E R]].
  rewrite E. cbn [obind]. destruct (invert_total 3 m) as [i [E2 R2]]; [lia|exact R|]. rewrite E2. cbn [obind].
  eexists. split; [reflexivity|]. split; [|auto]. unfold usable_space. cbn.
  split; [discriminate|]. auto.
Qed.

Lemma presets_usable addr o : In o (space_presets (F := F) addr) -> exists s, o = Ok s /\ usable_space s.
Proof.
  unfold space_presets. intros H. cbn [In] in H.
  repeat (destruct H as [<-|H]; [match goal with |- exists s, ?p addr = _ /\ _ => unfold p | _ => idtac end; 
    unfold space_sRGB, space_adobeRGB, space_pal_secam, space_americaNTSC, space_oldNTSC, space_appleRGB, space_dci_p3, space_uhdtv,
      space_adobeWideGammutRGB, space_rommRGB, space_bestRGB, space_betaRGB, space_bruceRGB, space_colorMatchRGB, space_donRGB4,
      space_ektaSpacePS5, space_ProPhotoRGB, space_SMPTE_C_RGB, space_cieRGB, space_cieXYZ;
    match goal with |- exists s, space_ctor ?a ?b ?c ?d ?e ?f (Some (?p, ?w)) (Some ?g) = _ /\ _ =>
      destruct (space_ctor_usable a b c d e f p w g) as [s [E [U _]]]; exists s; split; [exact E|exact U] end|]).
  destruct H.
Qed.

End Total.
