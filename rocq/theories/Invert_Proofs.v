(** * determinante(), adjoint(), invert() for matrices of any size (C22), shapes (C23) *)
From Coq Require Import ZArith QArith Qreals Reals Lra Lia List Bool.
From Verif Require Import Arith Outcome ColorModel MatrixModel RArith Laws Spec_Matrix Matrix_Proofs Det_Proofs.
Import ListNotations.
Local Open Scope R_scope.

Definition reads (n : nat) (vals : list (list R)) (f : nat -> nat -> R) : Prop :=
  forall i j, (i < n)%nat -> (j < n)%nat -> el vals i j = Ok (f i j).
Lemma reads_mk n f : reads n (m_values (mk n n f)) f.
Proof. intros i j Hi Hj. rewrite (el_ok n n) by (auto; apply rect_mk). now rewrite entry_mk. Qed.
Lemma sign_alt k : fofZ (Arith := RArith) (sign_of k) = alt k.
Proof.
  unfold sign_of. cbn [fofZ RArith].
  assert (H : forall k, (if Nat.even k then 1 else -1) = alt k /\ (if Nat.even (S k) then 1 else -1) = alt (S k)).
  { clear k. induction k as [|k [IH1 IH2]]; [split; cbn; ring|]. split; [exact IH2|]. 
    change (Nat.even (S (S k))) with (Nat.even k). rewrite IH1. cbn [alt]. ring. }
  destruct (H k) as [<- _]. now destruct (Nat.even k).
Qed.
Lemma cofactor_ok n vals f r c : reads (S n) vals f ->
  get_cofactor vals r c (S n) = Ok (m_values (mk n n (minor r c f))).
Proof.
  intros H. unfold get_cofactor. replace (S n - 1)%nat with n by lia.
  rewrite (build_ok n _ (fun i => map (minor r c f i) (seq 0 n))); [reflexivity|].
  intros i Hi. apply build_ok. intros j Hj. apply H; apply lo_lt; auto.
Qed.
Lemma calc_det n : forall vals f, reads (S n) vals f -> calculate_determinante (S n) vals = Ok (det (S n) f).
Proof.
  induction n as [|n IH]; intros vals f H.
  - cbn [calculate_determinante]. rewrite H by lia. f_equal. cbn. ring.
  - change (calculate_determinante (S (S n)) vals) with
      (sum_to (S (S n)) (fun i => let! cf := get_cofactor vals 0 i (S (S n)) in
        let! x := el vals 0 i in let! d := calculate_determinante (S n) cf in
        Ok (fmul (fmul (fofZ (sign_of i)) x) d))).
    rewrite (sum_to_ok _ _ (fun j => alt j * f O j * det (S n) (minor O j f))); [reflexivity|].
    intros i Hi. rewrite (cofactor_ok (S n) _ f) by auto. cbn [obind]. rewrite H by lia. cbn [obind].
    rewrite (IH _ (minor 0 i f)) by apply reads_mk. cbn [obind]. rewrite sign_alt. reflexivity.
Qed.

(** ** The shortcuts *)
Lemma all_from_ok n : forall s f g, (forall i, (s <= i < s + n)%nat -> f i = Ok (g i)) ->
  exists b, all_from s n f = Ok b /\ (b = true -> forall i, (s <= i < s + n)%nat -> g i = true).
Proof.
  induction n as [|n IH]; intros s f g H; cbn [all_from].
  - exists true. split; [reflexivity|]. intros; lia.
  - rewrite H by lia. cbn [obind]. destruct (g s) eqn:E.
    + destruct (IH (S s) f g) as [b [Eb P]]; [intros; apply H; lia|]. exists b. split; [exact Eb|].
      intros B i Hi. destruct (Nat.eq_dec i s) as [->|N]; [exact E|apply P; auto; lia].
    + exists false. split; [reflexivity|discriminate].
Qed.
Lemma any_from_ok n : forall s f (P : nat -> Prop),
  (forall i, (s <= i < s + n)%nat -> exists b, f i = Ok b /\ (b = true -> P i)) ->
  exists b, any_from s n f = Ok b /\ (b = true -> exists i, (s <= i < s + n)%nat /\ P i).
Proof.
  induction n as [|n IH]; intros s f P H; cbn [any_from].
  - exists false. split; [reflexivity|discriminate].
  - destruct (H s) as [b [E Q]]; [lia|]. rewrite E. cbn [obind]. destruct b.
    + exists true. split; [reflexivity|]. intros _. exists s. split; [lia|auto].
    + destruct (IH (S s) f P) as [b [Eb X]]; [intros; apply H; lia|]. exists b. split; [exact Eb|].
      intros B. destruct (X B) as [i [Hi Pi]]. exists i. split; [lia|exact Pi].
Qed.
Lemma Reqb_true x y : Reqb x y = true -> x = y.
Proof. unfold Reqb. destruct (Req_EM_T x y); [auto|discriminate]. Qed.

Section Det.
Variables (n : nat) (m : matrix R).
Hypothesis W : rect n n m.
Local Notation f := (entry m).
Lemma row_null_ok r : (r < n)%nat -> exists b, is_row_null m r = Ok b /\ (b = true -> det n f = 0).
Proof using W.
  intros R. unfold is_row_null. rectR W. destruct (Nat.leb_spec n r); [lia|].
  destruct (all_from_ok n 0 (fun i => let! x := el (m_values m) r i in Ok (feq x (fz 0))) (fun i => Reqb (f r i) 0)) as [b [E P]].
  { intros i Hi. rewrite (el_ok n n) by (auto; lia). cbn [obind]. rewrite fzR. reflexivity. }
  exists b. split; [exact E|]. intros B. apply (det_zero_row n r); auto. intros j Hj. apply Reqb_true, P; auto; lia.
Qed.
Lemma column_null_ok c : (c < n)%nat -> exists b, is_column_null m c = Ok b /\ (b = true -> det n f = 0).
Proof using W.
  intros C. unfold is_column_null. rectR W. destruct (Nat.leb_spec n c); [lia|].
  destruct (all_from_ok n 0 (fun i => let! x := el (m_values m) i c in Ok (feq x (fz 0))) (fun i => Reqb (f i c) 0)) as [b [E P]].
  { intros i Hi. rewrite (el_ok n n) by (auto; lia). cbn [obind]. rewrite fzR. reflexivity. }
  exists b. split; [exact E|]. intros B. apply (det_zero_col n c); auto. intros j Hj. apply Reqb_true, P; auto; lia.
Qed.
Lemma rows_equal_ok p q : (p < n)%nat -> (q < n)%nat -> p <> q -> exists b, are_rows_equal m p q = Ok b /\ (b = true -> det n f = 0).
Proof using W.
  intros P Q N. unfold are_rows_equal. rectR W. destruct (Nat.leb_spec n p); [lia|]. destruct (Nat.leb_spec n q); [lia|]. cbn [orb].
  destruct (all_from_ok n 0 (fun i => let! x := el (m_values m) p i in let! y := el (m_values m) q i in Ok (feq x y))
     (fun i => Reqb (f p i) (f q i))) as [b [E X]].
  { intros i Hi. rewrite !(el_ok n n) by (auto; lia). reflexivity. }
  exists b. split; [exact E|]. intros B. apply (det_rows n p q); auto. intros j Hj. apply Reqb_true, X; auto; lia.
Qed.
Lemma columns_equal_ok p q : (p < n)%nat -> (q < n)%nat -> p <> q -> exists b, are_columns_equal m p q = Ok b /\ (b = true -> det n f = 0).
Proof using W.
  intros P Q N. unfold are_columns_equal. rectR W. destruct (Nat.leb_spec n p); [lia|]. destruct (Nat.leb_spec n q); [lia|]. cbn [orb].
  destruct (all_from_ok n 0 (fun i => let! x := el (m_values m) i p in let! y := el (m_values m) i q in Ok (feq x y))
     (fun i => Reqb (f i p) (f i q))) as [b [E X]].
  { intros i Hi. rewrite !(el_ok n n) by (auto; lia). reflexivity. }
  exists b. split; [exact E|]. intros B. apply (det_cols n p q); auto. intros j Hj. apply Reqb_true, X; auto; lia.
Qed.
Lemma pairs_ok (t : nat -> nat -> outcome bool) :
  (forall p q, (p < n)%nat -> (q < n)%nat -> p <> q -> exists b, t p q = Ok b /\ (b = true -> det n f = 0)) ->
  exists b, any_from 0 n (fun i => any_from (S i) (n - S i) (t i)) = Ok b /\ (b = true -> det n f = 0).
Proof using.
  intros H. destruct (any_from_ok n 0 (fun i => any_from (S i) (n - S i) (t i)) (fun _ => det n f = 0)) as [b [E P]].
  { intros i Hi. destruct (any_from_ok (n - S i) (S i) (t i) (fun _ => det n f = 0)) as [b [E P]].
    - intros j Hj. apply H; lia.
    - exists b. split; [exact E|]. intros B. destruct (P B) as [_ [_ X]]. exact X. }
  exists b. split; [exact E|]. intros B. destruct (P B) as [_ [_ X]]. exact X.
Qed.
Lemma single_ok (t : nat -> outcome bool) :
  (forall p, (p < n)%nat -> exists b, t p = Ok b /\ (b = true -> det n f = 0)) ->
  exists b, any_from 0 n t = Ok b /\ (b = true -> det n f = 0).
Proof using.
  intros H. destruct (any_from_ok n 0 t (fun _ => det n f = 0)) as [b [E P]]; [intros; apply H; lia|].
  exists b. split; [exact E|]. intros B. destruct (P B) as [_ [_ X]]. exact X.
Qed.
Hypothesis N1 : (1 <= n)%nat.
Lemma determinante_ok : determinante m = Ok (det n (entry m)).
Proof using W N1.
  unfold determinante. rectR W. rewrite Nat.eqb_refl. cbn [negb].
  destruct (Nat.eqb_spec n 1) as [E1|_].
  { rewrite (el_ok n n) by (auto; lia). f_equal. rewrite E1. cbn. ring. }
  destruct (single_ok (is_row_null m) row_null_ok) as [b1 [-> P1]]. cbn [obind].
  destruct b1; [rewrite P1 by reflexivity; rewrite fzR; reflexivity|].
  destruct (single_ok (is_column_null m) column_null_ok) as [b2 [-> P2]]. cbn [obind].
  destruct b2; [rewrite P2 by reflexivity; rewrite fzR; reflexivity|].
  destruct (pairs_ok (are_rows_equal m) rows_equal_ok) as [b3 [-> P3]]. cbn [obind].
  destruct b3; [rewrite P3 by reflexivity; rewrite fzR; reflexivity|].
  destruct (pairs_ok (are_columns_equal m) columns_equal_ok) as [b4 [-> P4]]. cbn [obind].
  destruct b4; [rewrite P4 by reflexivity; rewrite fzR; reflexivity|].
  destruct n as [|k]; [lia|]. apply calc_det. intros i j Hi Hj. apply (el_ok (S k) (S k)); auto.
Qed.
Lemma adjoint_ok : adjoint m = Ok (mk n n (fun j i => alt (i + j) * det (n - 1) (minor i j (entry m)))).
Proof using W N1.
  unfold adjoint. rectR W. rewrite Nat.eqb_refl. cbn [negb]. destruct (Nat.eqb_spec n 1) as [E1|N].
  - rewrite (mbuild_ok 1 1 _ (fun _ _ => 1)) by (intros; rewrite fzR; reflexivity). f_equal. rewrite E1.
    apply mk_ext. intros i j Hi Hj. replace i with 0%nat by lia. replace j with 0%nat by lia. cbn. ring.
  - apply mbuild_ok. intros j i Hj Hi. destruct n as [|[|k]]; [lia|lia|].
    rewrite (cofactor_ok (S k) _ (entry m)) by (intros a b Ha Hb; apply (el_ok (S (S k)) (S (S k))); auto). cbn [obind].
    replace (S (S k) - 1)%nat with (S k) by lia. rewrite (calc_det k _ (minor i j (entry m))) by apply reads_mk. cbn [obind].
    rewrite sign_alt. reflexivity.
Qed.
Lemma invert_singular : det n (entry m) = 0 -> invert m = Ok m.
Proof using W N1.
  intros Z. unfold invert. rewrite determinante_ok. cbn [obind]. rewrite Z. rewrite fzR. cbn [feq RArith].
  unfold Reqb. destruct (Req_EM_T 0 0); [reflexivity|lra].
Qed.
Definition inverse_of : matrix R := mk n n (fun j i => alt (i + j) * det (n - 1) (minor i j (entry m)) / det n (entry m)).
Lemma invert_regular : det n (entry m) <> 0 -> invert m = Ok inverse_of.
Proof using W N1.
  intros Z. unfold invert. rewrite determinante_ok. cbn [obind]. rewrite fzR. cbn [feq RArith].
  unfold Reqb. destruct (Req_EM_T (det n (entry m)) 0) as [E|_]; [contradiction|].
  rewrite adjoint_ok. cbn [obind]. rectR W. apply mbuild_ok. intros i j Hi Hj.
  rewrite (at_ok n n) by (auto; apply rect_mk). rewrite entry_mk by auto. reflexivity.
Qed.
Lemma inverse_right : det n (entry m) <> 0 -> mmul m inverse_of = identity n.
Proof using W N1.
  intros Z. rewrite identity_ok. rewrite (mmul_ok n) by (auto; apply rect_mk). f_equal. apply mk_ext. intros i j Hi Hj.
  destruct n as [|k] eqn:En; [lia|].
  transitivity (rsum (S k) (fun l => / det (S k) (entry m) * (alt (j + l) * entry m i l * det k (minor j l (entry m))))).
  { apply rsum_ext. intros l Hl. unfold inverse_of. rewrite En. rewrite entry_mk by auto.
    replace (S k - 1)%nat with k by lia. field. exact Z. }
  rewrite rsum_scal. destruct (Nat.eqb_spec i j) as [->|N].
  - rewrite <- det_row by auto. field. exact Z.
  - rewrite det_alien_row by auto. ring.
Qed.
Lemma inverse_left : det n (entry m) <> 0 -> mmul inverse_of m = identity n.
Proof using W N1.
  intros Z. rewrite identity_ok. rewrite (mmul_ok n) by (auto; apply rect_mk). f_equal. apply mk_ext. intros i j Hi Hj.
  destruct n as [|k] eqn:En; [lia|].
  transitivity (rsum (S k) (fun l => / det (S k) (entry m) * (alt (l + i) * entry m l j * det k (minor l i (entry m))))).
  { apply rsum_ext. intros l Hl. unfold inverse_of. rewrite En. rewrite entry_mk by auto.
    replace (S k - 1)%nat with k by lia. field. exact Z. }
  rewrite rsum_scal. destruct (Nat.eqb_spec i j) as [->|N].
  - rewrite <- det_col by auto. field. exact Z.
  - rewrite det_alien_col by auto. ring.
Qed.
End Det.

Lemma invert_two_sided n m : (1 <= n)%nat -> rect n n m -> det n (entry m) <> 0 ->
  exists i e, invert m = Ok i /\ identity n = Ok e /\ rect n n i /\ mmul m i = Ok e /\ mmul i m = Ok e.
Proof.
  intros N W D. exists (inverse_of n m). eexists.
  split; [apply invert_regular; auto|]. split; [apply identity_ok|]. split; [apply rect_mk|].
  rewrite <- identity_ok. split; [apply inverse_right|apply inverse_left]; auto.
Qed.

(** 3x3: the rule of Sarrus *)
Lemma det_det3 m : det 3 (entry m) = det3 m.
Proof. unfold det3. cbn. unfold minor, leave_out. cbn. ring. Qed.

(** ** Matrices that are not square (C23) *)
Lemma transpose_2x3_undef (v : list (list R)) : rect 2 3 (Mat 2 3 v) -> transpose (Mat 2 3 v) = Undef.
Proof.
  intros [_ [_ [L W]]]. cbn in L. destruct v as [|r0 [|r1 [|]]]; try discriminate L.
  pose proof (W r0 ltac:(cbn; auto)) as L0. pose proof (W r1 ltac:(cbn; auto)) as L1.
  destruct r0 as [|a0 [|b0 [|c0 [|]]]]; try discriminate L0. destruct r1 as [|a1 [|b1 [|c1 [|]]]]; try discriminate L1.
  reflexivity.
Qed.
Lemma mmul_2x3_3x2_undef (v w : list (list R)) : rect 2 3 (Mat 2 3 v) -> rect 3 2 (Mat 3 2 w) -> mmul (Mat 2 3 v) (Mat 3 2 w) = Undef.
Proof.
  intros [_ [_ [L W]]] [_ [_ [L' W']]]. cbn in L, L'. destruct v as [|r0 [|r1 [|]]]; try discriminate L.
  destruct w as [|s0 [|s1 [|s2 [|]]]]; try discriminate L'.
  pose proof (W r0 ltac:(cbn; auto)) as L0. pose proof (W r1 ltac:(cbn; auto)) as L1.
  pose proof (W' s0 ltac:(cbn; auto)) as M0. pose proof (W' s1 ltac:(cbn; auto)) as M1. pose proof (W' s2 ltac:(cbn; auto)) as M2.
  destruct r0 as [|a0 [|b0 [|c0 [|]]]]; try discriminate L0. destruct r1 as [|a1 [|b1 [|c1 [|]]]]; try discriminate L1.
  destruct s0 as [|x0 [|y0 [|]]]; try discriminate M0. destruct s1 as [|x1 [|y1 [|]]]; try discriminate M1.
  destruct s2 as [|x2 [|y2 [|]]]; try discriminate M2.
  reflexivity.
Qed.
Lemma matrix_data_3x2_undef (l : list R) : length l = 6%nat -> matrix_data (AF := RArith) 3 2 l = Undef.
Proof.
  intros L. destruct l as [|a [|b [|c [|d [|e [|f [|]]]]]]]; try discriminate L. reflexivity.
Qed.
(** 2x3: the second row starts one entry too early *)
Lemma matrix_data_2x3 (a b c d e f : R) :
  matrix_data (AF := RArith) 2 3 [a; b; c; d; e; f] = Ok (Mat 2 3 [[a; b; c]; [c; d; e]]).
Proof. reflexivity. Qed.
(** square matrices are filled correctly *)
Lemma matrix_sq_ok n l : length l = (n * n)%nat -> matrix_sq (AF := RArith) n l = Ok (mk n n (fun i j => nth (i * n + j) l 0)).
Proof.
  intros L. unfold matrix_sq, matrix_data, insert. cbn [matrix_zero m_rows m_cols]. rewrite L, Nat.eqb_refl.
  apply mbuild_ok. intros i j Hi Hj. rewrite (nth_error_nth' l 0) by nia. reflexivity.
Qed.

Lemma determinante3_ok m : rect 3 3 m -> determinante m = Ok (det3 m).
Proof. intros W. rewrite (determinante_ok 3 m W) by lia. now rewrite det_det3. Qed.
Lemma det_laws n f k : (k < S n)%nat ->
  det (S n) f = rsum (S n) (fun j => alt (k + j) * f k j * det n (minor k j f)) /\
  det (S n) f = rsum (S n) (fun i => alt (i + k) * f i k * det n (minor i k f)) /\
  det (S n) (fun i j => f j i) = det (S n) f /\
  (forall q, (q < S n)%nat -> k <> q -> (forall j, (j < S n)%nat -> f k j = f q j) -> det (S n) f = 0).
Proof.
  intros K. split; [apply det_row; auto|]. split; [apply det_col; auto|]. split; [apply det_tr|].
  intros q Q N H. apply (det_rows (S n) k q); auto.
Qed.
