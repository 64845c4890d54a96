(** * Determinants: the facts used for determinante(), adjoint() and invert() *)
From Coq Require Import Reals Lra Lia List Bool.
From Verif Require Import Spec_Matrix Matrix_Proofs.
Import ListNotations.
Local Open Scope R_scope.

Ltac lo := unfold leave_out; repeat match goal with |- context [Nat.ltb ?a ?b] => destruct (Nat.ltb_spec a b) end; try lia.
Lemma lo0 i : leave_out 0 i = S i. Proof. reflexivity. Qed.
Lemma loSS c j : leave_out (S c) (S j) = S (leave_out c j). Proof. lo. Qed.
Lemma loS0 c : leave_out (S c) 0 = 0%nat. Proof. reflexivity. Qed.
Lemma lo_lt d n j : (j < n)%nat -> (leave_out d j < S n)%nat. Proof. intros; lo. Qed.
Lemma lo_ne d j : leave_out d j <> d. Proof. lo. Qed.

Lemma det_S n f : det (S n) f = rsum (S n) (fun j => alt j * f O j * det n (minor O j f)).
Proof. reflexivity. Qed.
Lemma det_ext n : forall f g, (forall i j, (i < n)%nat -> (j < n)%nat -> f i j = g i j) -> det n f = det n g.
Proof.
  induction n as [|n IH]; intros f g H; [reflexivity|]. rewrite !det_S. apply rsum_ext. intros k Hk.
  rewrite H by lia. f_equal. apply IH. intros. unfold minor. apply H; apply lo_lt; auto.
Qed.
Lemma rsum_first n g : rsum (S n) g = g O + rsum n (fun k => g (S k)).
Proof. induction n as [|n IH]; [cbn; ring|]. change (rsum (S (S n)) g) with (rsum (S n) g + g (S n)). rewrite IH. cbn. ring. Qed.

Definition tr (f : nat -> nat -> R) : nat -> nat -> R := fun i j => f j i.
Lemma det_tr_aux n : (forall f, det n (tr f) = det n f) /\ (forall f, det (S n) (tr f) = det (S n) f).
Proof.
  induction n as [|n [IH0 IH1]].
  - split; intros f; reflexivity.
  - split; [exact IH1|]. intros f. rewrite (det_S (S n) (tr f)), (det_S (S n) f).
    rewrite (rsum_first (S n)), (rsum_first (S n)). f_equal.
    { f_equal. rewrite <- IH1. apply det_ext. intros; reflexivity. }
    transitivity (rsum (S n) (fun j => rsum (S n) (fun i => alt (S j) * f (S j) O * (alt i * f O (S i) *
       det n (fun a b => f (S (leave_out j a)) (S (leave_out i b))))))).
    { apply rsum_ext. intros j Hj. rewrite rsum_scal. f_equal. rewrite <- IH1. rewrite det_S. apply rsum_ext. intros i Hi.
      unfold tr, minor. rewrite ?lo0, ?loS0. f_equal. apply det_ext. intros a b Ha Hb. unfold tr.
      rewrite ?lo0, ?loSS. reflexivity. }
    rewrite rsum_swap. apply rsum_ext. intros i Hi. 
    transitivity (rsum (S n) (fun j => alt (S i) * f O (S i) * (alt j * f (S j) O * det n (fun a b => f (S (leave_out j a)) (S (leave_out i b)))))).
    { apply rsum_ext. intros j Hj. cbn [alt]. ring. }
    rewrite rsum_scal. f_equal. rewrite <- IH1. rewrite det_S. apply rsum_ext. intros j Hj.
    unfold tr, minor. rewrite ?lo0, ?loS0. f_equal. rewrite <- IH0. apply det_ext. intros a b Ha Hb. unfold tr.
    rewrite ?lo0, ?loSS. reflexivity.
Qed.
Lemma det_tr n f : det n (tr f) = det n f.
Proof. apply det_tr_aux. Qed.

(** ** Exchanging neighbouring columns *)
Definition swp (k j : nat) : nat := if Nat.eqb j k then S k else if Nat.eqb j (S k) then k else j.
Ltac sw := unfold swp; repeat match goal with |- context [Nat.eqb ?a ?b] => destruct (Nat.eqb_spec a b) end; try lia.
Ltac noif a := lazymatch a with context [if _ then _ else _] => fail | _ => idtac end.
Ltac sl := unfold swp, leave_out;
  repeat match goal with
    | |- context [Nat.eqb ?a ?b] => noif a; destruct (Nat.eqb_spec a b)
    | |- context [Nat.ltb ?a ?b] => noif a; destruct (Nat.ltb_spec a b) end; try lia.
Lemma swp_other k j : j <> k -> j <> S k -> swp k j = j. Proof. sw. Qed.
Lemma rsum_swp n k g : (S k < n)%nat -> rsum n (fun j => g (swp k j)) = rsum n g.
Proof.
  intros H. induction n as [|n IH]; [lia|]. destruct (Nat.eq_dec n (S k)) as [->|N].
  - cbn [rsum]. replace (swp k (S k)) with k by sw. replace (swp k k) with (S k) by sw.
    rewrite (rsum_ext k (fun j => g (swp k j)) g); [ring|]. intros j Hj. rewrite swp_other by lia. reflexivity.
  - cbn [rsum]. rewrite IH by lia. rewrite swp_other by lia. reflexivity.
Qed.
Lemma det_swap_cols n : forall k f, (S k < n)%nat -> det n (fun i j => f i (swp k j)) = - det n f.
Proof.
  induction n as [|n IH]; intros k f H; [lia|]. rewrite !det_S.
  rewrite <- (rsum_swp (S n) k (fun j => alt j * f O j * det n (minor O j f))) by lia.
  replace (- rsum (S n) (fun j => alt (swp k j) * f O (swp k j) * det n (minor O (swp k j) f)))
    with (-1 * rsum (S n) (fun j => alt (swp k j) * f O (swp k j) * det n (minor O (swp k j) f))) by ring.
  rewrite <- rsum_scal. apply rsum_ext. intros j Hj.
  destruct (Nat.eq_dec j k) as [->|N1]; [|destruct (Nat.eq_dec j (S k)) as [->|N2]].
  - replace (swp k k) with (S k) by sw. cbn [alt].
    replace (det n (minor 0 k (fun i j => f i (swp k j)))) with (det n (minor 0 (S k) f)); [ring|].
    apply det_ext. intros a b Ha Hb. unfold minor. f_equal. sl.
  - replace (swp k (S k)) with k by sw. cbn [alt].
    replace (det n (minor 0 (S k) (fun i j => f i (swp k j)))) with (det n (minor 0 k f)); [ring|].
    apply det_ext. intros a b Ha Hb. unfold minor. f_equal. sl.
  - rewrite (swp_other k j) by auto.
    destruct (Nat.lt_ge_cases j k) as [L|G].
    + replace (det n (minor 0 j (fun i j => f i (swp k j)))) with (- det n (minor 0 j f)); [ring|].
      rewrite <- (IH (pred k)) by lia. apply det_ext. intros a b Ha Hb. unfold minor. f_equal. sl.
    + replace (det n (minor 0 j (fun i j => f i (swp k j)))) with (- det n (minor 0 j f)); [ring|].
      rewrite <- (IH k) by lia. apply det_ext. intros a b Ha Hb. unfold minor. f_equal. sl.
Qed.
Lemma det_equal_cols n d : forall p q f, q = (p + S d)%nat -> (q < n)%nat ->
  (forall i, (i < n)%nat -> f i p = f i q) -> det n f = 0.
Proof.
  induction d as [|d IH]; intros p q f E Q H.
  - assert (X : det n f = - det n f); [|lra]. rewrite <- (det_swap_cols n p f) by lia.
    apply det_ext. intros i j Hi Hj. replace q with (S p) in H by lia. sw; subst; auto. symmetry; auto.
  - assert (X : det n (fun i j => f i (swp (p + S d) j)) = 0).
    { apply (IH p (p + S d)%nat); [reflexivity|lia|]. intros i Hi.
      rewrite swp_other by lia. replace (swp (p + S d) (p + S d)) with q by sw. auto. }
    rewrite det_swap_cols in X by lia. lra.
Qed.
Lemma det_cols n p q f : (p < n)%nat -> (q < n)%nat -> p <> q -> (forall i, (i < n)%nat -> f i p = f i q) -> det n f = 0.
Proof.
  intros P Q N H. destruct (Nat.lt_ge_cases p q) as [L|G].
  - apply (det_equal_cols n (q - p - 1) p q); auto; lia.
  - apply (det_equal_cols n (p - q - 1) q p); auto; try lia. intros; symmetry; auto.
Qed.
Lemma det_rows n p q f : (p < n)%nat -> (q < n)%nat -> p <> q -> (forall j, (j < n)%nat -> f p j = f q j) -> det n f = 0.
Proof. intros P Q N H. rewrite <- det_tr. apply (det_cols n p q); auto. Qed.
Lemma det_swap_rows n k f : (S k < n)%nat -> det n (fun i j => f (swp k i) j) = - det n f.
Proof.
  intros H. rewrite <- det_tr. rewrite <- (det_tr n f). rewrite <- (det_swap_cols n k (tr f)) by auto. reflexivity.
Qed.

(** ** Expansion along any row and any column *)
Lemma alt_add a b : alt (a + b) = alt a * alt b.
Proof. induction a as [|a IH]; cbn; [ring|]. rewrite IH. ring. Qed.
Lemma alt_sq a : alt a * alt a = 1.
Proof. induction a as [|a IH]; cbn; [ring|]. rewrite <- IH. ring. Qed.
Lemma det_row n r : forall f, (r < S n)%nat -> det (S n) f = rsum (S n) (fun j => alt (r + j) * f r j * det n (minor r j f)).
Proof.
  induction r as [|r IH]; intros f H; [reflexivity|].
  replace (det (S n) f) with (- det (S n) (fun i j => f (swp r i) j)) by (rewrite det_swap_rows by lia; ring).
  rewrite IH by lia.
  match goal with |- - ?x = _ => replace (- x) with (-1 * x) by ring end. rewrite <- rsum_scal. apply rsum_ext. intros j Hj.
  replace (swp r r) with (S r) by sw. cbn [Nat.add alt].
  replace (det n (minor r j (fun i j => f (swp r i) j))) with (det n (minor (S r) j f)); [ring|].
  apply det_ext. intros a b Ha Hb. unfold minor. f_equal. sl.
Qed.
Lemma det_alien_row n r r' f : (r < S n)%nat -> (r' < S n)%nat -> r <> r' ->
  rsum (S n) (fun j => alt (r' + j) * f r j * det n (minor r' j f)) = 0.
Proof.
  intros R R' N. set (g := fun i j => if Nat.eqb i r' then f r j else f i j).
  rewrite <- (det_rows (S n) r r' g R R' N).
  - rewrite (det_row n r' g) by auto. apply rsum_ext. intros j Hj. unfold g at 1. rewrite Nat.eqb_refl. f_equal.
    apply det_ext. intros a b Ha Hb. unfold minor, g.
    destruct (Nat.eqb_spec (leave_out r' a) r'); [exfalso; eapply lo_ne; eauto|reflexivity].
  - intros j Hj. unfold g. rewrite Nat.eqb_refl. destruct (Nat.eqb_spec r r'); [contradiction|reflexivity].
Qed.
Lemma minor_tr r c f n : det n (minor r c (tr f)) = det n (minor c r f).
Proof. rewrite <- det_tr. reflexivity. Qed.
Lemma det_col n c f : (c < S n)%nat -> det (S n) f = rsum (S n) (fun i => alt (i + c) * f i c * det n (minor i c f)).
Proof.
  intros H. rewrite <- det_tr. rewrite (det_row n c) by auto. apply rsum_ext. intros i Hi.
  rewrite minor_tr. rewrite Nat.add_comm. reflexivity.
Qed.
Lemma det_alien_col n c c' f : (c < S n)%nat -> (c' < S n)%nat -> c <> c' ->
  rsum (S n) (fun i => alt (i + c') * f i c * det n (minor i c' f)) = 0.
Proof.
  intros C C' N. rewrite <- (det_alien_row n c c' (tr f)) by auto. apply rsum_ext. intros i Hi.
  rewrite minor_tr. rewrite Nat.add_comm. reflexivity.
Qed.
Lemma det_zero_row n r f : (r < n)%nat -> (forall j, (j < n)%nat -> f r j = 0) -> det n f = 0.
Proof.
  destruct n as [|n]; [lia|]. intros R H. rewrite (det_row n r) by auto. rewrite <- (rsum_zero (S n)). apply rsum_ext.
  intros j Hj. rewrite H by auto. ring.
Qed.
Lemma det_zero_col n c f : (c < n)%nat -> (forall i, (i < n)%nat -> f i c = 0) -> det n f = 0.
Proof. intros C H. rewrite <- det_tr. apply (det_zero_row n c); auto. Qed.
