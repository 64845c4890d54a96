(** * The determinant of a product *)
From Coq Require Import Reals Lra Lia List Bool.
From Verif Require Import Spec_Matrix Matrix_Proofs Det_Proofs.
Import ListNotations.
Local Open Scope R_scope.

Notation mx := (nat -> nat -> R).
Definition sr (k : nat) (u : nat -> R) (A : mx) : mx := fun i j => if Nat.eqb i k then u j else A i j.
Definition unitv (c : nat) : nat -> R := fun j => if Nat.eqb c j then 1 else 0.
Definition I_ : mx := fun i j => if Nat.eqb i j then 1 else 0.

(** Functions of the n rows that are linear in every row and vanish for two equal rows *)
Record good (n : nat) (F : mx -> R) : Prop := {
  g_ext : forall A B, (forall i j, (i < n)%nat -> (j < n)%nat -> A i j = B i j) -> F A = F B;
  g_lin : forall k x u v A, (k < n)%nat -> F (sr k (fun j => x * u j + v j) A) = x * F (sr k u A) + F (sr k v A);
  g_alt : forall p q A, (p < n)%nat -> (q < n)%nat -> p <> q -> (forall j, (j < n)%nat -> A p j = A q j) -> F A = 0 }.

Ltac eqs := repeat match goal with |- context [Nat.eqb ?a ?b] => destruct (Nat.eqb_spec a b) end; subst; try lia; try reflexivity; try congruence.

Lemma sr_at k u A j : sr k u A k j = u j. Proof. unfold sr. rewrite Nat.eqb_refl. reflexivity. Qed.
Lemma sr_off k u A i j : i <> k -> sr k u A i j = A i j. Proof. intros N. unfold sr. eqs. Qed.

Section Good.
Variables (n : nat) (F : mx -> R).
Hypothesis (G : good n F).

Lemma row_zero k A : (k < n)%nat -> F (sr k (fun _ => 0) A) = 0.
Proof.
  intros H. pose proof (g_lin _ _ G k 1 (fun _ => 0) (fun _ => 0) A H) as L.
  rewrite (g_ext _ _ G _ (sr k (fun _ => 0) A)) in L; [lra|]. intros i j _ _. unfold sr. eqs. ring.
Qed.
Lemma row_sum k A m (x : nat -> R) (u : nat -> nat -> R) : (k < n)%nat ->
  F (sr k (fun j => rsum m (fun c => x c * u c j)) A) = rsum m (fun c => x c * F (sr k (u c) A)).
Proof.
  intros H. induction m as [|m IH]; [apply (row_zero k A H)|]. cbn [rsum]. rewrite <- IH.
  rewrite Rplus_comm, <- (g_lin _ _ G k (x m) (u m) (fun j => rsum m (fun c => x c * u c j)) A H).
  apply (g_ext _ _ G). intros i j _ _. unfold sr. eqs. ring.
Qed.
(** Adding a multiple of another row *)
Lemma row_shift k q x A : (k < n)%nat -> (q < n)%nat -> k <> q -> F (sr k (fun j => A k j + x * A q j) A) = F A.
Proof.
  intros K Q N. rewrite (g_ext _ _ G _ (sr k (fun j => x * A q j + A k j) A)) by (intros i j _ _; unfold sr; eqs; ring).
  rewrite (g_lin _ _ G k x (A q) (A k) A K). rewrite (g_alt _ _ G k q (sr k (A q) A) K Q N).
  - rewrite (g_ext _ _ G (sr k (A k) A) A); [ring|]. intros i j _ _. unfold sr. eqs.
  - intros j _. rewrite sr_at, sr_off by auto. reflexivity.
Qed.
(** Exchanging two rows *)
Lemma row_swap p q A B : (p < n)%nat -> (q < n)%nat -> p <> q ->
  (forall j, (j < n)%nat -> B p j = A q j) -> (forall j, (j < n)%nat -> B q j = A p j) ->
  (forall i j, (i < n)%nat -> (j < n)%nat -> i <> p -> i <> q -> B i j = A i j) -> F B = - F A.
Proof.
  intros P Q N H1 H2 H3. set (s := fun j => A p j + A q j).
  pose proof (g_alt _ _ G p q (sr p s (sr q s A)) P Q N) as Z.
  assert (E : F (sr p s (sr q s A)) = 0). { apply Z. intros j _. rewrite sr_at, sr_off by auto. rewrite sr_at. reflexivity. }
  unfold s in E at 1.
  rewrite (g_ext _ _ G _ (sr p (fun j => 1 * A p j + A q j) (sr q s A))) in E by (intros i j _ _; unfold sr; eqs; ring).
  rewrite (g_lin _ _ G p 1 (A p) (A q) _ P) in E.
  assert (X : forall u, F (sr p u (sr q s A)) = F (sr p u (sr q (A p) A)) + F (sr p u (sr q (A q) A))).
  { intros u. transitivity (F (sr q (fun j => 1 * A p j + A q j) (sr p u A))).
    - apply (g_ext _ _ G). intros i j _ _. unfold sr, s. eqs; ring.
    - rewrite (g_lin _ _ G q 1 (A p) (A q) _ Q). rewrite Rmult_1_l. f_equal; apply (g_ext _ _ G); intros i j _ _; unfold sr; eqs. }
  rewrite !X in E.
  assert (Z1 : F (sr p (A p) (sr q (A p) A)) = 0). { apply (g_alt _ _ G p q _ P Q N). intros j _. rewrite sr_at, sr_off by auto. rewrite sr_at. reflexivity. }
  assert (Z2 : F (sr p (A q) (sr q (A q) A)) = 0). { apply (g_alt _ _ G p q _ P Q N). intros j _. rewrite sr_at, sr_off by auto. rewrite sr_at. reflexivity. }
  rewrite Z1, Z2 in E.
  rewrite (g_ext _ _ G (sr p (A p) (sr q (A q) A)) A) in E by (intros i j _ _; unfold sr; eqs).
  rewrite (g_ext _ _ G (sr p (A q) (sr q (A p) A)) B) in E.
  - lra.
  - intros i j Hi Hj. unfold sr. eqs; [symmetry; auto|symmetry; auto|symmetry; auto].
Qed.
End Good.

(** [c] in the numbering without [j] *)
Definition squeeze (j c : nat) : nat := if Nat.ltb c j then c else Nat.pred c.
Definition embed (j : nat) (B : mx) : mx := fun i c => match i with
  | O => unitv j c
  | S i => if Nat.eqb c j then 0 else B i (squeeze j c) end.

Lemma squeeze_lo j c : c <> j -> leave_out j (squeeze j c) = c.
Proof. unfold squeeze, leave_out. intros N. repeat match goal with |- context [Nat.ltb ?a ?b] => destruct (Nat.ltb_spec a b) end; lia. Qed.
Lemma squeeze_lt n j c : (c < S n)%nat -> (j < S n)%nat -> c <> j -> (squeeze j c < n)%nat.
Proof. unfold squeeze. intros. destruct (Nat.ltb_spec c j); lia. Qed.

Lemma embed_good n F j : (j < S n)%nat -> good (S n) F -> good n (fun B => F (embed j B)).
Proof.
  intros J G. constructor.
  - intros A B H. apply (g_ext _ _ G). intros [|i] c Hi Hc; [reflexivity|]. cbn. destruct (Nat.eqb_spec c j); [reflexivity|].
    apply H; [lia|]. apply squeeze_lt; auto.
  - intros k x u v A H.
    assert (E : forall w, F (embed j (sr k w A)) = F (sr (S k) (fun c => if Nat.eqb c j then 0 else w (squeeze j c)) (embed j A))).
    { intros w. apply (g_ext _ _ G). intros [|i] c _ _; [reflexivity|]. unfold sr. cbn. eqs. }
    rewrite !E. rewrite <- (g_lin _ _ G (S k)) by lia. apply (g_ext _ _ G). intros i c _ _. unfold sr. eqs. ring.
  - intros p q A P Q N H. apply (g_alt _ _ G (S p) (S q)); [lia..|]. intros c Hc. cbn. destruct (Nat.eqb_spec c j); [reflexivity|].
    apply H. apply squeeze_lt; auto.
Qed.

Lemma embed_I n F j : good (S n) F -> (j < S n)%nat -> F (embed j I_) = alt j * F I_.
Proof.
  intros G. induction j as [|j IH]; intros J.
  - cbn [alt]. rewrite Rmult_1_l. apply (g_ext _ _ G). intros [|i] c _ _; unfold embed, I_, unitv; [reflexivity|]. unfold squeeze. cbn. destruct c as [|c]; reflexivity.
  - cbn [alt]. rewrite <- Ropp_mult_distr_l, <- IH by lia. apply (row_swap _ F G O (S j)); try lia.
    + intros c Hc. cbn. unfold unitv, I_, squeeze. destruct (Nat.ltb_spec c j); eqs.
    + intros c Hc. cbn. unfold unitv, I_, squeeze. destruct (Nat.ltb_spec c (S j)); eqs.
    + intros [|i] c Hi Hc N1 N2; [lia|]. cbn. unfold I_, squeeze. destruct (Nat.ltb_spec c (S j)), (Nat.ltb_spec c j); eqs.
Qed.

(** Clearing column j below the row e_j *)
Lemma clear_column n F j A m : good (S n) F -> (j < S n)%nat -> (m <= n)%nat -> (forall c, (c < S n)%nat -> A O c = unitv j c) ->
  F (fun i c => if andb (Nat.leb 1 i) (Nat.leb i m) then (if Nat.eqb c j then 0 else A i c) else A i c) = F A.
Proof.
  intros G J. induction m as [|m IH]; intros M H.
  - apply (g_ext _ _ G). intros [|[|i]] c _ _; reflexivity.
  - rewrite <- IH by (auto; lia). set (B := fun i c => if andb (Nat.leb 1 i) (Nat.leb i m) then if Nat.eqb c j then 0 else A i c else A i c).
    rewrite <- (row_shift _ F G (S m) O (- A (S m) j) B) by lia. apply (g_ext _ _ G). intros i c Hi Hc. unfold sr.
    destruct (Nat.eqb_spec i (S m)) as [->|N].
    + unfold B. replace (Nat.leb (S m) (S m)) with true by (symmetry; apply Nat.leb_le; lia). replace (Nat.leb (S m) m) with false by (symmetry; apply Nat.leb_gt; lia).
      rewrite andb_true_r, andb_false_r. cbn [Nat.leb andb]. rewrite H by auto. unfold unitv. eqs; ring.
    + unfold B. replace (Nat.leb i (S m)) with (Nat.leb i m); [reflexivity|]. destruct (Nat.leb_spec i m), (Nat.leb_spec i (S m)); lia || reflexivity.
Qed.

Lemma unique n : forall F, good n F -> forall A, F A = F I_ * det n A.
Proof.
  induction n as [|n IH]; intros F G A.
  - cbn. rewrite Rmult_1_r. apply (g_ext _ _ G). intros; lia.
  - assert (X : F A = rsum (S n) (fun j => A O j * F (sr O (unitv j) A))).
    { rewrite <- (row_sum _ F G O A (S n) (A O) unitv) by lia. apply (g_ext _ _ G). intros i j Hi Hj. unfold sr. destruct (Nat.eqb_spec i 0); [subst|reflexivity].
      rewrite <- (rsum_delta (S n) j (A O) Hj). apply rsum_ext. intros c _. unfold unitv. rewrite (Nat.eqb_sym c j). ring. }
    rewrite X, det_S, <- rsum_scal. apply rsum_ext. intros j Hj.
    assert (Y : F (sr O (unitv j) A) = F (embed j (minor O j A))).
    { rewrite <- (clear_column n F j (sr O (unitv j) A) n G Hj (le_n n)) by (intros; apply sr_at). apply (g_ext _ _ G). intros [|i] c Hi Hc; [reflexivity|].
      replace (Nat.leb (S i) n) with true by (symmetry; apply Nat.leb_le; lia). cbn [Nat.leb andb]. rewrite sr_off by lia. cbn.
      destruct (Nat.eqb_spec c j); [reflexivity|]. unfold minor. rewrite squeeze_lo by auto. reflexivity. }
    rewrite Y. rewrite (IH (fun B => F (embed j B)) (embed_good n F j Hj G)). rewrite (embed_I n F j G Hj). ring.
Qed.

Lemma det_good n : good n (det n).
Proof.
  constructor.
  - intros A B H. apply det_ext. exact H.
  - intros k x u v A H. destruct n as [|n]; [lia|]. rewrite !(det_row n k) by auto. rewrite <- rsum_scal, <- rsum_plus. apply rsum_ext. intros j Hj.
    assert (E : forall w, det n (minor k j (sr k w A)) = det n (minor k j A)).
    { intros w. apply det_ext. intros a b _ _. unfold minor. apply sr_off. apply lo_ne. }
    rewrite !E, !sr_at. ring.
  - intros p q A P Q N H. apply (det_rows n p q); auto.
Qed.

Definition prod (n : nat) (A B : mx) : mx := fun i j => rsum n (fun k => A i k * B k j).
Lemma det_I n : det n I_ = 1.
Proof.
  induction n as [|n IH]; [reflexivity|]. rewrite det_S. rewrite rsum_first. rewrite (rsum_ext n _ (fun _ => 0)).
  - rewrite rsum_zero. cbn [alt]. replace (I_ O O) with 1 by reflexivity. rewrite (det_ext n (minor O O I_) I_), IH; [ring|]. reflexivity.
  - intros k _. replace (I_ O (S k)) with 0 by reflexivity. ring.
Qed.
Theorem det_prod n A B : det n (prod n A B) = det n A * det n B.
Proof.
  assert (G : good n (fun A => det n (prod n A B))).
  { constructor.
    - intros A1 A2 H. apply det_ext. intros i j Hi Hj. apply rsum_ext. intros k Hk. rewrite H by auto. reflexivity.
    - intros k x u v A1 H.
      assert (E : forall w, det n (prod n (sr k w A1) B) = det n (sr k (fun j => rsum n (fun c => w c * B c j)) (prod n A1 B))).
      { intros w. apply det_ext. intros i j _ _. unfold sr, prod. eqs. }
      rewrite !E. rewrite <- (g_lin _ _ (det_good n) k x) by auto. apply det_ext. intros i j _ _. unfold sr. eqs. rewrite <- rsum_scal, <- rsum_plus. apply rsum_ext. intros; ring.
    - intros p q A1 P Q N H. apply (det_rows n p q); auto. intros j _. apply rsum_ext. intros k Hk. rewrite H by auto. reflexivity. }
  rewrite (unique n _ G A). rewrite Rmult_comm. f_equal. apply det_ext. intros i j Hi Hj. unfold prod, I_. rewrite <- (rsum_delta n i (fun k => B k j) Hi). reflexivity.
Qed.
Lemma det_scale n x A : det n (fun i j => A i j * x) = x ^ n * det n A.
Proof.
  revert A. induction n as [|n IH]; intros A; [cbn; ring|]. rewrite !det_S, <- rsum_scal. apply rsum_ext. intros j _.
  change (minor 0 j (fun i j => A i j * x)) with (fun i c => minor 0 j A i c * x). rewrite IH. cbn [pow]. ring.
Qed.
