(** * Matrix algebra in exact arithmetic (C21 - C23) *)
From Coq Require Import ZArith QArith Qreals Reals Lra Lia List Bool.
From Verif Require Import Arith Outcome ColorModel MatrixModel RArith Laws Spec_Matrix.
Import ListNotations.
Local Open Scope R_scope.

(** ** The loops *)
Lemma build_from_ok {X} n : forall s (f : nat -> outcome X) (g : nat -> X),
  (forall i, (s <= i < s + n)%nat -> f i = Ok (g i)) -> build_from s n f = Ok (map g (seq s n)).
Proof.
  induction n as [|n IH]; intros s f g H; [reflexivity|]. cbn [build_from seq map].
  rewrite H by lia. cbn [obind]. rewrite (IH (S s) f g) by (intros; apply H; lia). reflexivity.
Qed.
Lemma build_ok {X} n (f : nat -> outcome X) (g : nat -> X) :
  (forall i, (i < n)%nat -> f i = Ok (g i)) -> build n f = Ok (map g (seq 0 n)).
Proof. intros H. apply build_from_ok. intros; apply H; lia. Qed.

Definition mk {F} (r c : nat) (g : nat -> nat -> F) : matrix F := Mat r c (map (fun i => map (g i) (seq 0 c)) (seq 0 r)).
Lemma mbuild_ok {F} r c (f : nat -> nat -> outcome F) g :
  (forall i j, (i < r)%nat -> (j < c)%nat -> f i j = Ok (g i j)) -> mbuild r c f = Ok (mk r c g).
Proof.
  intros H. unfold mbuild. rewrite (build_ok r _ (fun i => map (g i) (seq 0 c))).
  - reflexivity.
  - intros i Hi. apply build_ok. intros j Hj. apply H; auto.
Qed.

Lemma sum_from_ok n : forall acc s f g, (forall i, (s <= i < s + n)%nat -> f i = Ok (g i)) ->
  sum_from (AF := RArith) acc s n f = Ok (acc + rsum n (fun k => g (s + k)%nat)).
Proof.
  induction n as [|n IH]; intros acc s f g H; cbn [sum_from rsum].
  - f_equal. ring.
  - rewrite H by lia. cbn [obind]. rewrite (IH _ (S s) f g) by (intros; apply H; lia). f_equal.
    cbn [fadd RArith]. clear. revert s acc. 
    assert (A : forall s, rsum n (fun k => g (S s + k)%nat) + g s = rsum n (fun k => g (s + k)%nat) + g (s + n)%nat).
    { induction n as [|n IH]; intros s; cbn [rsum]; [rewrite Nat.add_0_r; ring|].
      replace (S s + n)%nat with (s + S n)%nat by lia. specialize (IH s). cbn [Nat.add] in *. lra. }
    intros s acc. specialize (A s). lra.
Qed.
Lemma sum_to_ok n f g : (forall i, (i < n)%nat -> f i = Ok (g i)) -> sum_to (AF := RArith) n f = Ok (rsum n g).
Proof.
  intros H. unfold sum_to. rewrite (sum_from_ok n _ 0 f g) by (intros; apply H; lia).
  f_equal. rewrite fzR, Rplus_0_l. reflexivity.
Qed.

(** ** Entries *)
Lemma nth_map_seq {X} (g : nat -> X) n d i : (i < n)%nat -> nth i (map g (seq 0 n)) d = g i.
Proof.
  intros H. rewrite (nth_indep _ d (g 0%nat)) by (rewrite map_length, seq_length; auto).
  rewrite map_nth. rewrite seq_nth by auto. reflexivity.
Qed.
Lemma entry_mk r c g i j : (i < r)%nat -> (j < c)%nat -> entry (mk r c g) i j = g i j.
Proof. intros. unfold entry, mk. cbn [m_values]. rewrite nth_map_seq by auto. rewrite nth_map_seq by auto. reflexivity. Qed.
Lemma rect_mk {F} r c (g : nat -> nat -> F) : rect r c (mk r c g).
Proof.
  repeat split; cbn [mk m_values]; [now rewrite map_length, seq_length|].
  intros row I. apply in_map_iff in I. destruct I as [i [<- _]]. now rewrite map_length, seq_length.
Qed.
Lemma el_ok r c (m : matrix R) i j : rect r c m -> (i < r)%nat -> (j < c)%nat -> el (m_values m) i j = Ok (entry m i j).
Proof.
  intros [_ [_ [L W]]] Hi Hj. unfold el, entry.
  rewrite (nth_error_nth' _ []) by lia.
  assert (length (nth i (m_values m) []) = c) as E by (apply W, nth_In; lia).
  rewrite (nth_error_nth' _ 0) by lia. reflexivity.
Qed.
Lemma at_ok r c (m : matrix R) i j : rect r c m -> (i < r)%nat -> (j < c)%nat -> at_ m i j = Ok (entry m i j).
Proof.
  intros W Hi Hj. unfold at_. pose proof W as [Er [Ec _]]. rewrite Er, Ec.
  destruct (Nat.leb_spec r i); [lia|]. destruct (Nat.leb_spec c j); [lia|]. apply (el_ok r c); auto.
Qed.
Lemma mat_ext r c (a b : matrix R) : rect r c a -> rect r c b ->
  (forall i j, (i < r)%nat -> (j < c)%nat -> entry a i j = entry b i j) -> a = b.
Proof.
  destruct a as [ra ca va], b as [rb cb vb]. intros [A1 [A2 [A3 A4]]] [B1 [B2 [B3 B4]]] H.
  cbn in *. subst ra ca rb cb. f_equal.
  apply (nth_ext va vb [] []); [congruence|]. intros i Hi.
  assert (La : length (nth i va []) = c) by (apply A4, nth_In; lia).
  assert (Lb : length (nth i vb []) = c) by (apply B4, nth_In; lia).
  apply (nth_ext _ _ 0 0); [congruence|]. intros j Hj. apply H; lia.
Qed.
Lemma mk_ext r c g h : (forall i j, (i < r)%nat -> (j < c)%nat -> g i j = h i j) -> mk r c g = mk r c h :> matrix R.
Proof.
  intros H. apply (mat_ext r c); [apply rect_mk|apply rect_mk|]. intros. rewrite !entry_mk by auto. auto.
Qed.
Lemma mk_entry r c m : rect r c m -> m = mk r c (entry m).
Proof. intros W. apply (mat_ext r c); [exact W|apply rect_mk|]. intros. now rewrite entry_mk. Qed.

(** ** What each operation computes *)
Ltac rectR W := let A := fresh in let B := fresh in pose proof W as [A [B _]]; rewrite ?A, ?B; clear A B.
Section Ops.
Variable n : nat.
Notation sq := (@rect R n n).
Lemma madd_ok a b : sq a -> sq b -> madd a b = Ok (mk n n (fun i j => entry a i j + entry b i j)).
Proof.
  intros A B. unfold madd. rectR A. apply mbuild_ok. intros i j Hi Hj.
  rewrite (el_ok n n) by auto. cbn [obind]. rewrite (at_ok n n) by auto. reflexivity.
Qed.
Lemma msub_ok a b : sq a -> sq b -> msub a b = Ok (mk n n (fun i j => entry a i j - entry b i j)).
Proof.
  intros A B. unfold msub. rectR A. apply mbuild_ok. intros i j Hi Hj.
  rewrite (el_ok n n) by auto. cbn [obind]. rewrite (at_ok n n) by auto. reflexivity.
Qed.
Lemma mmul_ok a b : sq a -> sq b -> mmul a b = Ok (mk n n (fun i j => rsum n (fun k => entry a i k * entry b k j))).
Proof.
  intros A B. unfold mmul. rectR B. apply mbuild_ok. intros i j Hi Hj. apply sum_to_ok. intros k Hk.
  rewrite (el_ok n n) by auto. cbn [obind]. rewrite (at_ok n n) by auto. reflexivity.
Qed.
Lemma mscalar_ok op a s : sq a -> mscalar op a s = Ok (mk n n (fun i j => op (entry a i j) s)).
Proof.
  intros A. unfold mscalar. rectR A. apply mbuild_ok. intros i j Hi Hj.
  rewrite (el_ok n n) by auto. reflexivity.
Qed.
Lemma transpose_ok a : sq a -> transpose a = Ok (mk n n (fun i j => entry a j i)).
Proof.
  intros A. unfold transpose. rectR A. apply mbuild_ok. intros i j Hi Hj. rewrite (el_ok n n) by auto. reflexivity.
Qed.
Lemma identity_ok : identity (AF := RArith) n = Ok (mk n n (fun i j => if Nat.eqb i j then 1 else 0)).
Proof. unfold identity. apply mbuild_ok. intros. destruct (Nat.eqb i j); rewrite fzR; reflexivity. Qed.
Lemma mulvec_ok a v : sq a -> length v = n ->
  mulvec a v = Ok (map (fun i => rsum n (fun j => entry a i j * nth j v 0)) (seq 0 n)).
Proof.
  intros A L. unfold mulvec. rectR A. rewrite L. rewrite Nat.ltb_irrefl. cbn [andb].
  apply build_ok. intros i Hi. destruct (Nat.ltb_spec i n); [|lia]. apply sum_to_ok. intros j Hj.
  rewrite (el_ok n n) by auto. cbn [obind]. rewrite (nth_error_nth' v 0) by lia. reflexivity.
Qed.
End Ops.

(** ** Sums *)
Lemma rsum_ext n f g : (forall k, (k < n)%nat -> f k = g k) -> rsum n f = rsum n g.
Proof. induction n as [|n IH]; intros H; cbn; [reflexivity|]. rewrite IH by auto. rewrite H by lia. reflexivity. Qed.
Lemma rsum_plus n f g : rsum n (fun k => f k + g k) = rsum n f + rsum n g.
Proof. induction n as [|n IH]; cbn; [ring|]. rewrite IH. ring. Qed.
Lemma rsum_scal n c f : rsum n (fun k => c * f k) = c * rsum n f.
Proof. induction n as [|n IH]; cbn; [ring|]. rewrite IH. ring. Qed.
Lemma rsum_scal_r n c f : rsum n (fun k => f k * c) = rsum n f * c.
Proof. induction n as [|n IH]; cbn; [ring|]. rewrite IH. ring. Qed.
Lemma rsum_zero n : rsum n (fun _ => 0) = 0.
Proof. induction n as [|n IH]; cbn; [ring|]. rewrite IH. ring. Qed.
Lemma rsum_swap n m f : rsum n (fun i => rsum m (fun j => f i j)) = rsum m (fun j => rsum n (fun i => f i j)).
Proof.
  induction n as [|n IH]; cbn; [now rewrite rsum_zero|]. rewrite IH. now rewrite rsum_plus.
Qed.
Lemma rsum_delta n i f : (i < n)%nat -> rsum n (fun k => (if Nat.eqb i k then 1 else 0) * f k) = f i.
Proof.
  intros H. induction n as [|n IH]; [lia|]. cbn. destruct (Nat.eq_dec i n) as [->|N].
  - rewrite Nat.eqb_refl. rewrite (rsum_ext n _ (fun _ => 0)); [rewrite rsum_zero; ring|].
    intros k Hk. destruct (Nat.eqb_spec n k); [lia|ring].
  - rewrite IH by lia. destruct (Nat.eqb_spec i n); [lia|ring].
Qed.

(** ** Algebra *)
Section Algebra.
Variable n : nat.
Notation sq := (@rect R n n).
Ltac ents := intros; repeat rewrite entry_mk by assumption; try (apply rsum_ext; intros); repeat rewrite entry_mk by assumption.
Lemma id_neutral m : sq m -> exists i, identity n = Ok i /\ mmul i m = Ok m /\ mmul m i = Ok m.
Proof.
  intros M. eexists. split; [apply identity_ok|]. split.
  - rewrite (mmul_ok n) by (auto; apply rect_mk). f_equal. transitivity (mk n n (entry m)); [|symmetry; now apply mk_entry]. apply mk_ext.
    intros i j Hi Hj. rewrite <- (rsum_delta n i (fun k => entry m k j)) by auto. apply rsum_ext. intros. now rewrite entry_mk.
  - rewrite (mmul_ok n) by (auto; apply rect_mk). f_equal. transitivity (mk n n (entry m)); [|symmetry; now apply mk_entry]. apply mk_ext.
    intros i j Hi Hj. rewrite <- (rsum_delta n j (fun k => entry m i k)) by auto. apply rsum_ext. intros. rewrite entry_mk by auto.
    rewrite Nat.eqb_sym. ring.
Qed.
Lemma mul_assoc a b c : sq a -> sq b -> sq c ->
  exists ab bc p, mmul a b = Ok ab /\ mmul b c = Ok bc /\ mmul ab c = Ok p /\ mmul a bc = Ok p.
Proof.
  intros A B C. do 3 eexists. split; [apply (mmul_ok n); auto|]. split; [apply (mmul_ok n); auto|].
  split; [apply (mmul_ok n); auto; apply rect_mk|]. rewrite (mmul_ok n) by (auto; apply rect_mk).
  f_equal. apply mk_ext. intros i j Hi Hj. symmetry.
  transitivity (rsum n (fun k => rsum n (fun l => entry a i l * entry b l k * entry c k j))).
  { apply rsum_ext. intros. rewrite entry_mk by auto. now rewrite rsum_scal_r. }
  rewrite rsum_swap. apply rsum_ext. intros. rewrite entry_mk by auto. rewrite <- rsum_scal. apply rsum_ext. intros. ring.
Qed.
Lemma transpose_twice m : sq m -> exists t, transpose m = Ok t /\ sq t /\ transpose t = Ok m.
Proof.
  intros M. eexists. split; [apply (transpose_ok n); auto|]. split; [apply rect_mk|].
  rewrite (transpose_ok n) by apply rect_mk. f_equal. transitivity (mk n n (entry m)); [|symmetry; now apply mk_entry].
  apply mk_ext. intros. now rewrite entry_mk.
Qed.
Lemma transpose_mul a b : sq a -> sq b ->
  exists ab ta tb t, mmul a b = Ok ab /\ transpose a = Ok ta /\ transpose b = Ok tb /\ transpose ab = Ok t /\ mmul tb ta = Ok t.
Proof.
  intros A B. do 4 eexists. split; [apply (mmul_ok n); auto|]. split; [apply (transpose_ok n); auto|].
  split; [apply (transpose_ok n); auto|]. split; [apply (transpose_ok n); apply rect_mk|].
  rewrite (mmul_ok n) by apply rect_mk. f_equal. apply mk_ext. intros i j Hi Hj. rewrite entry_mk by auto.
  apply rsum_ext. intros. rewrite !entry_mk by auto. ring.
Qed.
Lemma add_comm a b : sq a -> sq b -> exists s, madd a b = Ok s /\ madd b a = Ok s.
Proof.
  intros A B. eexists. split; [apply (madd_ok n); auto|]. rewrite (madd_ok n) by auto. f_equal. apply mk_ext. intros. ring.
Qed.
Lemma add_assoc a b c : sq a -> sq b -> sq c ->
  exists ab bc s, madd a b = Ok ab /\ madd b c = Ok bc /\ madd ab c = Ok s /\ madd a bc = Ok s.
Proof.
  intros A B C. do 3 eexists. split; [apply (madd_ok n); auto|]. split; [apply (madd_ok n); auto|].
  split; [apply (madd_ok n); auto; apply rect_mk|]. rewrite (madd_ok n) by (auto; apply rect_mk). f_equal.
  apply mk_ext. intros. rewrite !entry_mk by auto. ring.
Qed.
Lemma sub_add a b : sq a -> sq b -> exists s d, madd a b = Ok s /\ msub s b = Ok a /\ msub a b = Ok d /\ madd d b = Ok a.
Proof.
  intros A B. do 2 eexists. split; [apply (madd_ok n); auto|]. split.
  - rewrite (msub_ok n) by (auto; apply rect_mk). f_equal. transitivity (mk n n (entry a)); [|symmetry; now apply mk_entry].
    apply mk_ext. intros. rewrite entry_mk by auto. ring.
  - split; [apply (msub_ok n); auto|]. rewrite (madd_ok n) by (auto; apply rect_mk). f_equal.
    transitivity (mk n n (entry a)); [|symmetry; now apply mk_entry].
    apply mk_ext. intros. rewrite entry_mk by auto. ring.
Qed.
Lemma mul_add_distr a b c : sq a -> sq b -> sq c ->
  exists bc p ab ac, madd b c = Ok bc /\ mmul a bc = Ok p /\ mmul a b = Ok ab /\ mmul a c = Ok ac /\ madd ab ac = Ok p.
Proof.
  intros A B C. do 4 eexists. split; [apply (madd_ok n); auto|]. split; [apply (mmul_ok n); auto; apply rect_mk|].
  split; [apply (mmul_ok n); auto|]. split; [apply (mmul_ok n); auto|].
  rewrite (madd_ok n) by apply rect_mk. f_equal. apply mk_ext. intros. rewrite !entry_mk by auto.
  rewrite <- rsum_plus. apply rsum_ext. intros. rewrite entry_mk by auto. ring.
Qed.
Lemma mulvec_mul a b v : sq a -> sq b -> length v = n ->
  exists ab bv r, mmul a b = Ok ab /\ mulvec b v = Ok bv /\ mulvec ab v = Ok r /\ mulvec a bv = Ok r.
Proof.
  intros A B V. do 3 eexists. split; [apply (mmul_ok n); auto|]. split; [apply (mulvec_ok n); auto|].
  split; [apply (mulvec_ok n); auto; apply rect_mk|].
  rewrite (mulvec_ok n) by (auto; now rewrite map_length, seq_length). f_equal.
  apply map_ext_in. intros i Hi. apply in_seq in Hi. symmetry.
  transitivity (rsum n (fun k => rsum n (fun l => entry a i l * entry b l k * nth k v 0))).
  { apply rsum_ext. intros. rewrite entry_mk by lia. now rewrite rsum_scal_r. }
  rewrite rsum_swap. apply rsum_ext. intros. rewrite nth_map_seq by auto. rewrite <- rsum_scal. apply rsum_ext. intros. ring.
Qed.
(** entries of the results, in the textbook form *)
Lemma entries_of_results a b i j : sq a -> sq b -> (i < n)%nat -> (j < n)%nat ->
  (exists s, madd a b = Ok s /\ sq s /\ entry s i j = entry a i j + entry b i j) /\
  (exists s, msub a b = Ok s /\ sq s /\ entry s i j = entry a i j - entry b i j) /\
  (exists s, mmul a b = Ok s /\ sq s /\ entry s i j = rsum n (fun k => entry a i k * entry b k j)) /\
  (exists s, transpose a = Ok s /\ sq s /\ entry s i j = entry a j i).
Proof.
  intros A B Hi Hj. rewrite (madd_ok n), (msub_ok n), (mmul_ok n), (transpose_ok n) by auto.
  repeat split; (eexists; split; [reflexivity|split; [apply rect_mk|rewrite entry_mk by auto; reflexivity]]).
Qed.
Lemma scalar_entries a s i j : sq a -> (i < n)%nat -> (j < n)%nat ->
  (exists m, madds a s = Ok m /\ sq m /\ entry m i j = entry a i j + s) /\
  (exists m, msubs a s = Ok m /\ sq m /\ entry m i j = entry a i j - s) /\
  (exists m, mmuls a s = Ok m /\ sq m /\ entry m i j = entry a i j * s) /\
  (exists m, mdivs a s = Ok m /\ sq m /\ entry m i j = entry a i j / s).
Proof.
  intros A Hi Hj. unfold madds, msubs, mmuls, mdivs.
  repeat split; eexists; (split; [rewrite (mscalar_ok n) by auto; reflexivity|split; [apply rect_mk|rewrite entry_mk by auto; reflexivity]]).
Qed.
End Algebra.
