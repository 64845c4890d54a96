(** * Laws of determinante() and invert() *)
From Coq Require Import Reals Lra Lia List Bool.
From Verif Require Import Arith Outcome RArith MatrixModel Spec_Matrix Matrix_Proofs Det_Proofs Det2_Proofs Invert_Proofs.
Import ListNotations.
Local Open Scope R_scope.

Section Sized.
Variable n : nat.
Hypothesis (N : (1 <= n)%nat).
Notation sq := (rect (F := R) n n).

Lemma determinant_product a b : sq a -> sq b ->
  exists ab x y, mmul a b = Ok ab /\ determinante a = Ok x /\ determinante b = Ok y /\ determinante ab = Ok (x * y).
Proof.
  intros A B. eexists; exists (det n (entry a)), (det n (entry b)). split; [apply (mmul_ok n); assumption|].
  split; [apply (determinante_ok n); assumption|]. split; [apply (determinante_ok n); assumption|].
  rewrite (determinante_ok n) by (auto using rect_mk). rewrite <- (det_prod n). f_equal. apply det_ext. intros i j Hi Hj. rewrite entry_mk by auto. reflexivity.
Qed.
Lemma determinant_transpose a : sq a -> exists t x, transpose a = Ok t /\ determinante a = Ok x /\ determinante t = Ok x.
Proof.
  intros A. eexists; exists (det n (entry a)). split; [apply (transpose_ok n); assumption|]. split; [apply (determinante_ok n); assumption|].
  rewrite (determinante_ok n) by (auto using rect_mk). rewrite <- (det_tr n (entry a)). f_equal. apply det_ext. intros i j Hi Hj. rewrite entry_mk by auto. reflexivity.
Qed.
Lemma determinant_scaled a s : sq a -> exists m x, mmuls a s = Ok m /\ determinante a = Ok x /\ determinante m = Ok (s ^ n * x).
Proof.
  intros A. eexists; exists (det n (entry a)). split; [apply (mscalar_ok n Rmult); assumption|]. split; [apply (determinante_ok n); assumption|].
  rewrite (determinante_ok n) by (auto using rect_mk). rewrite <- det_scale. f_equal. apply det_ext. intros i j Hi Hj. rewrite entry_mk by auto. reflexivity.
Qed.
Lemma determinant_identity : exists e, identity n = Ok e /\ sq e /\ determinante e = Ok 1.
Proof.
  eexists. split; [apply (identity_ok n)|]. split; [apply rect_mk|]. rewrite (determinante_ok n) by (auto using rect_mk). f_equal. transitivity (det n I_); [|apply det_I].
  apply det_ext. intros i j Hi Hj. rewrite entry_mk by auto. reflexivity.
Qed.

(** A one-sided inverse is two-sided and is what invert() finds *)
Lemma det_of_inverse a b e : sq a -> sq b -> identity n = Ok e -> mmul a b = Ok e -> det n (entry a) * det n (entry b) = 1.
Proof.
  intros A B E P. rewrite (mmul_ok n a b A B) in P. rewrite (identity_ok n) in E. rewrite <- E in P. injection P as P.
  rewrite <- det_prod. transitivity (det n I_); [|apply det_I]. apply det_ext. intros i j Hi Hj.
  transitivity (entry (mk n n (fun i j => rsum n (fun k => entry a i k * entry b k j))) i j); [rewrite entry_mk by auto; reflexivity|].
  unfold mk. rewrite P. fold (mk (F := R) n n (fun i j => if Nat.eqb i j then 1 else 0)). rewrite entry_mk by auto. reflexivity.
Qed.
Lemma right_inverse_is a b e : sq a -> sq b -> identity n = Ok e -> mmul a b = Ok e -> invert a = Ok b /\ invert b = Ok a.
Proof.
  intros A B E P. pose proof (det_of_inverse a b e A B E P) as D.
  assert (Da : det n (entry a) <> 0) by (intros Z; rewrite Z in D; lra). assert (Db : det n (entry b) <> 0) by (intros Z; rewrite Z in D; lra).
  destruct (invert_two_sided n a N A Da) as [ia [ea [Ia [Ea [Sa [Ra La]]]]]].
  destruct (invert_two_sided n b N B Db) as [ib [eb [Ib [Eb [Sb [Rb Lb]]]]]].
  assert (ea = e) by congruence. assert (eb = e) by congruence. subst ea eb.
  destruct (id_neutral n ia Sa) as [e1 [I1 [_ N1]]]. destruct (id_neutral n ib Sb) as [e2 [I2 [N2 _]]].
  destruct (id_neutral n b B) as [e3 [I3 [N3 _]]]. destruct (id_neutral n a A) as [e4 [I4 [_ N4]]].
  assert (e1 = e) by congruence. assert (e2 = e) by congruence. assert (e3 = e) by congruence. assert (e4 = e) by congruence. subst e1 e2 e3 e4.
  destruct (mul_assoc n ia a b Sa A B) as [x [y [p [X [Y [P1 P2]]]]]].
  destruct (mul_assoc n a b ib A B Sb) as [x' [y' [p' [X' [Y' [P1' P2']]]]]].
  split; [rewrite Ia|rewrite Ib]; f_equal.
  - assert (x = e) by congruence. assert (y = e) by congruence. subst x y. congruence.
  - assert (x' = e) by congruence. assert (y' = e) by congruence. subst x' y'. congruence.
Qed.
Lemma left_inverse_is a b e : sq a -> sq b -> identity n = Ok e -> mmul b a = Ok e -> invert a = Ok b /\ invert b = Ok a.
Proof. intros A B E P. destruct (right_inverse_is b a e B A E P). auto. Qed.

Lemma invert_twice a : sq a -> det n (entry a) <> 0 -> exists i, invert a = Ok i /\ sq i /\ invert i = Ok a.
Proof.
  intros A D. destruct (invert_two_sided n a N A D) as [i [e [I [E [S [P _]]]]]]. exists i. split; [exact I|]. split; [exact S|].
  exact (proj2 (right_inverse_is a i e A S E P)).
Qed.
Lemma invert_determinant a x : sq a -> determinante a = Ok x -> x <> 0 -> exists i, invert a = Ok i /\ determinante i = Ok (1 / x).
Proof.
  intros A X D. rewrite (determinante_ok n a A N) in X. injection X as <-. destruct (invert_two_sided n a N A D) as [i [e [I [E [S [P _]]]]]].
  exists i. split; [exact I|]. rewrite (determinante_ok n i S N). f_equal. pose proof (det_of_inverse a i e A S E P) as M. field_simplify_eq; [lra|exact D].
Qed.
Lemma invert_product a b : sq a -> sq b -> det n (entry a) <> 0 -> det n (entry b) <> 0 ->
  exists ia ib ab p, invert a = Ok ia /\ invert b = Ok ib /\ mmul a b = Ok ab /\ mmul ib ia = Ok p /\ invert ab = Ok p.
Proof.
  intros A B Da Db. destruct (invert_two_sided n a N A Da) as [ia [e [Ia [E [Sa [Ra La]]]]]]. destruct (invert_two_sided n b N B Db) as [ib [e' [Ib [E' [Sb [Rb Lb]]]]]].
  assert (e' = e) by congruence. subst e'. clear E'.
  pose proof (mmul_ok n a b A B) as P1. set (ab := mk n n _) in P1. assert (Sab : sq ab) by apply rect_mk.
  pose proof (mmul_ok n ib ia Sb Sa) as P2. set (p := mk n n _) in P2. assert (Sp : sq p) by apply rect_mk.
  exists ia, ib, ab, p. repeat (split; [assumption|]). refine (proj1 (right_inverse_is ab p e Sab Sp E _)).
  (* (a b)(ib ia) = a (b (ib ia)) = a ((b ib) ia) = a ia *)
  destruct (mul_assoc n a b p A B Sp) as [x [y [q [X [Y [Q1 Q2]]]]]]. destruct (mul_assoc n b ib ia B Sb Sa) as [x' [y' [q' [X' [Y' [Q1' Q2']]]]]].
  destruct (id_neutral n ia Sa) as [e1 [I1 [N1 _]]]. assert (e1 = e) by congruence. subst e1.
  assert (x = ab) by congruence. assert (y' = p) by congruence. assert (x' = e) by congruence. subst x y' x'. assert (q' = ia) by congruence. subst q'. assert (y = ia) by congruence. subst y. congruence.
Qed.
Lemma invert_transpose a : sq a -> det n (entry a) <> 0 ->
  exists i t it, invert a = Ok i /\ transpose a = Ok t /\ transpose i = Ok it /\ invert t = Ok it.
Proof.
  intros A D. destruct (invert_two_sided n a N A D) as [i [e [I [E [S [P _]]]]]].
  destruct (transpose_twice n a A) as [t [T [St _]]]. destruct (transpose_twice n i S) as [it [T' [Sit _]]].
  exists i, t, it. repeat (split; [assumption|]). refine (proj1 (left_inverse_is t it e St Sit E _)).
  destruct (transpose_mul n a i A S) as [ab [ta [tb [tt [M [Ta [Tb [Tt Q]]]]]]]]. assert (ta = t) by congruence. assert (tb = it) by congruence. assert (ab = e) by congruence. subst ta tb ab.
  rewrite Q, <- Tt. rewrite (identity_ok n) in E. injection E as <-. fold (mk (F := R) n n (fun i j => if Nat.eqb i j then 1 else 0)).
  rewrite (transpose_ok n) by apply rect_mk. f_equal. apply mk_ext. intros x y Hx Hy. rewrite entry_mk by auto. rewrite Nat.eqb_sym. reflexivity.
Qed.
(** invert() leaves a matrix as it is only if it has no inverse, or is its own *)
Lemma invert_unchanged a e : sq a -> identity n = Ok e -> invert a = Ok a -> mmul a a = Ok e \/ (forall b, sq b -> mmul a b <> Ok e /\ mmul b a <> Ok e).
Proof.
  intros A E I. destruct (Req_dec (det n (entry a)) 0) as [Z|D].
  - right. intros b B. split; intros P; [pose proof (det_of_inverse a b e A B E P) as M|pose proof (det_of_inverse b a e B A E P) as M]; rewrite Z in M; lra.
  - left. destruct (invert_two_sided n a N A D) as [i [e' [I' [E' [S [P _]]]]]]. congruence.
Qed.
End Sized.
