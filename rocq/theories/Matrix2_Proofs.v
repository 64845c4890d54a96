(** * Matrices of every shape: access, sums, products, resizing, comparison (C23, C120 - C123) *)
From Coq Require Import ZArith QArith Qreals Reals Lra Lia List Bool.
From Verif Require Import Arith Outcome ColorModel MatrixModel RArith Laws Spec_Matrix Matrix_Proofs.
Import ListNotations.
Local Open Scope R_scope.

(** ** Access *)
Lemma access_in r c (m : matrix R) i j : rect r c m -> (i < r)%nat -> (j < c)%nat ->
  access m (Z.of_nat i) (Z.of_nat j) = Ok (entry m i j).
Proof.
  intros W Hi Hj. unfold access. pose proof W as [Er [Ec _]]. rewrite Er, Ec.
  destruct (Z.leb_spec (Z.of_nat r) (Z.of_nat i)); [lia|]. destruct (Z.leb_spec (Z.of_nat c) (Z.of_nat j)); [lia|].
  destruct (Z.ltb_spec (Z.of_nat i) 0); [lia|]. destruct (Z.ltb_spec (Z.of_nat j) 0); [lia|]. cbn [orb].
  rewrite !Nat2Z.id. apply (el_ok r c); auto.
Qed.
Lemma access_row r c (m : matrix R) i j : rect r c m -> (Z.of_nat r <= i <= 38)%Z ->
  access m i j = Throw (by_value out_of_range).
Proof.
  intros [Er _] Hi. unfold access. rewrite Er. destruct (Z.leb_spec (Z.of_nat r) i); [|lia].
  unfold thrown. destruct (Nat.leb_spec (Z.to_nat i) 38); [reflexivity|lia].
Qed.
Lemma access_column r c (m : matrix R) i j : rect r c m -> (i < Z.of_nat r)%Z -> (Z.of_nat c <= j <= 41)%Z ->
  access m i j = Throw (by_value out_of_range).
Proof.
  intros [Er [Ec _]] Hi Hj. unfold access. rewrite Er, Ec. destruct (Z.leb_spec (Z.of_nat r) i); [lia|].
  destruct (Z.leb_spec (Z.of_nat c) j); [|lia]. unfold thrown. destruct (Nat.leb_spec (Z.to_nat j) 41); [reflexivity|lia].
Qed.
Lemma access_negative r c (m : matrix R) i j : rect r c m -> (i < Z.of_nat r)%Z -> (j < Z.of_nat c)%Z ->
  (i < 0 \/ j < 0)%Z -> access m i j = Undef.
Proof.
  intros [Er [Ec _]] Hi Hj N. unfold access. rewrite Er, Ec. destruct (Z.leb_spec (Z.of_nat r) i); [lia|].
  destruct (Z.leb_spec (Z.of_nat c) j); [lia|].
  destruct (Z.ltb_spec i 0); [reflexivity|]. destruct (Z.ltb_spec j 0); [reflexivity|lia].
Qed.
Lemma access_large r c (m : matrix R) i j : rect r c m ->
  (Z.of_nat r <= i -> 38 < i -> access m i j = Undef)%Z /\
  (i < Z.of_nat r -> Z.of_nat c <= j -> 41 < j -> access m i j = Undef)%Z.
Proof.
  intros [Er [Ec _]]. unfold access. rewrite Er, Ec. split; intros.
  - destruct (Z.leb_spec (Z.of_nat r) i); [|lia]. unfold thrown. destruct (Nat.leb_spec (Z.to_nat i) 38); [lia|reflexivity].
  - destruct (Z.leb_spec (Z.of_nat r) i); [lia|]. destruct (Z.leb_spec (Z.of_nat c) j); [|lia].
    unfold thrown. destruct (Nat.leb_spec (Z.to_nat j) 41); [lia|reflexivity].
Qed.

(** ** Loops that fail *)
Lemma build_from_fail {X} (e : outcome X) n : forall s (f : nat -> outcome X) (g : nat -> X) k, (s <= k < s + n)%nat ->
  (forall i, (s <= i < k)%nat -> f i = Ok (g i)) -> f k = e -> (forall x, e <> Ok x) ->
  build_from s n f = match e with Ok _ => Undef | Throw x => Throw x | Undef => Undef | Diverge => Diverge end.
Proof.
  induction n as [|n IH]; intros s f g k K H E N; [lia|]. cbn [build_from].
  destruct (Nat.eq_dec s k) as [->|D].
  - rewrite E. destruct e; cbn [obind]; try reflexivity. destruct (N a eq_refl).
  - rewrite H by lia. cbn [obind]. rewrite (IH (S s) f g k) by (auto; try lia; intros; apply H; lia).
    destruct e; reflexivity.
Qed.
Definition failed {A B} (e : outcome A) : outcome B :=
  match e with Ok _ => Undef | Throw x => Throw x | Undef => Undef | Diverge => Diverge end.
(** the first failing entry, in the order of the loops, decides *)
Lemma mbuild_fail (e : outcome R) r c (f : nat -> nat -> outcome R) g i j : (i < r)%nat -> (j < c)%nat ->
  (forall p q, (p < i)%nat -> (q < c)%nat -> f p q = Ok (g p q)) -> (forall q, (q < j)%nat -> f i q = Ok (g i q)) ->
  f i j = e -> (forall x, e <> Ok x) -> mbuild r c f = failed e.
Proof.
  intros Hi Hj A B E N. unfold mbuild, build.
  rewrite (build_from_fail (failed e) r 0 _ (fun p => map (g p) (seq 0 c)) i).
  - destruct e; try reflexivity. 
  - lia.
  - intros p Hp. apply build_from_ok. intros q Hq. apply A; lia.
  - rewrite (build_from_fail e c 0 _ (g i) j); [reflexivity|lia|intros; apply B; lia|exact E|exact N].
  - intros x. destruct e; cbn; discriminate.
Qed.

(** ** Sums of matrices of different shapes *)
Definition ew (add : bool) (x y : R) : R := if add then x + y else x - y.
Definition mop (add : bool) (a b : matrix R) : outcome (matrix R) := if add then madd a b else msub a b.
Lemma mop_ok add r c p q a b : rect r c a -> rect p q b -> (r <= p)%nat -> (c <= q)%nat ->
  mop add a b = Ok (mk r c (fun i j => ew add (entry a i j) (entry b i j))).
Proof.
  intros A B Hr Hc. assert (forall i j, (i < r)%nat -> (j < c)%nat -> el (m_values a) i j = Ok (entry a i j) /\ at_ b i j = Ok (entry b i j)) as X.
  { intros i j Hi Hj. split; [apply (el_ok r c); auto|apply (at_ok p q); auto; lia]. }
  unfold mop, madd, msub, ew. rectR A. destruct add; apply mbuild_ok; intros i j Hi Hj; destruct (X i j Hi Hj) as [-> ->]; reflexivity.
Qed.
Lemma mop_fail add r c p q a b : rect r c a -> rect p q b -> (1 <= r)%nat -> (1 <= c)%nat -> (p <= 38)%nat -> (q <= 41)%nat ->
  (p < r \/ q < c)%nat -> mop add a b = Throw (by_value out_of_range).
Proof.
  intros A B R1 C1 P Q D.
  assert (forall i j, (i < r)%nat -> (j < c)%nat -> el (m_values a) i j = Ok (entry a i j)) as X by (intros; apply (el_ok r c); auto).
  assert (forall i j, (i < p)%nat -> (j < q)%nat -> at_ b i j = Ok (entry b i j)) as Y by (intros; apply (at_ok p q); auto).
  pose proof B as [Ep [Eq _]].
  set (f := fun i j => let! x := el (m_values a) i j in let! y := at_ b i j in Ok (ew add x y)).
  assert (mop add a b = mbuild r c f) as -> by (unfold mop, madd, msub, f, ew; rectR A; destruct add; reflexivity).
  change (Throw (by_value out_of_range)) with (@failed R (matrix R) (Throw (by_value out_of_range))).
  set (g := fun i j => ew add (entry a i j) (entry b i j)).
  assert (forall i j, (i < r)%nat -> (j < c)%nat -> (i < p)%nat -> (j < q)%nat -> f i j = Ok (g i j)) as G.
  { intros. unfold f. rewrite X by auto. cbn [obind]. rewrite Y by auto. reflexivity. }
  destruct (Nat.lt_ge_cases q c) as [L|L].
  - destruct (Nat.eq_dec p 0) as [Z0|Z0].
    + apply (mbuild_fail _ r c f g 0 0); try lia; [|discriminate]. unfold f. rewrite X by lia. cbn [obind]. unfold at_. rewrite Ep, Z0. reflexivity.
    + apply (mbuild_fail _ r c f g 0 q); try lia; [|  |discriminate].
      * intros; apply G; lia.
      * unfold f. rewrite X by lia. cbn [obind]. unfold at_. rewrite Ep, Eq. destruct (Nat.leb_spec p 0); [lia|]. rewrite Nat.leb_refl.
        unfold thrown. destruct (Nat.leb_spec q 41); [reflexivity|lia].
  - apply (mbuild_fail _ r c f g p 0); try lia; [| |discriminate].
    + intros; apply G; lia.
    + unfold f. rewrite X by lia. cbn [obind]. unfold at_. rewrite Ep, Nat.leb_refl. unfold thrown. destruct (Nat.leb_spec p 38); [reflexivity|lia].
Qed.
Lemma sums_ok r c p q a b : rect r c a -> rect p q b -> (r <= p)%nat -> (c <= q)%nat ->
  (exists s, madd a b = Ok s /\ rect r c s /\ forall i j, (i < r)%nat -> (j < c)%nat -> entry s i j = entry a i j + entry b i j) /\
  (exists s, msub a b = Ok s /\ rect r c s /\ forall i j, (i < r)%nat -> (j < c)%nat -> entry s i j = entry a i j - entry b i j).
Proof.
  intros A B Hr Hc. pose proof (mop_ok true r c p q a b A B Hr Hc) as T. pose proof (mop_ok false r c p q a b A B Hr Hc) as S.
  cbn [mop ew] in *. split; eexists; (split; [eassumption|]); (split; [apply rect_mk|intros; now rewrite entry_mk]).
Qed.
Lemma sums_fail r c p q a b : rect r c a -> rect p q b -> (1 <= r)%nat -> (1 <= c)%nat -> (p <= 38)%nat -> (q <= 41)%nat ->
  (p < r \/ q < c)%nat -> madd a b = Throw (by_value out_of_range) /\ msub a b = Throw (by_value out_of_range).
Proof. intros. split; [apply (mop_fail true r c p q)|apply (mop_fail false r c p q)]; auto. Qed.

Lemma scalar_any r c a s i j : rect r c a -> (i < r)%nat -> (j < c)%nat ->
  (exists m, madds a s = Ok m /\ rect r c m /\ entry m i j = entry a i j + s) /\
  (exists m, msubs a s = Ok m /\ rect r c m /\ entry m i j = entry a i j - s) /\
  (exists m, mmuls a s = Ok m /\ rect r c m /\ entry m i j = entry a i j * s) /\
  (s <> 0 -> exists m, mdivs a s = Ok m /\ rect r c m /\ entry m i j = entry a i j / s).
Proof.
  intros A Hi Hj.
  assert (forall op, mscalar op a s = Ok (mk r c (fun i j => op (entry a i j) s))) as X.
  { intros op. unfold mscalar. rectR A. apply mbuild_ok. intros p q Hp Hq. rewrite (el_ok r c) by auto. reflexivity. }
  unfold madds, msubs, mmuls, mdivs. rewrite !X.
  repeat split; intros; eexists; (split; [reflexivity|]); (split; [apply rect_mk|]); rewrite entry_mk by auto; reflexivity.
Qed.

(** ** Products *)
(** a square matrix times any matrix with as many rows *)
Lemma product_ok n p a b : rect n n a -> rect n p b ->
  exists s, mmul a b = Ok s /\ rect n p s /\ forall i j, (i < n)%nat -> (j < p)%nat -> entry s i j = rsum n (fun k => entry a i k * entry b k j).
Proof.
  intros A B. exists (mk n p (fun i j => rsum n (fun k => entry a i k * entry b k j))). split; [|split; [apply rect_mk|intros; now rewrite entry_mk]].
  unfold mmul. rectR B. apply mbuild_ok. intros i j Hi Hj. apply sum_to_ok. intros k Hk.
  rewrite (el_ok n n) by auto. cbn [obind]. rewrite (at_ok n p) by auto. reflexivity.
Qed.
Lemma sum_from_undef n : forall acc s (f : nat -> outcome R) k, (s <= k < s + n)%nat ->
  (forall i, (s <= i < k)%nat -> exists x, f i = Ok x) -> f k = Undef -> sum_from (AF := RArith) acc s n f = Undef.
Proof.
  induction n as [|n IH]; intros acc s f k K H E; [lia|]. cbn [sum_from]. destruct (Nat.eq_dec s k) as [->|D]; [rewrite E; reflexivity|].
  destruct (H s ltac:(lia)) as [x ->]. cbn [obind]. apply (IH _ (S s) f k); auto; [lia|]. intros; apply H; lia.
Qed.
Lemma el_row_out r c (m : matrix R) i j : rect r c m -> (r <= i)%nat -> el (m_values m) i j = Undef.
Proof. intros [_ [_ [L _]]] H. unfold el. destruct (nth_error (m_values m) i) eqn:E; [|reflexivity]. assert (i < length (m_values m))%nat by (apply nth_error_Some; congruence). lia. Qed.
Lemma el_col_out r c (m : matrix R) i j : rect r c m -> (c <= j)%nat -> el (m_values m) i j = Undef.
Proof.
  intros [_ [_ [L W]]] H. unfold el. destruct (nth_error (m_values m) i) as [row|] eqn:E; [|reflexivity].
  apply nth_error_In, W in E. destruct (nth_error row j) eqn:F; [|reflexivity]. assert (j < length row)%nat by (apply nth_error_Some; congruence). lia.
Qed.
(** an r x n matrix with r < n times an n x p matrix: rows that do not exist are read *)
Lemma product_wide r n p a b : rect r n a -> rect n p b -> (r < n)%nat -> (1 <= p)%nat -> mmul a b = Undef.
Proof.
  intros A B L P. unfold mmul. rectR B. change Undef with (@failed R (matrix R) Undef).
  apply (mbuild_fail _ n p _ (fun i j => rsum n (fun k => entry a i k * entry b k j)) r 0); try lia; [| |discriminate].
  - intros i j Hi Hj. apply sum_to_ok. intros k Hk. rewrite (el_ok r n) by (auto; lia). cbn [obind]. rewrite (at_ok n p) by auto. reflexivity.
  - unfold sum_to. apply (sum_from_undef n _ 0 _ 0); [lia|intros; lia|]. rewrite (el_row_out r n) by auto. reflexivity.
Qed.
(** an r x n matrix with r > n times an n x p matrix: the result has n rows instead of r *)
Lemma product_tall r n p a b s : rect r n a -> rect n p b -> (n < r)%nat -> mmul a b = Ok s -> rect n p s.
Proof.
  intros A B L. unfold mmul. rectR B. intros E. 
  rewrite (mbuild_ok n p _ (fun i j => rsum n (fun k => entry a i k * entry b k j))) in E.
  - injection E as <-. apply rect_mk.
  - intros i j Hi Hj. apply sum_to_ok. intros k Hk. rewrite (el_ok r n) by (auto; lia). cbn [obind]. rewrite (at_ok n p) by auto. reflexivity.
Qed.
Lemma product_tall_ok r n p a b : rect r n a -> rect n p b -> (n < r)%nat -> exists s, mmul a b = Ok s /\ rect n p s.
Proof.
  intros A B L. exists (mk n p (fun i j => rsum n (fun k => entry a i k * entry b k j))). split; [|apply rect_mk].
  unfold mmul. rectR B. apply mbuild_ok. intros i j Hi Hj. apply sum_to_ok. intros k Hk.
  rewrite (el_ok r n) by (auto; lia). cbn [obind]. rewrite (at_ok n p) by auto. reflexivity.
Qed.

(** ** Transposition of a matrix that is not square *)
Lemma transpose_undef r c (m : matrix R) : rect r c m -> r <> c -> (1 <= r)%nat -> (1 <= c)%nat -> transpose m = Undef.
Proof.
  intros W D R1 C1. unfold transpose. rectR W. change Undef with (@failed R (matrix R) Undef).
  destruct (Nat.lt_ge_cases r c) as [L|L].
  - apply (mbuild_fail _ r c _ (fun i j => entry m j i) 0 r); try lia; [| |discriminate].
    + intros q Hq. apply (el_ok r c); auto; lia.
    + apply (el_row_out r c); auto.
  - apply (mbuild_fail _ r c _ (fun i j => entry m j i) c 0); try lia; [| |discriminate].
    + intros p q Hp Hq. apply (el_ok r c); auto; lia.
    + apply (el_col_out r c); auto.
Qed.

(** ** Filling from a list *)
Lemma data_wide r c l : length l = (r * c)%nat -> (r <= c)%nat ->
  exists m, matrix_data r c l = Ok m /\ rect r c m /\ forall i j, (i < r)%nat -> (j < c)%nat -> entry m i j = nth (i * r + j) l 0.
Proof.
  intros L H. exists (mk r c (fun i j => nth (i * r + j) l 0)). split; [|split; [apply rect_mk|intros; now rewrite entry_mk]].
  unfold matrix_data, insert, matrix_zero. cbn [m_rows m_cols]. rewrite L, Nat.eqb_refl. apply mbuild_ok. intros i j Hi Hj.
  rewrite (nth_error_nth' _ 0) by nia. reflexivity.
Qed.
Lemma data_tall r c l : length l = (r * c)%nat -> (c < r)%nat -> (1 <= c)%nat -> matrix_data r c l = Undef.
Proof.
  intros L H C1. unfold matrix_data, insert, matrix_zero. cbn [m_rows m_cols]. rewrite L, Nat.eqb_refl. transitivity (@failed R (matrix R) Undef); [|reflexivity].
  apply (mbuild_fail _ r c _ (fun i j => nth (i * r + j) l 0) c 0); try lia; [| |discriminate].
  - intros p q Hp Hq. rewrite (nth_error_nth' _ 0) by nia. reflexivity.
  - destruct (nth_error l (c * r + 0)) eqn:E; [|reflexivity]. assert (c * r + 0 < length l)%nat by (apply nth_error_Some; congruence). nia.
Qed.
Lemma data_wrong_size r c l : length l <> (r * c)%nat -> matrix_data r c l = Ok (matrix_zero r c).
Proof. intros D. unfold matrix_data, insert. destruct (Nat.eqb_spec (length l) (m_rows (matrix_zero (F := R) r c) * m_cols (matrix_zero (F := R) r c))) as [E|]; [|reflexivity]. cbn in E. contradiction. Qed.
Lemma rect_const {F} r c (v : F) : rect r c (Mat r c (repeat (repeat v c) r)).
Proof. repeat split; cbn; [apply repeat_length|]. intros row I. apply repeat_spec in I. subst. apply repeat_length. Qed.
Lemma nth_repeat_lt {X} (v d : X) n i : (i < n)%nat -> nth i (repeat v n) d = v.
Proof. revert i. induction n as [|n IH]; intros i H; [lia|]. destruct i; [reflexivity|]. cbn. apply IH. lia. Qed.
Lemma entry_const r c v i j : (i < r)%nat -> (j < c)%nat -> entry (Mat r c (repeat (repeat v c) r)) i j = v.
Proof. intros. unfold entry. cbn [m_values]. rewrite nth_repeat_lt by auto. now apply nth_repeat_lt. Qed.
Lemma constant_ok r c v : rect r c (matrix_const r c v) /\ rect r c (matrix_zero (F := R) r c) /\
  forall i j, (i < r)%nat -> (j < c)%nat -> entry (matrix_const r c v) i j = v /\ entry (matrix_zero r c) i j = 0.
Proof.
  split; [apply rect_const|]. split; [apply rect_const|]. intros i j Hi Hj. unfold matrix_const, matrix_zero. rewrite !entry_const by auto.
  now rewrite fzR.
Qed.
Lemma fill_ok r c (m : matrix R) v : rect r c m -> exists m', fill m v = Ok m' /\ rect r c m' /\ forall i j, (i < r)%nat -> (j < c)%nat -> entry m' i j = v.
Proof.
  intros W. exists (mk r c (fun _ _ => v)). split; [|split; [apply rect_mk|intros; now rewrite entry_mk]].
  unfold fill. rectR W. now apply mbuild_ok.
Qed.

(** ** A matrix times a vector *)
Lemma mulvec_tall r c (m : matrix R) v : rect r c m -> length v = c -> (c < r)%nat -> (1 <= c)%nat -> mulvec m v = Undef.
Proof.
  intros [Er [Ec _]] L H C1. unfold mulvec. rewrite Er, Ec, L. destruct (Nat.ltb_spec c r); [|lia]. destruct (Nat.ltb_spec 0 c); [|lia]. reflexivity.
Qed.
Lemma mulvec_wide r c (m : matrix R) v : rect r c m -> length v = c -> (r <= c)%nat ->
  exists w, mulvec m v = Ok w /\ length w = c /\
    forall i, (i < c)%nat -> nth i w 0 = if Nat.ltb i r then rsum c (fun j => entry m i j * nth j v 0) else 0.
Proof.
  intros W L H. pose proof W as [Er [Ec _]]. exists (map (fun i => if Nat.ltb i r then rsum c (fun j => entry m i j * nth j v 0) else 0) (seq 0 c)).
  split; [|split; [now rewrite map_length, seq_length|intros; now rewrite nth_map_seq]].
  unfold mulvec. rewrite Er, Ec, L. destruct (Nat.ltb_spec c r); [lia|]. cbn [andb]. apply build_ok. intros i Hi.
  destruct (Nat.ltb_spec i r) as [Hr|Hr]; [|now rewrite fzR].
  apply sum_to_ok. intros j Hj. rewrite (el_ok r c) by auto. cbn [obind]. rewrite (nth_error_nth' _ 0) by lia. reflexivity.
Qed.

(** ** Resizing *)
Lemma resize_ok r c (m : matrix R) r' c' v : rect r c m ->
  exists m', resize m r' c' v = Ok m' /\ rect r' c' m' /\
    forall i j, (i < r')%nat -> (j < c')%nat -> entry m' i j = if Nat.ltb i r && Nat.ltb j c then entry m i j else v.
Proof.
  intros W. exists (mk r' c' (fun i j => if Nat.ltb i r && Nat.ltb j c then entry m i j else v)).
  split; [|split; [apply rect_mk|intros; now rewrite entry_mk]].
  unfold resize. rectR W. apply mbuild_ok. intros i j Hi Hj.
  destruct (Nat.leb_spec r i), (Nat.ltb_spec i r); try lia; cbn [orb andb]; [reflexivity|].
  destruct (Nat.leb_spec c j), (Nat.ltb_spec j c); try lia; [reflexivity|]. now apply (el_ok r c).
Qed.
Lemma resize_same r c (m : matrix R) v : rect r c m -> resize m r c v = Ok m.
Proof.
  intros W. destruct (resize_ok r c m r c v W) as [m' [-> [W' E]]]. f_equal. apply (mat_ext r c); auto. intros i j Hi Hj. rewrite E by auto.
  destruct (Nat.ltb_spec i r); [|lia]. destruct (Nat.ltb_spec j c); [reflexivity|lia].
Qed.
Lemma resize_back r c (m : matrix R) r' c' v w : rect r c m -> (r <= r')%nat -> (c <= c')%nat ->
  exists m', resize m r' c' v = Ok m' /\ resize m' r c w = Ok m.
Proof.
  intros W Hr Hc. destruct (resize_ok r c m r' c' v W) as [m' [E [W' X]]]. exists m'. split; [exact E|].
  destruct (resize_ok r' c' m' r c w W') as [m2 [-> [W2 Y]]]. f_equal. apply (mat_ext r c); auto. intros i j Hi Hj. rewrite Y by auto.
  destruct (Nat.ltb_spec i r'); [|lia]. destruct (Nat.ltb_spec j c'); [|lia]. cbn [andb]. rewrite X by lia.
  destruct (Nat.ltb_spec i r); [|lia]. destruct (Nat.ltb_spec j c); [reflexivity|lia].
Qed.

(** ** Assignment, copies, compound assignment *)
Lemma massign_ok r c this (m : matrix R) : rect r c m -> massign this m = Ok m.
Proof.
  intros W. unfold massign. rectR W. rewrite (mbuild_ok r c _ (entry m)).
  - f_equal. symmetry. now apply mk_entry.
  - intros i j Hi Hj. now apply (at_ok r c).
Qed.
Lemma mcopy_ok (m : matrix R) : mcopy m = m.
Proof. now destruct m. Qed.
Lemma compound_ok n a b : rect n n a -> rect n n b ->
  madd_eq a b = madd a b /\ msub_eq a b = msub a b /\ mmul_eq a b = mmul a b.
Proof.
  intros A B. unfold madd_eq, msub_eq, mmul_eq. rewrite (madd_ok n), (msub_ok n), (mmul_ok n) by auto. cbn [obind].
  rewrite !(massign_ok n n) by apply rect_mk. auto.
Qed.

(** ** Comparison, for any arithmetic *)
Section Eq.
Context {F : Type} {AF : Arith F}.
Lemma comps_equal_Forall2 (l r : list F) : comps_equal l r = true <-> Forall2 (fun x y => feq x y = true) l r.
Proof.
  revert r. induction l as [|a l IH]; intros [|b r]; cbn [comps_equal]; split; intros H; try discriminate H; try (inversion H; fail); try constructor; try reflexivity.
  - destruct (feq a b); [reflexivity|discriminate H].
  - apply IH. destruct (feq a b); [exact H|discriminate H].
  - inversion H; subst. match goal with E : feq a b = true |- _ => rewrite E end. now apply IH.
Qed.
Lemma rows_eqb_Forall2 (a b : list (list F)) : rows_eqb a b = true <-> Forall2 (Forall2 (fun x y => feq x y = true)) a b.
Proof.
  revert b. induction a as [|x a IH]; intros [|y b]; cbn [rows_eqb]; split; intros H; try discriminate H; try (inversion H; fail); try constructor; try reflexivity.
  - apply andb_prop in H. now apply comps_equal_Forall2.
  - apply andb_prop in H. now apply IH.
  - inversion H; subst. apply andb_true_intro. split; [now apply comps_equal_Forall2|now apply IH].
Qed.
Lemma meq_iff (a b : matrix F) : meq a b = true <->
  m_rows a = m_rows b /\ m_cols a = m_cols b /\ Forall2 (Forall2 (fun x y => feq x y = true)) (m_values a) (m_values b).
Proof.
  unfold meq. rewrite !andb_true_iff, !Nat.eqb_eq, rows_eqb_Forall2. tauto.
Qed.
End Eq.
Lemma Forall2_eq {A} (P : A -> A -> Prop) : (forall x y, P x y <-> x = y) -> forall l r, Forall2 P l r <-> l = r.
Proof.
  intros H. induction l as [|a l IH]; intros [|b r]; split; intros E; try discriminate E; try (inversion E; fail); try constructor; try reflexivity.
  - inversion E; subst. f_equal; [now apply H|now apply IH].
  - injection E as -> _. now apply H.
  - injection E as _ ->. now apply IH.
Qed.
Lemma meq_R (a b : matrix R) : meq a b = true <-> a = b.
Proof.
  rewrite meq_iff. assert (forall x y : R, feq x y = true <-> x = y) as E by (intros; cbn [feq RArith]; apply Reqb_true).
  rewrite (Forall2_eq _ (Forall2_eq _ E)). destruct a, b; cbn. split; [intros [-> [-> ->]]; reflexivity|intros X; injection X; auto].
Qed.
