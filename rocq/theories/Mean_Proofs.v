(** * Averages of 8-bit colours in binary32 (C166, C167) *)
From Coq Require Import ZArith QArith Reals Lra Lia List Bool Permutation.
From Flocq Require Import Core IEEE754.BinarySingleNaN.
From Verif Require Import Arith Outcome ColorModel GammaModel MatrixModel SpaceModel Heap Converter Calculation F32 F32Facts RArith
  Spec Spec32 Laws NormalForms Alpha8 Core_Proofs Core2_Proofs Core3_Proofs Core4_Proofs Spec_Matrix Spec_Conv Spec_Calc
  Conv_Proofs Conv2_Proofs Conv3_Proofs Run_Proofs Round_Proofs Round2_Proofs Error_Proofs Error2_Proofs Error7_Proofs Error8_Proofs Spec_Error
  Calc_Proofs Calc3_Proofs Calc4_Proofs Spec_Byte.
Import ListNotations.
Local Open Scope R_scope.

Section Mean.
Variable o : oracle.
Local Notation "$ n" := (@fz f32 (F32 o) n) (at level 0, n at level 0, format "$ n").
Local Notation "x +. y" := (@fadd f32 (F32 o) x y) (at level 50, left associativity).
Local Notation "x *. y" := (@fmul f32 (F32 o) x y) (at level 40, left associativity).
Local Notation "x /. y" := (@fdiv f32 (F32 o) x y) (at level 40, left associativity).
Local Notation alpha := (@alpha f32 (F32 o)).
Local Notation fofZ := (@fofZ f32 (F32 o)).
Local Notation wf_color := (@wf_color f32 (F32 o)).

(** ** Exact sums *)
Definition part (i : nat) (c : color f32) : f32 := nth i (comps c) $0.
Definition counted (f : color f32 -> f32) (cs : list (color f32)) (bs : list Z) : Prop :=
  Forall2 (fun c n => (0 <= n <= 255)%Z /\ is_value (f c) (IZR n)) cs bs.
Definition grow (f : color f32 -> f32) (cs : list (color f32)) (x y : f32) : Prop :=
  forall bs k, counted f cs bs -> (0 <= k)%Z -> (k + total bs <= 16777216)%Z -> is_value x (IZR k) -> is_value y (IZR (k + total bs)).

Lemma total_pos f cs bs : counted f cs bs -> (0 <= total bs <= 255 * Z.of_nat (length bs))%Z.
Proof. induction 1 as [|c n cs bs [Hn _] _ IH]; cbn [total fold_right length]; [lia|]. fold (total bs). lia. Qed.
Lemma grow_nil f x : grow f [] x x.
Proof. intros bs k C P L V. inversion C; subst. cbn. rewrite Z.add_0_r. exact V. Qed.
Lemma add_exact x y a b : is_value x (IZR a) -> is_value y (IZR b) -> (0 <= a)%Z -> (0 <= b)%Z -> (a + b <= 16777216)%Z ->
  is_value (x +. y) (IZR (a + b)).
Proof.
  intros [Fx Vx] [Fy Vy] A B L. change (B2R x) with (fval x) in Vx. change (B2R y) with (fval y) in Vy.
  destruct (Bplus_ok x y (a + b) (a + b) Fx Fy) as [Fs Vs]; try (unfold small; lia).
  { rewrite Vx, Vy, plus_IZR. lra. }
  split; [exact Fs|]. change (fval (Bplus mode_NE x y) = IZR (a + b)). rewrite Vs, Vx, Vy, <- plus_IZR. apply rnd32_int. unfold small; lia.
Qed.
Lemma grow_cons f c cs x y : grow f cs (x +. f c) y -> grow f (c :: cs) x y.
Proof.
  intros G bs k C P L V. inversion C as [|? n ? bs' [Hn Vn] C']; subst. cbn [total fold_right] in * . fold (total bs') in * .
  pose proof (total_pos f _ _ C') as T. rewrite Z.add_assoc. apply G; try exact C'; try lia.
  apply add_exact; try assumption; lia.
Qed.

(** ** The quotient *)
Lemma size_val n : (0 <= n <= 16777216)%Z -> is_value (fofZ n) (IZR n).
Proof.
  intros B. cbn [Arith.fofZ F32]. assert (E : F2R (Float radix2 n 0) = IZR n) by (unfold F2R; cbn; ring).
  assert (S : small n) by (unfold small; lia).
  destruct (normalize_exact n 0 false) as [V Fn].
  - rewrite E. apply format_small, S.
  - rewrite E, Rabs_pos_eq by (apply (IZR_le 0); lia). apply Rle_lt_trans with (IZR 16777216); [apply IZR_le; lia|].
    change (bpow radix2 128) with (IZR (2 ^ 128)). apply IZR_lt. reflexivity.
  - split; [exact Fn|]. change (fval (normalize n 0 false) = IZR n). rewrite V, E. reflexivity.
Qed.

Lemma mean_bounds s n : (0 < n)%Z -> (0 <= s <= 255 * n)%Z -> 0 <= IZR s / IZR n <= 255.
Proof.
  intros N B. assert (0 < IZR n) by (apply (IZR_lt 0); lia). assert (0 <= IZR s) by (apply (IZR_le 0); lia).
  assert (IZR s <= 255 * IZR n) by (rewrite <- mult_IZR; apply IZR_le; lia). split.
  - apply Rmult_le_pos; [lra|left; apply Rinv_0_lt_compat; lra].
  - apply (Rmult_le_reg_r (IZR n)); [lra|]. unfold Rdiv. rewrite Rmult_assoc, Rinv_l by lra. lra.
Qed.

Lemma quot_val x y s n : is_value x (IZR s) -> is_value y (IZR n) -> (0 < n)%Z -> (0 <= s <= 255 * n)%Z ->
  is_value (x /. y) (rnd32 (IZR s / IZR n)) /\ 0 <= rnd32 (IZR s / IZR n) <= 255.
Proof.
  intros [Fx Vx] [Fy Vy] N B. change (B2R x) with (fval x) in Vx. change (B2R y) with (fval y) in Vy.
  assert (P : 0 < IZR n) by (apply (IZR_lt 0); lia). pose proof (mean_bounds s n N B) as Q.
  destruct (Bdiv_ok x y 0 255 Fx Fy) as [Fs Vs]; try (unfold small; lia).
  { rewrite Vy. lra. } { rewrite Vx, Vy. exact Q. }
  split; [|apply rnd32_bounds; try (unfold small; lia); exact Q].
  split; [exact Fs|]. change (fval (Bdiv mode_NE x y) = rnd32 (IZR s / IZR n)). rewrite Vs, Vx, Vy. reflexivity.
Qed.
Lemma keep255 x v : is_value x v -> 0 <= v <= 255 -> is_value (@c255 f32 (F32 o) x) v.
Proof.
  intros [Fx Vx] B. change (B2R x) with (fval x) in Vx. destruct (clamp_val o x 0 255) as [Fc Vc]; try (unfold small; lia); try exact Fx.
  split; [exact Fc|]. unfold c255. rewrite Vc, Vx. rewrite Rmin_left by lra. apply Rmax_left. lra.
Qed.
Lemma keep1 x v : is_value x v -> 0 <= v <= 1 -> is_value (@c01 f32 (F32 o) x) v.
Proof.
  intros [Fx Vx] B. change (B2R x) with (fval x) in Vx. destruct (clamp_val o x 0 1) as [Fc Vc]; try (unfold small; lia); try exact Fx.
  split; [exact Fc|]. unfold c01. rewrite Vc, Vx. rewrite Rmin_left by lra. apply Rmax_left. lra.
Qed.

Lemma mean_err s n : (0 < n)%Z -> (0 <= s <= 255 * n)%Z -> Rabs (rnd32 (IZR s / IZR n) - IZR s / IZR n) <= u * (IZR s / IZR n) + tiny.
Proof. intros N B. pose proof (mean_bounds s n N B). eapply Rle_trans; [apply rnd_err|]. rewrite Rabs_pos_eq by lra. lra. Qed.

Lemma mean_whole s n : (0 < n)%Z -> (0 <= s <= 255 * n)%Z -> (n | s)%Z -> IZR s / IZR n = IZR (s / n) /\ (0 <= s / n <= 255)%Z.
Proof.
  intros N B [k E]. subst s. rewrite Z.div_mul by lia. split; [|nia]. rewrite mult_IZR. field. apply (IZR_neq n 0). lia.
Qed.
Lemma mean_broken s n k : (0 < n <= 65793)%Z -> (0 <= s <= 255 * n)%Z -> ~ (n | s)%Z -> rnd32 (IZR s / IZR n) <> IZR k.
Proof.
  intros N B D E. assert (N0 : (0 < n)%Z) by lia. pose proof (mean_err s n N0 B) as Er. rewrite E in Er.
  assert (P : 0 < IZR n) by (apply (IZR_lt 0); lia). assert (Pn : IZR n <= 65793) by (apply IZR_le; lia).
  assert (Hs : IZR s <= 255 * IZR n) by (rewrite <- mult_IZR; apply IZR_le; lia).
  assert (s <> 255 * n)%Z by (intros ->; apply D; exists 255%Z; ring).
  assert (Hs' : IZR s <= 255 * IZR n - 1) by (rewrite <- mult_IZR, <- minus_IZR; apply IZR_le; lia).
  assert (K : IZR k * IZR n - IZR s <= -1 \/ 1 <= IZR k * IZR n - IZR s).
  { rewrite <- mult_IZR, <- minus_IZR. destruct (Z_lt_le_dec (k * n) s) as [C|C].
    - left. apply IZR_le. lia.
    - right. apply IZR_le. assert (k * n <> s)%Z by (intros <-; apply D; exists k; ring). lia. }
  apply Rabs_le_inv in Er. destruct Er as [E1 E2].
  apply (Rmult_le_compat_r (IZR n)) in E1; [|lra]. apply (Rmult_le_compat_r (IZR n)) in E2; [|lra].
  replace ((IZR k - IZR s / IZR n) * IZR n) with (IZR k * IZR n - IZR s) in * by (field; lra).
  replace (- (u * (IZR s / IZR n) + tiny) * IZR n) with (- (u * IZR s + tiny * IZR n)) in E1 by (field; lra).
  replace ((u * (IZR s / IZR n) + tiny) * IZR n) with (u * IZR s + tiny * IZR n) in E2 by (field; lra).
  assert (0 <= u /\ u * IZR s <= u * 16777214) as [_ U]. { split; [num|]. apply Rmult_le_compat_l; [num|lra]. }
  assert (T : tiny * IZR n <= tiny * 65793) by (apply Rmult_le_compat_l; [num|lra]).
  assert (u * 16777214 + tiny * 65793 < 1) by num. lra.
Qed.

Lemma mean_done x y f cs bs : counted f cs bs -> is_value x (IZR (total bs)) -> is_value y (IZR (Z.of_nat (length bs))) ->
  (0 < Z.of_nat (length bs) <= 65793)%Z -> mean_byte bs (@c255 f32 (F32 o) (x /. y)).
Proof.
  intros C X Y N. pose proof (total_pos _ _ _ C) as T. set (n := Z.of_nat (length bs)) in * . set (s := total bs) in * .
  assert (N0 : (0 < n)%Z) by lia. destruct (quot_val x y s n X Y N0 T) as [Q B]. pose proof (keep255 _ _ Q B) as K.
  pose proof (mean_err s n N0 T) as Er. pose proof (mean_bounds s n N0 T) as MB.
  unfold mean_byte. fold n s. cbv zeta. split; [exact K|]. destruct K as [Fk Vk]. split; [|split].
  - split; [exact Fk|]. rewrite Vk. eapply Rle_trans; [exact Er|]. assert (u * (IZR s / IZR n) <= u * 255) by (apply Rmult_le_compat_l; [num|lra]). num.
  - intros D. destruct (mean_whole s n N0 T D) as [E W]. split; [exact Fk|]. rewrite Vk, E. apply rnd32_int. unfold small. lia.
  - intros D. split; [exact Fk|]. intros k. rewrite Vk. apply mean_broken; auto.
Qed.

Lemma mean_alpha_done x y f cs bs : counted f cs bs -> is_value x (IZR (total bs)) -> is_value y (IZR (Z.of_nat (length bs))) ->
  (0 < Z.of_nat (length bs) <= 65793)%Z -> mean_alpha bs (@c01 f32 (F32 o) (x /. y /. $255) *. $255).
Proof.
  intros C X Y N. pose proof (total_pos _ _ _ C) as T. set (n := Z.of_nat (length bs)) in * . set (s := total bs) in * .
  assert (N0 : (0 < n)%Z) by lia. destruct (quot_val x y s n X Y N0 T) as [Q B].
  pose proof (mean_err s n N0 T) as Er. pose proof (mean_bounds s n N0 T) as MB.
  unfold mean_alpha. fold n s. cbv zeta. set (v := IZR s / IZR n) in * . set (w := x /. y) in * . split.
  - destruct (fz_val o 255) as [F2 V2]; [unfold small; lia|]. destruct Q as [Fq Vq]. change (B2R w) with (fval w) in Vq. set (r := rnd32 v) in * .
    destruct (Bdiv_ok w $255 0 1 Fq F2) as [Fd Vd]; try (unfold small; lia); [rewrite V2; lra|rewrite V2, Vq; lra|]. rewrite Vq, V2 in Vd.
    assert (Bd : 0 <= rnd32 (r / 255) <= 1) by (apply rnd32_bounds; try (unfold small; lia); lra).
    assert (Ed : Rabs (rnd32 (r / 255) - r / 255) <= u + tiny). { eapply Rle_trans; [apply rnd_err|]. rewrite Rabs_pos_eq by lra. assert (u * (r / 255) <= u * 1) by (apply Rmult_le_compat_l; [num|lra]). lra. }
    destruct (keep1 (w /. $255) (rnd32 (r / 255))) as [Fc Vc]; [split; [exact Fd|exact Vd]|exact Bd|].
    set (c := @c01 f32 (F32 o) (w /. $255)) in * . change (B2R c) with (fval c) in Vc.
    destruct (Bmult_ok c $255 0 255 Fc F2) as [Fm Vm]; try (unfold small; lia); [rewrite V2, Vc; lra|]. rewrite Vc, V2 in Vm.
    set (t := rnd32 (r / 255)) in * . assert (Em : Rabs (rnd32 (t * 255) - t * 255) <= u * 255 + tiny).
    { eapply Rle_trans; [apply rnd_err|]. rewrite Rabs_pos_eq by lra. assert (u * (t * 255) <= u * 255) by (apply Rmult_le_compat_l; [num|lra]). lra. }
    split; [exact Fm|]. change (Rabs (fval (Bmult mode_NE c $255) - v) <= / 20000). rewrite Vm.
    assert (Er' : Rabs (r - v) <= u * 255 + tiny). { eapply Rle_trans; [exact Er|]. assert (u * v <= u * 255) by (apply Rmult_le_compat_l; [num|lra]). lra. }
    apply Rabs_le_inv in Ed. apply Rabs_le_inv in Em. apply Rabs_le_inv in Er'. apply Rabs_le. num.
  - intros D. destruct (mean_whole s n N0 T D) as [E W]. apply byte_scaled; [exact W|]. fold v in E. rewrite E in Q. rewrite rnd32_int in Q by (unfold small; lia). exact Q.
Qed.

(** ** The loops *)
Definition tail_ok (ia : bool) (a0 : f32) (cs : list (color f32)) (x y : f32) : Prop :=
  (ia = true -> grow alpha cs x y) /\ (ia = false -> (cs = [] -> y = x) /\ (cs <> [] -> y = a0)).
Lemma tail_nil ia a0 x : tail_ok ia a0 [] x x.
Proof. split; [intros _; apply grow_nil|]. intros _. split; [reflexivity|congruence]. Qed.
Lemma tail_cons ia a0 c cs x y : tail_ok ia a0 cs (if ia then x +. alpha c else a0) y -> tail_ok ia a0 (c :: cs) x y.
Proof.
  intros [A B]. split.
  - intros E. rewrite E in A. apply grow_cons, A, eq_refl.
  - intros E. specialize (B E). rewrite E in B. split; [discriminate|]. intros _. destruct B as [B1 B2]. destruct cs as [|d cs]; [auto|apply B2; discriminate].
Qed.

Lemma counted_at i cs bs : bytes_at i cs bs -> counted (part i) cs bs.
Proof.
  induction 1 as [|c n cs bs [Hn V] _ IH]; constructor; [|exact IH]. split; [exact Hn|]. unfold comp_sat in V. unfold part.
  destruct V as [x [E V]]. rewrite (nth_error_nth _ _ _ E). exact V.
Qed.
Lemma counted_alpha cs bs : alpha_bytes o cs bs -> counted alpha cs bs.
Proof. induction 1 as [|c n cs bs [Hn V] _ IH]; constructor; auto. Qed.
Lemma counted_length f cs bs : counted f cs bs -> length bs = length cs.
Proof. induction 1; cbn; congruence. Qed.

Lemma zero_val : is_value $0 (IZR 0).
Proof. apply fz_val. unfold small; lia. Qed.
Lemma grown f cs y bs : grow f cs $0 y -> counted f cs bs -> (Z.of_nat (length cs) <= 65793)%Z -> is_value y (IZR (total bs)).
Proof.
  intros G C N. pose proof (total_pos _ _ _ C) as T. rewrite (counted_length _ _ _ C) in T. apply (G bs 0%Z C); try lia. exact zero_val.
Qed.

Lemma points_length {A : Type} (h : heap A) ps cs : points_to h ps cs -> length ps = length cs.
Proof. induction 1; cbn; congruence. Qed.

Lemma returned X ia h cs c m r : m = Ok r -> mean_colour o ia X cs c r -> returns (bind (lift m) alloc) h (mean_colour o ia X cs c).
Proof.
  intros E M. exists (length (colors h)), r, (Heap (colors h ++ [r]) (spaces h)). unfold bind, lift. rewrite E. split; [reflexivity|]. split; [apply at_new|exact M].
Qed.

Lemma mean3 ia (h : heap f32) p ps c cs : points_to h (p :: ps) (c :: cs) -> Forall (wf_color RGB_TRUE) (c :: cs) -> (Z.of_nat (length (c :: cs)) <= 65793)%Z ->
  returns (@average f32 (F32 o) RGB_TRUE (p :: ps) ia) h (mean_colour o ia RGB_TRUE (c :: cs) c).
Proof.
  intros P W N. pose proof (points_length _ _ _ P) as LP. inversion P as [|? ? ? ? [i [-> Hi]] _]; subst. inversion W as [|? ? Wc _]; subst.
  destruct (loop_inv RGB_TRUE (@sum3 f32 (F32 o) ia (alpha c)) (fun cs s t => let '(s0, s1, s2, s3) := s in let '(t0, t1, t2, t3) := t in
     grow (part 0) cs s0 t0 /\ grow (part 1) cs s1 t1 /\ grow (part 2) cs s2 t2 /\ tail_ok ia (alpha c) cs s3 t3) h _ _ P W) with (s := ($0, $0, $0, $0)) as [[[[s0 s1] s2] s3] [E [G0 [G1 [G2 G3]]]]].
  { intros [[[t0 t1] t2] t3]. split; [apply grow_nil|]; split; [apply grow_nil|]; split; [apply grow_nil|apply tail_nil]. }
  { intros d ds [[[t0 t1] t2] t3] Wd. destruct (Conv_Proofs.comps3 RGB_TRUE d Wd eq_refl) as [x [y [z Ed]]]. unfold sum3, with3. rewrite Ed. eexists. split; [reflexivity|].
    intros [[[v0 v1] v2] v3] [A0 [A1 [A2 A3]]]. split; [apply grow_cons; unfold part; rewrite Ed; assumption|]; split; [apply grow_cons; unfold part; rewrite Ed; assumption|]; split; [apply grow_cons; unfold part; rewrite Ed; assumption|apply (tail_cons ia (alpha c)); exact A3]. }
  cbn [average]. unfold average_rgb_true, average3.
  match goal with |- returns ?m h ?P => cut (returns (bind (lift (@rgb_truecolor f32 (F32 o) (s0 /. fofZ (Z.of_nat (length (c :: cs)))) (s1 /. fofZ (Z.of_nat (length (c :: cs)))) (s2 /. fofZ (Z.of_nat (length (c :: cs)))) (if ia then s3 /. fofZ (Z.of_nat (length (c :: cs))) else s3) (rgb_space c))) alloc) h P) end.
  { intros [q [r [h' [R K]]]]. exists q, r, h'. split; [|exact K]. unfold bind at 1. rewrite (load_as_ok h i c RGB_TRUE Hi Wc). unfold bind at 1. rewrite E. rewrite <- LP in R. exact R. }
  set (n := Z.of_nat (length (c :: cs))) in * . assert (N0 : (0 < n)%Z) by (unfold n; cbn [length]; lia).
  eapply returned; [apply rgb_truecolor_nf|].
  assert (SZ : is_value (fofZ n) (IZR n)) by (apply size_val; lia).
  match goal with |- mean_colour _ _ _ _ _ ?r => set (res := r) end.
  assert (MK := @rgb_truecolor_made f32 (F32 o) (F32Laws o) (s0 /. fofZ n) (s1 /. fofZ n) (s2 /. fofZ n) (if ia then s3 /. fofZ n else s3) (rgb_space c)).
  destruct MK as [r [Er [Wr _]]]. rewrite rgb_truecolor_nf in Er. apply Ok_inj in Er. fold res in Er. subst r.
  assert (D : forall j bs x, (forall k, bytes_at j (c :: cs) k -> is_value x (IZR (total k))) -> bytes_at j (c :: cs) bs -> mean_byte bs (@c255 f32 (F32 o) (x /. fofZ n))).
  { intros j bs x Hx Hb. pose proof (counted_at _ _ _ Hb) as C. assert (L : Z.of_nat (length bs) = n) by (unfold n; rewrite (counted_length _ _ _ C); reflexivity).
    apply (mean_done _ _ _ _ bs C); rewrite ?L; auto; lia. }
  split; [exact Wr|]. split; [reflexivity|]. split; [|split].
  - intros j bs J Hb. cbn [arity] in J. assert (J' : (j = 0 \/ j = 1 \/ j = 2)%nat) by lia.
    destruct J' as [-> | [-> | ->]]; eexists; (split; [reflexivity|]); (eapply D; [|exact Hb]); intros k Hk; eapply grown; try exact N; try apply counted_at, Hk; assumption.
  - intros Ei bs Hb. destruct G3 as [G3 _]. specialize (G3 Ei). pose proof (counted_alpha _ _ Hb) as C. assert (L : Z.of_nat (length bs) = n) by (unfold n; rewrite (counted_length _ _ _ C); reflexivity).
    change (mean_alpha bs (@c01 f32 (F32 o) ((if ia then s3 /. fofZ n else s3) /. $255) *. $255)). rewrite Ei.
    apply (mean_alpha_done _ _ _ _ bs C); rewrite ?L; auto; try lia. apply (grown _ _ _ _ G3 C). exact N.
  - intros Ei k Hk Va. destruct G3 as [_ G3]. destruct (G3 Ei) as [_ G]. specialize (G ltac:(discriminate)).
    change (is_value (@c01 f32 (F32 o) ((if ia then s3 /. fofZ n else s3) /. $255) *. $255) (IZR k)). rewrite Ei, G. apply byte_scaled; assumption.
Qed.

Lemma mean1 ia (h : heap f32) p ps c cs : points_to h (p :: ps) (c :: cs) -> Forall (wf_color GREY_TRUE) (c :: cs) -> (Z.of_nat (length (c :: cs)) <= 65793)%Z ->
  returns (@average f32 (F32 o) GREY_TRUE (p :: ps) ia) h (mean_colour o ia GREY_TRUE (c :: cs) c).
Proof.
  intros P W N. pose proof (points_length _ _ _ P) as LP. inversion P as [|? ? ? ? [i [-> Hi]] _]; subst. inversion W as [|? ? Wc _]; subst.
  destruct (loop_inv GREY_TRUE (@sum1 f32 (F32 o) ia (alpha c)) (fun cs s t => let '(s0, s3) := s in let '(t0, t3) := t in
     grow (part 0) cs s0 t0 /\ tail_ok ia (alpha c) cs s3 t3) h _ _ P W) with (s := ($0, $0)) as [[s0 s3] [E [G0 G3]]].
  { intros [t0 t3]. split; [apply grow_nil|apply tail_nil]. }
  { intros d ds [t0 t3] Wd. destruct (Conv_Proofs.comps1 GREY_TRUE d Wd eq_refl) as [x Ed]. unfold sum1, with1. rewrite Ed. eexists. split; [reflexivity|].
    intros [v0 v3] [A0 A3]. split; [apply grow_cons; unfold part; rewrite Ed; assumption|apply (tail_cons ia (alpha c)); exact A3]. }
  cbn [average]. unfold average_grey_true, average1.
  match goal with |- returns ?m h ?P => cut (returns (bind (lift (@grey_truecolor f32 (F32 o) (s0 /. fofZ (Z.of_nat (length (c :: cs)))) (if ia then s3 /. fofZ (Z.of_nat (length (c :: cs))) else s3) (rgb_space c))) alloc) h P) end.
  { intros [q [r [h' [R K]]]]. exists q, r, h'. split; [|exact K]. unfold bind at 1. rewrite (load_as_ok h i c GREY_TRUE Hi Wc). unfold bind at 1. rewrite E. rewrite <- LP in R. exact R. }
  set (n := Z.of_nat (length (c :: cs))) in * . assert (N0 : (0 < n)%Z) by (unfold n; cbn [length]; lia).
  eapply returned; [apply grey_truecolor_nf|].
  assert (SZ : is_value (fofZ n) (IZR n)) by (apply size_val; lia).
  match goal with |- mean_colour _ _ _ _ _ ?r => set (res := r) end.
  assert (MK := @grey_truecolor_made f32 (F32 o) (F32Laws o) (s0 /. fofZ n) (if ia then s3 /. fofZ n else s3) (rgb_space c)).
  destruct MK as [r [Er [Wr _]]]. rewrite grey_truecolor_nf in Er. apply Ok_inj in Er. fold res in Er. subst r.
  split; [exact Wr|]. split; [reflexivity|]. split; [|split].
  - intros j bs J Hb. cbn [arity] in J. assert (j = 0)%nat as -> by lia.
    pose proof (counted_at _ _ _ Hb) as C. assert (L : Z.of_nat (length bs) = n) by (unfold n; rewrite (counted_length _ _ _ C); reflexivity).
    eexists; (split; [reflexivity|]). apply (mean_done _ _ _ _ bs C); rewrite ?L; auto; try lia. apply (grown _ _ _ _ G0 C). exact N.
  - intros Ei bs Hb. destruct G3 as [G3 _]. specialize (G3 Ei). pose proof (counted_alpha _ _ Hb) as C. assert (L : Z.of_nat (length bs) = n) by (unfold n; rewrite (counted_length _ _ _ C); reflexivity).
    change (mean_alpha bs (@c01 f32 (F32 o) ((if ia then s3 /. fofZ n else s3) /. $255) *. $255)). rewrite Ei.
    apply (mean_alpha_done _ _ _ _ bs C); rewrite ?L; auto; try lia. apply (grown _ _ _ _ G3 C). exact N.
  - intros Ei k Hk Va. destruct G3 as [_ G3]. destruct (G3 Ei) as [_ G]. specialize (G ltac:(discriminate)).
    change (is_value (@c01 f32 (F32 o) ((if ia then s3 /. fofZ n else s3) /. $255) *. $255) (IZR k)). rewrite Ei, G. apply byte_scaled; assumption.
Qed.

Lemma mean_few X ia (h : heap f32) p ps c cs : In X [RGB_TRUE; GREY_TRUE] -> points_to h (p :: ps) (c :: cs) -> Forall (wf_color X) (c :: cs) ->
  (Z.of_nat (length (c :: cs)) <= 65793)%Z -> returns (@average f32 (F32 o) X (p :: ps) ia) h (mean_colour o ia X (c :: cs) c).
Proof. intros [<-|[<-|[]]]; [apply mean3|apply mean1]. Qed.

(** ** The order of the colours *)
Lemma total_perm l m : Permutation l m -> total l = total m.
Proof. unfold total. induction 1; cbn [fold_right]; lia. Qed.
Lemma mean_order X ia (h : heap f32) ps ps' cs cs' i bs : In X [RGB_TRUE; GREY_TRUE] -> cs <> [] -> points_to h ps cs -> points_to h ps' cs' -> Permutation cs cs' ->
  Forall (wf_color X) cs -> (Z.of_nat (length cs) <= 65793)%Z -> (i < arity X)%nat -> bytes_at i cs bs -> exists v,
  returns (@average f32 (F32 o) X ps ia) h (fun r => comp_sat r i (fun x => is_value x v)) /\ returns (@average f32 (F32 o) X ps' ia) h (fun r => comp_sat r i (fun x => is_value x v)).
Proof.
  intros HX Ne P P' Pe W L Li B. destruct cs as [|c cs]; [congruence|]. destruct cs' as [|c' cs']; [apply Permutation_sym, Permutation_nil in Pe; discriminate|].
  inversion P as [|p ? ps0 ? Hp HP]; subst. inversion P' as [|p' ? ps0' ? Hp' HP']; subst.
  assert (W' : Forall (wf_color X) (c' :: cs')). { apply Forall_forall. intros d Hd. apply (proj1 (Forall_forall _ _) W). apply Permutation_in with (2 := Hd), Permutation_sym, Pe. }
  assert (L' : (Z.of_nat (length (c' :: cs')) <= 65793)%Z) by (rewrite <- (Permutation_length Pe); exact L).
  destruct (Permutation_Forall2 Pe B) as [bs' [Pb B']].
  exists (round radix2 (FLT_exp (-149) 24) ZnearestE (IZR (total bs) / IZR (Z.of_nat (length bs)))). split.
  - destruct (mean_few X ia h _ _ c cs HX P W L) as [q [r [h' [E [At [_ [_ [K _]]]]]]]]. exists q, r, h'. split; [exact E|]. split; [exact At|].
    destruct (K i bs Li B) as [x [Ex [V _]]]. exists x. split; [exact Ex|exact V].
  - destruct (mean_few X ia h _ _ c' cs' HX P' W' L') as [q [r [h' [E [At [_ [_ [K _]]]]]]]]. exists q, r, h'. split; [exact E|]. split; [exact At|].
    destruct (K i bs' Li B') as [x [Ex [V _]]]. exists x. split; [exact Ex|]. rewrite (total_perm _ _ Pb), (Permutation_length Pb). exact V.
Qed.

(** ** Equal colours *)
Lemma total_repeat n k : total (repeat n k) = (n * Z.of_nat k)%Z.
Proof. unfold total. induction k as [|k IH]; cbn [repeat fold_right]; [lia|]. rewrite IH. lia. Qed.
Lemma repeat_bytes i c n k : is_byte n -> comp_sat c i (fun x => is_value x (IZR n)) -> bytes_at i (repeat c k) (repeat n k).
Proof. intros B V. induction k; constructor; auto. Qed.
Lemma equal_few X ia (h : heap f32) ps c : In X [RGB_TRUE; GREY_TRUE] -> ps <> [] -> (Z.of_nat (length ps) <= 65793)%Z ->
  points_to h ps (repeat c (length ps)) -> wf_color X c ->
  returns (@average f32 (F32 o) X ps ia) h (fun r => forall i n, (i < arity X)%nat -> is_byte n -> comp_sat c i (fun x => is_value x (IZR n)) -> comp_sat r i (fun x => is_value x (IZR n))).
Proof.
  intros HX Ne L P W. destruct ps as [|p ps]; [congruence|]. cbn [length repeat] in P.
  destruct (mean_few X ia h p ps c (repeat c (length ps)) HX P) as [q [r [h' [E [At [_ [_ [K _]]]]]]]].
  { constructor; [exact W|]. apply Forall_forall. intros d Hd. apply repeat_spec in Hd. subst d. exact W. }
  { cbn [length] in * . rewrite repeat_length. exact L. }
  exists q, r, h'. split; [exact E|]. split; [exact At|]. intros i n Li B V.
  destruct (K i (repeat n (length (p :: ps))) Li (repeat_bytes i c n (length (p :: ps)) B V)) as [x [Ex [_ [_ [D _]]]]].
  exists x. split; [exact Ex|]. rewrite repeat_length, total_repeat in D. rewrite Z.div_mul in D by (cbn [length]; lia). apply D. exists n. ring.
Qed.

(** ** More than 65793 colours *)
Lemma value_unique (x y : f32) v : is_value x v -> is_value y v -> v <> 0 -> x = y.
Proof.
  intros [Fx Vx] [Fy Vy] N. apply B2R_inj; [| |congruence].
  - destruct x; cbn in *; congruence.
  - destruct y; cbn in *; congruence.
Qed.
Lemma iter_sum x k : is_value x 255 -> (Z.of_nat k <= 65793)%Z -> is_value (Nat.iter k (fun s => s +. x) $0) (IZR (255 * Z.of_nat k)).
Proof.
  intros V. induction k as [|k IH]; intros L; [exact zero_val|]. cbn [Nat.iter nat_rect]. replace (255 * Z.of_nat (S k))%Z with (255 * Z.of_nat k + 255)%Z by lia.
  apply add_exact; try lia; [apply IH; lia|exact V].
Qed.
Definition last_two (s : f32) : f32 := Bdiv mode_NE (Bplus mode_NE (Bplus mode_NE s (normalize 255 0 false)) (normalize 255 0 false)) (normalize 65795 0 false).
Lemma many_sum x k : is_value x 255 -> Z.of_nat k = 65795%Z -> is_value (Nat.iter k (fun s => s +. x) $0 /. fofZ 65795) (16711679 / 65536).
Proof.
  intros V E. destruct k as [|[|k]]; try (cbn in E; lia). assert (Ek : Z.of_nat k = 65793%Z) by lia.
  pose proof (iter_sum x k V ltac:(lia)) as S. rewrite Ek in S. change (is_value ((Nat.iter k (fun s => s +. x) $0 +. x +. x) /. fofZ 65795) (16711679 / 65536)).
  assert (X : x = normalize 255 0 false) by (apply (value_unique _ _ 255); [exact V|apply (size_val 255); lia|lra]).
  assert (Y : Nat.iter k (fun s => s +. x) $0 = normalize 16777215 0 false) by (apply (value_unique _ _ (IZR (255 * 65793))); [exact S|apply (size_val (255 * 65793)); lia|cbn; lra]).
  rewrite Y, X. change (is_value (last_two (normalize 16777215 0 false)) (16711679 / 65536)).
  assert (G : B2SF (last_two (normalize 16777215 0 false)) = SpecFloat.S754_finite false 16711679 (-16)) by (vm_compute; reflexivity).
  split.
  - rewrite <- is_finite_SF_B2SF, G. reflexivity.
  - rewrite <- SF2R_B2SF, G. unfold SF2R, F2R. cbn [Fnum Fexp cond_Zopp]. change (bpow radix2 (-16)) with (/ IZR 65536). lra.
Qed.

Lemma iter_r {A : Type} (f : A -> A) k x : Nat.iter (S k) f x = Nat.iter k f (f x).
Proof. induction k as [|k IH]; [reflexivity|]. change (f (Nat.iter (S k) f x) = f (Nat.iter k f (f x))). f_equal. exact IH. Qed.
Lemma many_run (h : heap f32) p ps c cs x : points_to h (p :: ps) (c :: cs) -> Forall (wf_color GREY_TRUE) (c :: cs) -> Forall (fun d => comps d = [x]) (c :: cs) ->
  is_value x 255 -> Z.of_nat (length (c :: cs)) = 65795%Z ->
  returns (@average f32 (F32 o) GREY_TRUE (p :: ps) false) h (fun r => comp_sat r 0 (fun y => is_value y (16711679 / 65536))).
Proof.
  intros P W A V N. pose proof (points_length _ _ _ P) as LP. inversion P as [|? ? ? ? [i [-> Hi]] _]; subst. inversion W as [|? ? Wc _]; subst.
  destruct (loop_inv GREY_TRUE (@sum1 f32 (F32 o) false (alpha c)) (fun cs s t => Forall (fun d => comps d = [x]) cs ->
     fst t = Nat.iter (length cs) (fun s => s +. x) (fst s)) h _ _ P W) with (s := ($0, $0)) as [[s0 s3] [E G]].
  { reflexivity. }
  { intros d ds [t0 t3] Wd. destruct (Conv_Proofs.comps1 GREY_TRUE d Wd eq_refl) as [y Ed]. unfold sum1, with1. rewrite Ed. eexists. split; [reflexivity|].
    intros [v0 v3] I F. inversion F as [|? ? Fd Fds]; subst. specialize (I Fds). cbn [fst] in * . rewrite Fd in Ed. injection Ed as <-. cbn [length]. rewrite iter_r. exact I. }
  specialize (G A). cbn [fst] in G.
  cbn [average]. unfold average_grey_true, average1.
  cut (returns (bind (lift (@grey_truecolor f32 (F32 o) (s0 /. fofZ (Z.of_nat (length (c :: cs)))) s3 (rgb_space c))) alloc) h (fun r => comp_sat r 0 (fun y => is_value y (16711679 / 65536)))).
  { intros [q [r [h' [R K]]]]. exists q, r, h'. split; [|exact K]. unfold bind at 1. rewrite (load_as_ok h i c GREY_TRUE Hi Wc). unfold bind at 1. rewrite E. rewrite <- LP in R. exact R. }
  rewrite grey_truecolor_nf. unfold bind, lift, alloc. do 3 eexists. split; [reflexivity|]. split; [apply at_new|]. eexists. split; [reflexivity|].
  apply keep255; [|lra]. rewrite N, G. apply many_sum; assumption.
Qed.
End Mean.

Lemma grey_white o : exists c, @wf_color f32 (F32 o) GREY_TRUE c /\ exists x, comps c = [x] /\ is_value x 255.
Proof.
  destruct (fz_val o 255) as [F V]; [unfold small; lia|]. destruct (ctor_stores o GREY_TRUE [@fz f32 (F32 o) 255] (@fz f32 (F32 o) 255) None) as [c [E [K1 K2]]]; [simpl; auto|reflexivity|].
  destruct (@grey_truecolor_made f32 (F32 o) (F32Laws o) (@fz f32 (F32 o) 255) (@fz f32 (F32 o) 255) None) as [r [Er [W _]]]. exists r. split; [exact W|].
  rewrite grey_truecolor_nf in Er. apply Ok_inj in Er. subst r. eexists. split; [reflexivity|]. apply keep255; [split; [exact F|exact V]|lra].
Qed.
Lemma points_repeat (h : heap f32) p c k : at_addr h p c -> points_to h (repeat (Some p) k) (repeat c k).
Proof. intros A. induction k; constructor; eauto. Qed.
Lemma many_whites : forall o, exists (h : heap f32) ps c, points_to h ps (repeat c (length ps)) /\ Z.of_nat (length ps) = 65795%Z /\ @wf_color f32 (F32 o) GREY_TRUE c /\
  comp_sat c 0 (fun x => is_value x 255) /\ returns (@average f32 (F32 o) GREY_TRUE ps false) h (fun r => comp_sat r 0 (fun x => is_value x (255 - / 65536))).
Proof.
  intros o. destruct (grey_white o) as [c [W [x [Ec V]]]]. assert (exists k, Z.of_nat k = 65795%Z) as [k Ek] by (exists (Z.to_nat 65795); apply Z2Nat.id; lia).
  exists (Heap [c] []), (repeat (Some 0%nat) k), c. rewrite repeat_length. split; [apply points_repeat; reflexivity|]. split; [exact Ek|]. split; [exact W|].
  split; [exists x; rewrite Ec; auto|]. destruct k as [|k]; [cbn in Ek; lia|]. cbn [repeat]. replace (255 - / 65536) with (16711679 / 65536) by lra.
  apply (many_run o _ _ _ c (repeat c k) x).
  - apply (points_repeat (Heap [c] []) 0 c (S k)). reflexivity.
  - apply (proj2 (Forall_forall _ _)). intros d Hd. apply (repeat_spec (S k)) in Hd. subst d. exact W.
  - apply (proj2 (Forall_forall _ _)). intros d Hd. apply (repeat_spec (S k)) in Hd. subst d. exact Ec.
  - exact V.
  - cbn [length]. rewrite repeat_length. exact Ek.
Qed.

Lemma bytes_list o r g b a : is_byte r -> is_byte g -> is_byte b -> is_byte a -> exists (h : heap f32) c, points_to h [Some 0%nat; Some 0%nat] [c; c] /\
  Forall (@wf_color f32 (F32 o) RGB_TRUE) [c; c] /\ bytes_at 0 [c; c] [r; r] /\ bytes_at 1 [c; c] [g; g] /\ bytes_at 2 [c; c] [b; b] /\ alpha_bytes o [c; c] [a; a].
Proof.
  intros R G B A. destruct (bytes_exist o r g b a R G B A) as [h [c [At [W [[_ [V0 [V1 V2]]] Va]]]]]. exists h, c.
  split; [exact (points_repeat h 0 c 2 At)|]. split; [auto|]. split; [exact (repeat_bytes 0 c r 2 R V0)|]. split; [exact (repeat_bytes 1 c g 2 G V1)|]. split; [exact (repeat_bytes 2 c b 2 B V2)|].
  constructor; [auto|constructor; [auto|constructor]].
Qed.
Lemma mean_thirds : forall x, mean_byte [0; 255; 255]%Z x -> is_value x 170.
Proof. intros x [_ [_ [D _]]]. apply D. exists 170%Z. reflexivity. Qed.
Lemma mean_half : forall x, mean_byte [0; 255]%Z x -> broken x.
Proof. intros x [_ [_ [_ D]]]. apply D. intros [k E]. cbn in E. lia. Qed.
