(** * Euclidean distances of 8-bit colours in binary32 (C168-C170) *)
From Coq Require Import ZArith QArith Reals Lra Lia List Bool.
From Flocq Require Import Core IEEE754.BinarySingleNaN.
From Verif Require Import Arith Outcome ColorModel GammaModel MatrixModel SpaceModel Heap Converter Calculation Distance F32 F32Facts RArith
  Spec Spec32 Laws NormalForms Alpha8 Core_Proofs Core2_Proofs Core3_Proofs Core4_Proofs Hue32 Spec_Matrix Spec_Conv Spec_Calc Spec_Round
  Conv_Proofs Conv2_Proofs Conv3_Proofs Run_Proofs Round_Proofs Round2_Proofs Error_Proofs Error2_Proofs Error4_Proofs Error5_Proofs Error7_Proofs Error8_Proofs Spec_Error
  Calc_Proofs Calc3_Proofs   Spec_Distance Distance_Proofs Distance2_Proofs Spec_Rank Veil_Proofs Byte3_Proofs.
Import ListNotations.
Local Open Scope R_scope.

Local Notation fin x := (is_finite x = true).
Local Notation fval := (@B2R 24 128).
Lemma Bsqrt_ok (x : f32) : fin x -> 0 <= fval x -> fin (Bsqrt mode_NE x) /\ fval (Bsqrt mode_NE x) = rnd32 (sqrt (fval x)).
Proof.
  intros Fx P. destruct (Bsqrt_correct 24 128 prec_gt_0_32 prec_lt_emax_32 mode_NE x) as [V [Fn _]]. split; [|exact V].
  rewrite Fn. destruct x as [s|s| |s m e B]; try reflexivity; try discriminate Fx. destruct s; [|reflexivity].
  exfalso. assert (fval (B754_finite true m e B) < 0); [|lra]. apply F2R_lt_0. reflexivity.
Qed.

Section Rank.
Variable o : oracle.
Hypothesis AS : accurate_square o.
Local Notation "$ n" := (@fz f32 (F32 o) n) (at level 0, n at level 0, format "$ n").
Local Notation "x +. y" := (@fadd f32 (F32 o) x y) (at level 50, left associativity).
Local Notation "x -. y" := (@fsub f32 (F32 o) x y) (at level 50, left associativity).
Local Notation "x /. y" := (@fdiv f32 (F32 o) x y) (at level 40, left associativity).
Local Notation sq x := (@fpow f32 (F32 o) x (@fz f32 (F32 o) 2)).

Lemma byte_bounds n : is_byte n -> 0 <= IZR n / 255 <= 1.
Proof. intros [A B]. apply IZR_le in A. apply IZR_le in B. lra. Qed.

Lemma diff x y m n : is_byte m -> is_byte n -> fin x -> fin y -> fval x = q255 m -> fval y = q255 n ->
  fin (x -. y) /\ Rabs (fval (x -. y) - (IZR m / 255 - IZR n / 255)) <= 33 / 10 * u /\ (m = n -> fval (x -. y) = 0) /\ (m <> n -> / 256 <= Rabs (fval (x -. y))) /\ Rabs (fval (x -. y)) <= 1.
Proof.
  intros Hm Hn Fx Fy Vx Vy. destruct (q255_near m Hm) as [Em Bm]. destruct (q255_near n Hn) as [En Bn].
  destruct (Bminus_ok x y (-1) 1 Fx Fy) as [Fd Vd]; try sm; [rewrite Vx, Vy; lra|].
  change (x -. y) with (Bminus mode_NE x y). rewrite Vd, Vx, Vy. split; [exact Fd|].
  pose proof (byte_bounds m Hm) as Rm. pose proof (byte_bounds n Hn) as Rn.
  assert (B : -1 <= rnd32 (q255 m - q255 n) <= 1) by (apply (rnd32_bounds _ (-1) 1); try sm; lra).
  assert (E : Rabs (rnd32 (q255 m - q255 n) - (q255 m - q255 n)) <= u + tiny).
  { eapply Rle_trans; [apply rnd_err|]. assert (Rabs (q255 m - q255 n) <= 1) by (apply Rabs_le; lra). assert (u * Rabs (q255 m - q255 n) <= u * 1) by (apply Rmult_le_compat_l; [num|assumption]). lra. }
  assert (T : Rabs (rnd32 (q255 m - q255 n) - (IZR m / 255 - IZR n / 255)) <= 33 / 10 * u).
  { apply Rabs_le_inv in E. apply Rabs_le_inv in Em. apply Rabs_le_inv in En. apply Rabs_le. num. }
  split; [exact T|]. split; [|split].
  - intros ->. rewrite Rminus_diag_eq by reflexivity. apply rnd32_0.
  - intros D. apply Rabs_le_inv in T. destruct (Z_lt_le_dec m n) as [L|L].
    + assert (IZR m + 1 <= IZR n) by (rewrite <- plus_IZR; apply IZR_le; lia). rewrite Rabs_left1; num.
    + assert (IZR n + 1 <= IZR m) by (rewrite <- plus_IZR; apply IZR_le; lia). rewrite Rabs_pos_eq; num.
  - apply Rabs_le. exact B.
Qed.

(** A square: relative error 17 u. *)
Lemma square (d : f32) : fin d -> (fval d = 0 \/ / 256 <= Rabs (fval d)) -> Rabs (fval d) <= 1 ->
  fin (sq d) /\ Rabs (fval (sq d) - fval d * fval d) <= 17 * u * (fval d * fval d) /\ (fval d * fval d = 0 \/ / 65536 <= fval d * fval d) /\ fval d * fval d <= 1.
Proof.
  intros Fd Z B. destruct (AS d Fd) as [Fs [S0 Es]]; [change (B2R d) with (fval d); lra|].
  change (o_pow o d $2) with (sq d) in * . change (@B2R 24 128) with fval in * . split; [exact Fs|].
  assert (P : fval d * fval d = 0 \/ / 65536 <= fval d * fval d).
  { destruct Z as [Z|Z]; [left; rewrite Z; ring|right]. rewrite <- (Rabs_pos_eq (fval d * fval d)) by (apply Rle_0_sqr). rewrite Rabs_mult.
    apply Rle_trans with (/ 256 * / 256); [lra|]. apply Rmult_le_compat; lra. }
  split; [|split].
  - destruct P as [P|P].
    + rewrite S0, P; [rewrite Rminus_0_r, Rabs_R0; lra|]. apply Rmult_integral in P. tauto.
    + eapply Rle_trans; [exact Es|]. replace (2 ^ 60) with 1152921504606846976 by (simpl; ring). num.
  - exact P.
  - rewrite <- (Rabs_pos_eq (fval d * fval d)) by (apply Rle_0_sqr). rewrite Rabs_mult. rewrite <- (Rmult_1_r 1). apply Rmult_le_compat; try apply Rabs_pos; assumption.
Qed.

(** The sum of three squares: relative error 20 u. *)
Lemma sum3 (d1 d2 d3 : f32) : fin d1 -> fin d2 -> fin d3 ->
  (fval d1 = 0 \/ / 256 <= Rabs (fval d1)) -> (fval d2 = 0 \/ / 256 <= Rabs (fval d2)) -> (fval d3 = 0 \/ / 256 <= Rabs (fval d3)) ->
  Rabs (fval d1) <= 1 -> Rabs (fval d2) <= 1 -> Rabs (fval d3) <= 1 ->
  let n := fval d1 * fval d1 + fval d2 * fval d2 + fval d3 * fval d3 in let v := $0 +. sq d1 +. sq d2 +. sq d3 in
  fin v /\ Rabs (fval v - n) <= 20 * u * n /\ 0 <= n <= 3.
Proof.
  intros F1 F2 F3 Z1 Z2 Z3 B1 B2 B3. destruct (square d1 F1 Z1 B1) as [Q1 [E1 [P1 L1]]]. destruct (square d2 F2 Z2 B2) as [Q2 [E2 [P2 L2]]]. destruct (square d3 F3 Z3 B3) as [Q3 [E3 [P3 L3]]].
  cbv zeta. set (n1 := fval d1 * fval d1) in * . set (n2 := fval d2 * fval d2) in * . set (n3 := fval d3 * fval d3) in * .
  set (s1 := sq d1) in * . set (s2 := sq d2) in * . set (s3 := sq d3) in * . clearbody n1 n2 n3 s1 s2 s3.
  destruct (fz_val o 0) as [F0 V0]; [sm|]. apply Rabs_le_inv in E1. apply Rabs_le_inv in E2. apply Rabs_le_inv in E3.
  destruct (Bplus_ok $0 s1 (-4) 4 F0 Q1) as [Fa Va]; try sm; [rewrite V0; num|]. rewrite V0, Rplus_0_l, rnd32_id in Va.
  change (Bplus mode_NE $0 s1) with ($0 +. s1) in * . set (a := $0 +. s1) in * . clearbody a.
  destruct (Bplus_ok a s2 (-4) 4 Fa Q2) as [Fb Vb]; try sm; [rewrite Va; num|]. rewrite Va in Vb. change (Bplus mode_NE a s2) with (a +. s2) in * . set (b := a +. s2) in * . clearbody b.
  pose proof (rnd_err (fval s1 + fval s2)) as R1. rewrite <- Vb in R1.
  assert (N : 0 <= n1 /\ 0 <= n2 /\ 0 <= n3) by (repeat split; lra).
  assert (S12 : 0 <= fval s1 + fval s2) by num. rewrite (Rabs_pos_eq (fval s1 + fval s2)) in R1 by exact S12. apply Rabs_le_inv in R1.
  destruct (Bplus_ok b s3 (-4) 4 Fb Q3) as [Fc Vc]; try sm; [num|]. change (Bplus mode_NE b s3) with (b +. s3) in * . set (c := b +. s3) in * . clearbody c.
  pose proof (rnd_err (fval b + fval s3)) as R2. rewrite <- Vc in R2.
  split; [exact Fc|]. split; [|lra].
  assert (C : n1 + n2 + n3 = 0 \/ / 65536 <= n1 + n2 + n3) by lra. destruct C as [C|C].
  - assert (n1 = 0 /\ n2 = 0 /\ n3 = 0) as [-> [-> ->]] by lra. assert (fval s1 = 0) by lra. assert (fval s2 = 0) by lra. assert (fval s3 = 0) by lra.
    assert (Eb : fval b = 0) by (rewrite Vb; replace (fval s1 + fval s2) with 0 by lra; apply rnd32_0).
    assert (Ec : fval c = 0) by (rewrite Vc; replace (fval b + fval s3) with 0 by lra; apply rnd32_0). rewrite Ec. replace (0 - (0 + 0 + 0)) with 0 by ring. rewrite Rabs_R0. lra.
  - assert (S3 : -1 / 1000000 <= fval b + fval s3 <= 4) by num. assert (A : Rabs (fval b + fval s3) <= n1 + n2 + n3 + 21 * u * (n1 + n2 + n3)).
    { apply Rabs_le. num. }
    assert (M : u * Rabs (fval b + fval s3) <= u * (n1 + n2 + n3 + 21 * u * (n1 + n2 + n3))) by (apply Rmult_le_compat_l; [num|exact A]).
    apply Rabs_le_inv in R2. apply Rabs_le. num.
Qed.

Lemma sqrt_rel v n : 0 <= n -> Rabs (v - n) <= 20 * u * n -> Rabs (sqrt v - sqrt n) <= 101 / 10 * u * sqrt n.
Proof.
  intros N E. apply Rabs_le_inv in E. assert (V : 0 <= v) by num. pose proof (sqrt_pos n) as P. pose proof (sqrt_pos v) as Q.
  set (a := sqrt v) in * . set (b := sqrt n) in * . assert (A : a * a = v) by (apply sqrt_sqrt; exact V). assert (B : b * b = n) by (apply sqrt_sqrt; exact N).
  destruct (Rle_lt_or_eq_dec 0 b P) as [Pb|Pb].
  - assert (La : 999 / 1000 * b <= a). { apply Rsqr_incr_0; try lra. unfold Rsqr. rewrite A. replace (999 / 1000 * b * (999 / 1000 * b)) with (998001 / 1000000 * (b * b)) by field. rewrite B. num. }
    apply Rabs_le. split.
    + apply Rnot_lt_le. intros C. assert ((b - a) * (b + a) = n - v) by (rewrite <- A, <- B; ring).
      assert (101 / 10 * u * b * (1999 / 1000 * b) <= (b - a) * (b + a)). { apply Rmult_le_compat; [|lra|lra|lra]. apply Rmult_le_pos; [num|lra]. }
      assert (101 / 10 * u * b * (1999 / 1000 * b) = 201899 / 10000 * u * n) by (rewrite <- B; field). assert (0 < n) by (rewrite <- B; apply Rmult_lt_0_compat; lra). num.
    + apply Rnot_lt_le. intros C. assert ((a - b) * (b + a) = v - n) by (rewrite <- A, <- B; ring).
      assert (101 / 10 * u * b * (1999 / 1000 * b) <= (a - b) * (b + a)). { apply Rmult_le_compat; [|lra|lra|lra]. apply Rmult_le_pos; [num|lra]. }
      assert (101 / 10 * u * b * (1999 / 1000 * b) = 201899 / 10000 * u * n) by (rewrite <- B; field). assert (0 < n) by (rewrite <- B; apply Rmult_lt_0_compat; lra). num.
  - rewrite <- Pb in * . assert (a = 0). { assert (a * a = 0) by (rewrite A; num). apply Rmult_integral in H. tauto. } rewrite H. replace (0 - 0) with 0 by ring. rewrite Rabs_R0. lra.
Qed.

Lemma euclid3 a b c x y z : euclid [a; b; c] [x; y; z] = sqrt ((a - x) * (a - x) + (b - y) * (b - y) + (c - z) * (c - z)).
Proof. unfold euclid. rewrite squared_distance3. reflexivity. Qed.

Lemma sqrt3 : sqrt 3 <= 17321 / 10000.
Proof. rewrite <- (sqrt_square (17321 / 10000)) by lra. apply sqrt_le_1; lra. Qed.

(** The norm of the differences is close to the distance. *)
Lemma norm_close d1 d2 d3 a b c e : Rabs (d1 - a) <= e -> Rabs (d2 - b) <= e -> Rabs (d3 - c) <= e ->
  Rabs (sqrt (d1 * d1 + d2 * d2 + d3 * d3) - sqrt (a * a + b * b + c * c)) <= 17321 / 10000 * e.
Proof.
  intros H1 H2 H3. assert (E0 : 0 <= e) by (pose proof (Rabs_pos (d1 - a)); lra).
  assert (K : forall x y z, euclid [x; y; z] [0; 0; 0] = sqrt (x * x + y * y + z * z)) by (intros; rewrite euclid3; f_equal; ring).
  rewrite <- !K. assert (D : euclid [d1; d2; d3] [a; b; c] <= 17321 / 10000 * e).
  { rewrite euclid3. apply Rle_trans with (sqrt (3 * (e * e))).
    - apply sqrt_le_1_alt. assert (S : forall x, Rabs x <= e -> x * x <= e * e) by (intros x Hx; rewrite <- (Rabs_pos_eq (x * x)) by apply Rle_0_sqr; rewrite Rabs_mult; apply Rmult_le_compat; try apply Rabs_pos; exact Hx).
      pose proof (S _ H1). pose proof (S _ H2). pose proof (S _ H3). lra.
    - rewrite sqrt_mult_alt by lra. rewrite sqrt_square by exact E0. apply Rmult_le_compat_r; [exact E0|apply sqrt3]. }
  pose proof (euclid_triangle [d1; d2; d3] [a; b; c] [0; 0; 0] eq_refl eq_refl eq_refl) as T1.
  pose proof (euclid_triangle [a; b; c] [d1; d2; d3] [0; 0; 0] eq_refl eq_refl eq_refl) as T2. rewrite (euclid_sym [a; b; c] [d1; d2; d3]) in T2.
  apply Rabs_le. lra.
Qed.

(** ** Two colours *)
Definition deep_of (t : bytes3) (s : color f32) : Prop := let '(r, g, b) := t in
  exists x y z, comps s = [x; y; z] /\ (fin x /\ fval x = q255 r) /\ (fin y /\ fval y = q255 g) /\ (fin z /\ fval z = q255 b).

Lemma deep_made (c : color f32) t : @wf_color f32 (F32 o) RGB_TRUE c -> is_bytes t -> holds_bytes t c ->
  exists s, @rgb_true_to_rgb_deep_f f32 (F32 o) c = Ok s /\ @wf_color f32 (F32 o) RGB_DEEP s /\ deep_of t s.
Proof.
  destruct t as [[r g] b]. intros W [Hr [Hg Hb]] [_ [Cr [Cg Cb]]].
  destruct (Round2_Proofs.comps3 c (wf_len _ _ W)) as [x [y [z Ec]]].
  destruct Cr as [x' [Ex Vx]]. destruct Cg as [y' [Ey Vy]]. destruct Cb as [z' [Ez Vz]].
  rewrite Ec in Ex, Ey, Ez. cbn [nth_error] in Ex, Ey, Ez. injection Ex as <-. injection Ey as <-. injection Ez as <-.
  pose proof (@rgb_true_to_rgb_deep_ok f32 (F32 o) _ _) as L1.
  assert (E1 : exists c1, @rgb_true_to_rgb_deep_f f32 (F32 o) c = Ok c1 /\ comps c1 = [@c01 f32 (F32 o) (x /. $255); @c01 f32 (F32 o) (y /. $255); @c01 f32 (F32 o) (z /. $255)]).
  { unfold rgb_true_to_rgb_deep_f, with3. rewrite Ec, rgb_deepcolor_nf. eexists. split; reflexivity. }
  destruct E1 as [c1 [E1 C1]].
  assert (W1 : @wf_color f32 (F32 o) RGB_DEEP c1) by (destruct (L1 c W) as [m' [E [Wm _]]]; congruence).
  exists c1. split; [exact E1|]. split; [exact W1|].
  exists (@c01 f32 (F32 o) (x /. $255)), (@c01 f32 (F32 o) (y /. $255)), (@c01 f32 (F32 o) (z /. $255)). split; [exact C1|].
  split; [|split]; apply (byte_q o); assumption.
Qed.

Lemma bytes_run d (h : heap f32) p1 c1 p2 c2 s1 s2 : @compared_in f32 d = RGB_DEEP -> p1 <> p2 -> at_addr h p1 c1 -> at_addr h p2 c2 ->
  @wf_color f32 (F32 o) RGB_TRUE c1 -> @wf_color f32 (F32 o) RGB_TRUE c2 -> @rgb_true_to_rgb_deep_f f32 (F32 o) c1 = Ok s1 -> @rgb_true_to_rgb_deep_f f32 (F32 o) c2 = Ok s2 ->
  exists h', @distance f32 (F32 o) d (Some p1) (Some p2) h = (@on_components f32 (F32 o) d s1 s2, h').
Proof.
  intros CI NP H1 H2 W1 W2 E1 E2.
  destruct (@distance_run f32 (F32 o) (F32Laws o) _ d RGB_TRUE RGB_TRUE h p1 c1 p2 c2 NP H1 H2 W1 W2) as [h' [d1 [d2 [[a1 [h1 [a2 [R1 [R2 [A1 A2]]]]]] [_ [_ [E _]]]]]]];
    try (rewrite CI; discriminate).
  exists h'. rewrite E. rewrite CI in R1, R2. cbn [to_type] in R1, R2.
  assert (D1 : dispatches (@to_rgb_deep f32 (F32 o)) RGB_TRUE (leaf RGB_TRUE (@rgb_true_to_rgb_deep_f f32 (F32 o)))) by disp.
  rewrite (D1 h p1 c1 H1 (wf_ty _ _ W1)) in R1. rewrite (leaf_run RGB_TRUE _ h p1 c1 s1 H1 W1 E1) in R1. injection R1 as <- <-.
  assert (H2' : at_addr (pushed h s1) p2 c2) by (apply (proj2 (unchanged_new h s1)), H2).
  rewrite (D1 _ p2 c2 H2' (wf_ty _ _ W2)) in R2. rewrite (leaf_run RGB_TRUE _ _ p2 c2 s2 H2' W2 E2) in R2. injection R2 as <- <-.
  assert (B1 : at_addr (pushed (pushed h s1) s2) (length (colors h)) s1) by (apply (proj2 (unchanged_new (pushed h s1) s2)), at_new).
  assert (B2 : at_addr (pushed (pushed h s1) s2) (length (colors (pushed h s1))) s2) by apply at_new.
  assert (X1 : Some d1 = Some s1) by (rewrite <- A1; exact B1). assert (X2 : Some d2 = Some s2) by (rewrite <- A2; exact B2).
  injection X1 as ->. injection X2 as ->. reflexivity.
Qed.

Definition squares (x1 y1 z1 x2 y2 z2 : f32) : f32 := $0 +. sq (x1 -. x2) +. sq (y1 -. y2) +. sq (z1 -. z2).

Lemma squares_close t1 t2 s1 s2 : is_bytes t1 -> is_bytes t2 -> deep_of t1 s1 -> deep_of t2 s2 -> exists v n, @squared_f f32 (F32 o) s1 s2 = Ok v /\
  fin v /\ Rabs (fval v - n) <= 20 * u * n /\ 0 <= n <= 3 /\ Rabs (sqrt n - byte_distance t1 t2) <= 58 / 10 * u /\ 0 <= byte_distance t1 t2 <= 17321 / 10000.
Proof.
  destruct t1 as [[r1 g1] b1]. destruct t2 as [[r2 g2] b2]. intros [Hr1 [Hg1 Hb1]] [Hr2 [Hg2 Hb2]] [x1 [y1 [z1 [C1 [[Fx1 Vx1] [[Fy1 Vy1] [Fz1 Vz1]]]]]]] [x2 [y2 [z2 [C2 [[Fx2 Vx2] [[Fy2 Vy2] [Fz2 Vz2]]]]]]].
  destruct (diff x1 x2 r1 r2 Hr1 Hr2 Fx1 Fx2 Vx1 Vx2) as [Fr [Er [Zr [Ar Br]]]]. destruct (diff y1 y2 g1 g2 Hg1 Hg2 Fy1 Fy2 Vy1 Vy2) as [Fg [Eg [Zg [Ag Bg]]]]. destruct (diff z1 z2 b1 b2 Hb1 Hb2 Fz1 Fz2 Vz1 Vz2) as [Fb [Eb [Zb [Ab Bb]]]].
  assert (Kr : fval (x1 -. x2) = 0 \/ / 256 <= Rabs (fval (x1 -. x2))) by (destruct (Z.eq_dec r1 r2); auto).
  assert (Kg : fval (y1 -. y2) = 0 \/ / 256 <= Rabs (fval (y1 -. y2))) by (destruct (Z.eq_dec g1 g2); auto).
  assert (Kb : fval (z1 -. z2) = 0 \/ / 256 <= Rabs (fval (z1 -. z2))) by (destruct (Z.eq_dec b1 b2); auto).
  destruct (sum3 _ _ _ Fr Fg Fb Kr Kg Kb Br Bg Bb) as [Fv [Ev Nn]]. cbv zeta in Ev. do 2 eexists.
  split. { unfold squared_f. rewrite C1, C2. reflexivity. }
  split; [exact Fv|]. split; [exact Ev|]. split; [exact Nn|].
  assert (BD : byte_distance (r1, g1, b1) (r2, g2, b2) = sqrt ((IZR r1 / 255 - IZR r2 / 255) * (IZR r1 / 255 - IZR r2 / 255) + (IZR g1 / 255 - IZR g2 / 255) * (IZR g1 / 255 - IZR g2 / 255) + (IZR b1 / 255 - IZR b2 / 255) * (IZR b1 / 255 - IZR b2 / 255))).
  { unfold byte_distance, fractions_of. apply euclid3. }
  split.
  - rewrite BD. eapply Rle_trans; [apply norm_close; [exact Er|exact Eg|exact Eb]|]. num.
  - rewrite BD. split; [apply sqrt_pos|]. apply Rle_trans with (sqrt 3); [|apply sqrt3]. apply sqrt_le_1_alt.
    assert (S : forall m n, is_byte m -> is_byte n -> (IZR m / 255 - IZR n / 255) * (IZR m / 255 - IZR n / 255) <= 1).
    { intros m n Hm Hn. pose proof (byte_bounds m Hm). pose proof (byte_bounds n Hn). rewrite <- (Rabs_pos_eq (_ * _)) by apply Rle_0_sqr. rewrite Rabs_mult. rewrite <- (Rmult_1_r 1). apply Rmult_le_compat; try apply Rabs_pos; apply Rabs_le; lra. }
    pose proof (S r1 r2 Hr1 Hr2). pose proof (S g1 g2 Hg1 Hg2). pose proof (S b1 b2 Hb1 Hb2). lra.
Qed.

Lemma root_close v n b : fin v -> Rabs (fval v - n) <= 20 * u * n -> 0 <= n <= 3 -> Rabs (sqrt n - b) <= 58 / 10 * u ->
  fin (@fsqrt f32 (F32 o) v) /\ Rabs (fval (@fsqrt f32 (F32 o) v) - b) <= 26 * u.
Proof.
  intros Fv Ev Nn Eb. assert (Pv : 0 <= fval v) by (apply Rabs_le_inv in Ev; num). destruct (Bsqrt_ok v Fv Pv) as [Fs Vs].
  change (@fsqrt f32 (F32 o) v) with (Bsqrt mode_NE v). split; [exact Fs|]. rewrite Vs.
  pose proof (sqrt_rel (fval v) n ltac:(lra) Ev) as Es. pose proof (rnd_err (sqrt (fval v))) as R. rewrite (Rabs_pos_eq (sqrt (fval v))) in R by apply sqrt_pos.
  assert (Bn : 0 <= sqrt n <= 17321 / 10000). { split; [apply sqrt_pos|]. apply Rle_trans with (sqrt 3); [apply sqrt_le_1_alt; lra|apply sqrt3]. }
  assert (M : 101 / 10 * u * sqrt n <= 175 / 10 * u) by num.
  apply Rabs_le_inv in R. apply Rabs_le_inv in Es. apply Rabs_le_inv in Eb. apply Rabs_le. num.
Qed.
Lemma square_close v n b : fin v -> Rabs (fval v - n) <= 20 * u * n -> 0 <= n <= 3 -> Rabs (sqrt n - b) <= 58 / 10 * u -> 0 <= b <= 17321 / 10000 ->
  Rabs (fval v - b * b) <= 81 * u.
Proof.
  intros Fv Ev Nn Eb Bb. assert (N : n = sqrt n * sqrt n) by (symmetry; apply sqrt_sqrt; lra).
  assert (Bn : 0 <= sqrt n <= 17321 / 10000). { split; [apply sqrt_pos|]. apply Rle_trans with (sqrt 3); [apply sqrt_le_1_alt; lra|apply sqrt3]. }
  assert (D : Rabs (n - b * b) <= 58 / 10 * u * (34642 / 10000)).
  { replace (n - b * b) with ((sqrt n - b) * (sqrt n + b)) by (rewrite N at 3; ring). rewrite Rabs_mult. apply Rmult_le_compat; try apply Rabs_pos; [exact Eb|rewrite Rabs_pos_eq; lra]. }
  apply Rabs_le_inv in Ev. apply Rabs_le_inv in D. apply Rabs_le. num.
Qed.

(** ** Accuracy *)
Lemma same_bytes t1 t2 c : holds_bytes t1 c -> holds_bytes t2 c -> t1 = t2.
Proof.
  destruct t1 as [[r1 g1] b1]. destruct t2 as [[r2 g2] b2]. intros [_ [R1 [G1 B1]]] [_ [R2 [G2 B2]]].
  assert (K : forall i m n, comp_sat c i (fun x => is_value x (IZR m)) -> comp_sat c i (fun x => is_value x (IZR n)) -> m = n).
  { intros i m n [x [Ex [_ Vx]]] [y [Ey [_ Vy]]]. rewrite Ex in Ey. injection Ey as ->. apply eq_IZR. congruence. }
  rewrite (K _ _ _ R1 R2), (K _ _ _ G1 G2), (K _ _ _ B1 B2). reflexivity.
Qed.
Lemma distance_0 t : byte_distance t t = 0.
Proof. destruct t as [[r g] b]. apply euclid_0; reflexivity. Qed.

(** The squared distance in 65025ths. *)
Definition steps (s t : bytes3) : Z := let '(r1, g1, b1) := s in let '(r2, g2, b2) := t in ((r1 - r2) * (r1 - r2) + (g1 - g2) * (g1 - g2) + (b1 - b2) * (b1 - b2))%Z.
Lemma steps_square s t : byte_distance s t * byte_distance s t = IZR (steps s t) / 65025.
Proof.
  destruct s as [[r1 g1] b1]. destruct t as [[r2 g2] b2]. unfold byte_distance, fractions_of, steps. rewrite euclid3, sqrt_sqrt.
  - rewrite !plus_IZR, !mult_IZR, !minus_IZR. field.
  - repeat apply Rplus_le_le_0_compat; apply Rle_0_sqr.
Qed.
Lemma distance_pos s t : 0 <= byte_distance s t.
Proof. destruct s as [[r1 g1] b1]. destruct t as [[r2 g2] b2]. apply sqrt_pos. Qed.
Lemma steps_lt s t s' t' : byte_distance s t < byte_distance s' t' -> byte_distance s t * byte_distance s t + / 65025 <= byte_distance s' t' * byte_distance s' t'.
Proof.
  intros L. pose proof (distance_pos s t) as P. assert (Q : byte_distance s t * byte_distance s t < byte_distance s' t' * byte_distance s' t') by (apply Rmult_le_0_lt_compat; lra).
  rewrite !steps_square in * . assert (steps s t < steps s' t')%Z by (apply lt_IZR; lra). assert (IZR (steps s t) + 1 <= IZR (steps s' t')) by (rewrite <- plus_IZR; apply IZR_le; lia). lra.
Qed.
Lemma differ s t : s <> t -> / 255 <= byte_distance s t.
Proof.
  intros N. pose proof (distance_pos s t) as P. apply Rsqr_incr_0; try lra. unfold Rsqr. rewrite steps_square. assert (1 <= IZR (steps s t)); [|lra]. apply IZR_le.
  destruct s as [[r1 g1] b1]. destruct t as [[r2 g2] b2]. unfold steps.
  assert (K : forall m n, m <> n -> (1 <= (m - n) * (m - n))%Z) by (intros m n NE; assert (m - n <> 0)%Z by lia; nia).
  assert (K0 : forall m n, (0 <= (m - n) * (m - n))%Z) by (intros m n; apply Z.square_nonneg).
  pose proof (K0 r1 r2). pose proof (K0 g1 g2). pose proof (K0 b1 b2).
  destruct (Z.eq_dec r1 r2) as [->|Nr]; [|pose proof (K _ _ Nr); lia]. destruct (Z.eq_dec g1 g2) as [->|Ng]; [|pose proof (K _ _ Ng); lia]. destruct (Z.eq_dec b1 b2) as [->|Nb]; [congruence|pose proof (K _ _ Nb); lia].
Qed.

Definition measured (d : distance_fun f32) (h : heap f32) (p1 p2 : nat) (v e : R) : Prop :=
  exists x h', @distance f32 (F32 o) d (Some p1) (Some p2) h = (Ok x, h') /\ approx v e x.

Section Pair.
Variables (h : heap f32) (p1 p2 : nat) (c1 c2 : color f32) (t1 t2 : bytes3).
Hypotheses (H1 : at_addr h p1 c1) (H2 : at_addr h p2 c2) (W1 : @wf_color f32 (F32 o) RGB_TRUE c1) (W2 : @wf_color f32 (F32 o) RGB_TRUE c2)
  (B1 : is_bytes t1) (B2 : is_bytes t2) (K1 : holds_bytes t1 c1) (K2 : holds_bytes t2 c2).

Lemma same_place : p1 = p2 -> byte_distance t1 t2 = 0.
Proof.
  intros E. assert (c1 = c2). { pose proof H2 as H2'. rewrite <- E in H2'. unfold at_addr in H1, H2'. congruence. }
  assert (K2' : holds_bytes t2 c1) by (rewrite H; exact K2). rewrite (same_bytes _ _ _ K1 K2'). apply distance_0.
Qed.
Lemma zero_approx e : 0 <= e -> approx 0 e $0.
Proof. intros P. destruct (fz_val o 0) as [F0 V0]; [sm|]. split; [exact F0|]. change (@B2R 24 128) with fval. rewrite V0, Rminus_0_r, Rabs_R0. exact P. Qed.

Lemma euclid_measured s : measured (Euclid s) h p1 p2 (byte_distance t1 t2) (26 * u).
Proof.
  destruct (Nat.eq_dec p1 p2) as [E|N].
  - rewrite (same_place E), E. exists $0, h. split; [apply (@distance_same f32 (F32 o))|]. apply zero_approx. num.
  - destruct (deep_made c1 t1 W1 B1 K1) as [s1 [E1 [_ D1]]]. destruct (deep_made c2 t2 W2 B2 K2) as [s2 [E2 [_ D2]]].
    destruct (bytes_run (Euclid s) h p1 c1 p2 c2 s1 s2 eq_refl N H1 H2 W1 W2 E1 E2) as [h' R].
    destruct (squares_close t1 t2 s1 s2 B1 B2 D1 D2) as [v [n [Es [Fv [Ev [Nn [Eb Bb]]]]]]].
    exists (@fsqrt f32 (F32 o) v), h'. split; [rewrite R; cbn [on_components]; rewrite Es; reflexivity|]. apply (root_close v n); assumption.
Qed.
Lemma squared_measured s : s <> CIELUV -> measured (Squared s) h p1 p2 (byte_distance t1 t2 * byte_distance t1 t2) (81 * u).
Proof.
  intros NS. destruct (Nat.eq_dec p1 p2) as [E|N].
  - rewrite (same_place E), E, Rmult_0_l. exists $0, h. split; [apply (@distance_same f32 (F32 o))|]. apply zero_approx. num.
  - destruct (deep_made c1 t1 W1 B1 K1) as [s1 [E1 [_ D1]]]. destruct (deep_made c2 t2 W2 B2 K2) as [s2 [E2 [_ D2]]].
    destruct (bytes_run (Squared s) h p1 c1 p2 c2 s1 s2) as [h' R]; auto; [destruct s; try reflexivity; contradiction|].
    destruct (squares_close t1 t2 s1 s2 B1 B2 D1 D2) as [v [n [Es [Fv [Ev [Nn [Eb Bb]]]]]]].
    exists v, h'. split; [rewrite R; cbn [on_components]; rewrite Es; reflexivity|]. split; [exact Fv|]. apply (square_close v n); assumption.
Qed.
End Pair.
End Rank.

(** ** Statements *)
Lemma accuracy : forall o, accurate_square o -> forall s (h : heap f32) p1 c1 t1 p2 c2 t2, at_addr h p1 c1 -> at_addr h p2 c2 ->
  @wf_color f32 (F32 o) RGB_TRUE c1 -> @wf_color f32 (F32 o) RGB_TRUE c2 -> is_bytes t1 -> is_bytes t2 -> holds_bytes t1 c1 -> holds_bytes t2 c2 ->
  exists x h', @distance f32 (F32 o) (Euclid s) (Some p1) (Some p2) h = (Ok x, h') /\ approx (byte_distance t1 t2) (/ 524288) x /\ (B2R x = 0 <-> t1 = t2).
Proof.
  intros o AS s h p1 c1 t1 p2 c2 t2 H1 H2 W1 W2 B1 B2 K1 K2. destruct (Nat.eq_dec p1 p2) as [E|N].
  - exists (@fz f32 (F32 o) 0), h. destruct (fz_val o 0) as [F0 V0]; [sm|]. split; [rewrite E; apply (@distance_same f32 (F32 o))|]. split.
    + rewrite (same_place h p1 p2 c1 c2 t1 t2 H1 H2 K1 K2 E). apply zero_approx. lra.
    + split; [intros _|intros _; exact V0]. assert (c1 = c2). { rewrite <- E in H2. unfold at_addr in H1, H2. congruence. } subst c2. apply (same_bytes _ _ c1); assumption.
  - destruct (deep_made o c1 t1 W1 B1 K1) as [s1 [E1 [_ D1]]]. destruct (deep_made o c2 t2 W2 B2 K2) as [s2 [E2 [_ D2]]].
    destruct (euclid_measured o AS h p1 p2 c1 c2 t1 t2 H1 H2 W1 W2 B1 B2 K1 K2 s) as [x [h' [R [Fx Ex]]]]. exists x, h'. split; [exact R|]. split; [split; [exact Fx|]; eapply Rle_trans; [exact Ex|num]|]. split.
    + intros Z. destruct t1 as [[r1 g1] b1]. destruct t2 as [[r2 g2] b2]. rewrite Z in Ex.
      destruct (Z.eq_dec r1 r2) as [Er|Er]; [destruct (Z.eq_dec g1 g2) as [Eg|Eg]; [destruct (Z.eq_dec b1 b2) as [Eb|Eb]; [congruence|]|]|];
        exfalso; (assert (L : / 255 <= byte_distance (r1, g1, b1) (r2, g2, b2)) by (apply differ; congruence); rewrite Rabs_left1 in Ex by lra; num).
    + intros Et. subst t2. destruct (bytes_run o (Euclid s) h p1 c1 p2 c2 s1 s2 eq_refl N H1 H2 W1 W2 E1 E2) as [h'' R']. rewrite R' in R. cbn [on_components] in R.
      destruct (squares_close o AS t1 t1 s1 s2 B1 B2 D1 D2) as [v [n [Es [Fv [Ev [Nn [Eb Bb]]]]]]]. rewrite Es in R. cbn [obind] in R. assert (Ex' : x = @fsqrt f32 (F32 o) v) by congruence. 
      assert (fval v = 0); [|].
      { destruct t1 as [[r g] b]. destruct D1 as [x1 [y1 [z1 [C1 [[Fx1 Vx1] [[Fy1 Vy1] [Fz1 Vz1]]]]]]]. destruct D2 as [x2 [y2 [z2 [C2 [[Fx2 Vx2] [[Fy2 Vy2] [Fz2 Vz2]]]]]]]. destruct B1 as [Hr [Hg Hb]].
        unfold squared_f in Es. rewrite C1, C2 in Es. cbn [sum_squares] in Es. apply Ok_inj in Es. rewrite <- Es.
        destruct (diff o x1 x2 r r Hr Hr Fx1 Fx2 Vx1 Vx2) as [Fr [_ [Zr [_ Br]]]]. destruct (diff o y1 y2 g g Hg Hg Fy1 Fy2 Vy1 Vy2) as [Fg [_ [Zg [_ Bg]]]]. destruct (diff o z1 z2 b b Hb Hb Fz1 Fz2 Vz1 Vz2) as [Fb [_ [Zb [_ Bb']]]].
        destruct (sum3 o AS _ _ _ Fr Fg Fb (or_introl (Zr eq_refl)) (or_introl (Zg eq_refl)) (or_introl (Zb eq_refl)) Br Bg Bb') as [_ [Ev' _]]. cbv zeta in Ev'.
        rewrite (Zr eq_refl), (Zg eq_refl), (Zb eq_refl) in Ev'. apply Rabs_le_inv in Ev'. num. }
      rewrite Ex'. destruct (Bsqrt_ok v Fv) as [_ Vs]; [lra|]. change (fval (Bsqrt mode_NE v) = 0). rewrite Vs, H, sqrt_0. apply rnd32_0.
Qed.

Lemma ranking : forall o, accurate_square o -> forall s (h h2 : heap f32) p1 c1 t1 p2 c2 t2 p3 c3 t3 p4 c4 t4,
  at_addr h p1 c1 -> at_addr h p2 c2 -> at_addr h2 p3 c3 -> at_addr h2 p4 c4 ->
  @wf_color f32 (F32 o) RGB_TRUE c1 -> @wf_color f32 (F32 o) RGB_TRUE c2 -> @wf_color f32 (F32 o) RGB_TRUE c3 -> @wf_color f32 (F32 o) RGB_TRUE c4 ->
  is_bytes t1 -> is_bytes t2 -> is_bytes t3 -> is_bytes t4 -> holds_bytes t1 c1 -> holds_bytes t2 c2 -> holds_bytes t3 c3 -> holds_bytes t4 c4 ->
  byte_distance t1 t2 < byte_distance t3 t4 ->
  (exists x y h' h2', @distance f32 (F32 o) (Euclid s) (Some p1) (Some p2) h = (Ok x, h') /\ @distance f32 (F32 o) (Euclid s) (Some p3) (Some p4) h2 = (Ok y, h2') /\
    is_finite x = true /\ is_finite y = true /\ B2R x < B2R y) /\
  (s <> CIELUV -> exists x y h' h2', @distance f32 (F32 o) (Squared s) (Some p1) (Some p2) h = (Ok x, h') /\ @distance f32 (F32 o) (Squared s) (Some p3) (Some p4) h2 = (Ok y, h2') /\
    is_finite x = true /\ is_finite y = true /\ B2R x < B2R y).
Proof.
  intros o AS s h h2 p1 c1 t1 p2 c2 t2 p3 c3 t3 p4 c4 t4 H1 H2 H3 H4 W1 W2 W3 W4 B1 B2 B3 B4 K1 K2 K3 K4 L.
  pose proof (steps_lt _ _ _ _ L) as Q. pose proof (distance_pos t1 t2) as P. split.
  - destruct (euclid_measured o AS h p1 p2 c1 c2 t1 t2 H1 H2 W1 W2 B1 B2 K1 K2 s) as [x [h' [R [Fx Ex]]]].
    destruct (euclid_measured o AS h2 p3 p4 c3 c4 t3 t4 H3 H4 W3 W4 B3 B4 K3 K4 s) as [y [h2' [R' [Fy Ey]]]].
    exists x, y, h', h2'. split; [exact R|]. split; [exact R'|]. split; [exact Fx|]. split; [exact Fy|].
    destruct (deep_made o c3 t3 W3 B3 K3) as [s1 [_ [_ D1]]]. destruct (deep_made o c4 t4 W4 B4 K4) as [s2 [_ [_ D2]]].
    destruct (squares_close o AS t3 t4 s1 s2 B3 B4 D1 D2) as [_ [_ [_ [_ [_ [_ [_ Bb]]]]]]].
    apply Rabs_le_inv in Ex. apply Rabs_le_inv in Ey. set (a := byte_distance t1 t2) in * . set (b := byte_distance t3 t4) in * .
    assert (G : 70 * u <= b - a).
    { apply Rnot_lt_le. intros C. assert ((b - a) * (b + a) <= 70 * u * (34642 / 10000)) by (apply Rmult_le_compat; lra). replace ((b - a) * (b + a)) with (b * b - a * a) in H by ring. num. }
    num.
  - intros NS. destruct (squared_measured o AS h p1 p2 c1 c2 t1 t2 H1 H2 W1 W2 B1 B2 K1 K2 s NS) as [x [h' [R [Fx Ex]]]].
    destruct (squared_measured o AS h2 p3 p4 c3 c4 t3 t4 H3 H4 W3 W4 B3 B4 K3 K4 s NS) as [y [h2' [R' [Fy Ey]]]].
    exists x, y, h', h2'. split; [exact R|]. split; [exact R'|]. split; [exact Fx|]. split; [exact Fy|].
    apply Rabs_le_inv in Ex. apply Rabs_le_inv in Ey. num.
Qed.

Lemma square_exists : exists o, accurate_square o /\ even_square o.
Proof.
  exists (Oracle (fun x _ => Bmult mode_NE x x) (fun x => x) (fun x => x) (fun x _ => x) (fun x => x) (fun x => x)). split.
  - intros x Fx B. cbn [o_pow]. change (@B2R 24 128) with fval in * . destruct (Bmult_ok x x (- 2 ^ 20) (2 ^ 20) Fx Fx) as [Fm Vm]; try sm.
    { apply Rabs_le_inv in B. pose proof (Rle_0_sqr (fval x)) as Q. unfold Rsqr in Q. change (IZR (- 2 ^ 20)) with (-1048576). change (IZR (2 ^ 20)) with 1048576. split; [lra|].
      rewrite <- (Rabs_pos_eq (fval x * fval x)) by exact Q. rewrite Rabs_mult. apply Rle_trans with (1024 * 1024); [|lra]. apply Rmult_le_compat; try apply Rabs_pos; apply Rabs_le; exact B. }
    split; [exact Fm|]. rewrite Vm. split; [intros ->; rewrite Rmult_0_l; apply rnd32_0|]. eapply Rle_trans; [apply rnd_err|].
    rewrite (Rabs_pos_eq (fval x * fval x)) by apply Rle_0_sqr. pose proof (Rle_0_sqr (fval x)) as Q. unfold Rsqr in Q.
    assert (u * (fval x * fval x) <= / 1048576 * (fval x * fval x)) by (apply Rmult_le_compat_r; [exact Q|num]). unfold tiny. lra.
  - intros x Fx. cbn [o_pow]. destruct x as [a|a| |a m e B]; try discriminate Fx; [destruct a; reflexivity|]. apply B2SF_inj. cbn [Bopp]. unfold Bmult. rewrite !B2SF_SF2B. destruct a; reflexivity.
Qed.

Lemma opposite o (x y : f32) m n : even_square o -> is_byte m -> is_byte n -> fin x -> fin y -> fval x = q255 m -> fval y = q255 n ->
  o_pow o (Bminus mode_NE x y) (@fz f32 (F32 o) 2) = o_pow o (Bminus mode_NE y x) (@fz f32 (F32 o) 2).
Proof.
  intros E Hm Hn Fx Fy Vx Vy. destruct (diff o x y m n Hm Hn Fx Fy Vx Vy) as [F1 [_ [Z1 [A1 B1]]]]. destruct (diff o y x n m Hn Hm Fy Fx Vy Vx) as [F2 [_ [Z2 [A2 B2]]]].
  assert (V1 : fval (Bminus mode_NE x y) = rnd32 (q255 m - q255 n)). { destruct (q255_near m Hm) as [_ Bm]. destruct (q255_near n Hn) as [_ Bn]. destruct (Bminus_ok x y (-1) 1 Fx Fy) as [_ Vd]; try sm; [rewrite Vx, Vy; lra|]. rewrite Vd, Vx, Vy. reflexivity. }
  assert (V2 : fval (Bminus mode_NE y x) = rnd32 (q255 n - q255 m)). { destruct (q255_near m Hm) as [_ Bm]. destruct (q255_near n Hn) as [_ Bn]. destruct (Bminus_ok y x (-1) 1 Fy Fx) as [_ Vd]; try sm; [rewrite Vx, Vy; lra|]. rewrite Vd, Vx, Vy. reflexivity. }
  assert (V : fval (Bminus mode_NE y x) = fval (Bopp (Bminus mode_NE x y))).
  { rewrite B2R_Bopp, V1, V2. replace (q255 n - q255 m) with (- (q255 m - q255 n)) by ring. unfold rnd32. apply round_NE_opp. }
  change (@fsub f32 (F32 o) x y) with (Bminus mode_NE x y) in * . change (@fsub f32 (F32 o) y x) with (Bminus mode_NE y x) in * .
  revert F1 F2 V A1 A2 Z1 Z2. generalize (Bminus mode_NE x y) (Bminus mode_NE y x). intros a b Fa Fb V A1 A2 Z1 Z2.
  destruct (Z.eq_dec m n) as [Q|Q].
  - specialize (Z1 Q). specialize (Z2 (eq_sym Q)).
    assert (K : forall f : f32, fin f -> fval f = 0 -> f = B754_zero false \/ f = B754_zero true).
    { intros f Ff Vf. destruct f as [s|s| |s k e B]; try discriminate Ff; [destruct s; auto|]. exfalso. apply (F2R_neq_0 radix2 (Float radix2 (cond_Zopp s (Zpos k)) e)); [destruct s; discriminate|exact Vf]. }
    pose proof (E (B754_zero false) eq_refl) as E0. cbn [Bopp negb] in E0.
    destruct (K a Fa Z1) as [->| ->]; destruct (K b Fb Z2) as [->| ->]; congruence.
  - rewrite <- (E a Fa). f_equal. symmetry. apply B2R_inj; [| |exact V].
    + destruct b as [s|s| |s k e B]; try discriminate Fb; [|reflexivity]. exfalso. assert (/ 256 <= Rabs 0) by (apply A2; congruence). rewrite Rabs_R0 in H. lra.
    + destruct a as [s|s| |s k e B]; try discriminate Fa; [|reflexivity]. exfalso. assert (/ 256 <= Rabs 0) by (apply A1; congruence). rewrite Rabs_R0 in H. lra.
Qed.

Lemma squared_swap o t1 t2 s1 s2 : even_square o -> is_bytes t1 -> is_bytes t2 -> deep_of t1 s1 -> deep_of t2 s2 -> @squared_f f32 (F32 o) s1 s2 = @squared_f f32 (F32 o) s2 s1.
Proof.
  intros E. destruct t1 as [[r1 g1] b1]. destruct t2 as [[r2 g2] b2]. intros [Hr1 [Hg1 Hb1]] [Hr2 [Hg2 Hb2]] [x1 [y1 [z1 [C1 [[Fx1 Vx1] [[Fy1 Vy1] [Fz1 Vz1]]]]]]] [x2 [y2 [z2 [C2 [[Fx2 Vx2] [[Fy2 Vy2] [Fz2 Vz2]]]]]]].
  unfold squared_f. rewrite C1, C2. cbn [sum_squares]. cbn [fpow fsub F32].
  rewrite (opposite o x1 x2 r1 r2 E Hr1 Hr2 Fx1 Fx2 Vx1 Vx2), (opposite o y1 y2 g1 g2 E Hg1 Hg2 Fy1 Fy2 Vy1 Vy2), (opposite o z1 z2 b1 b2 E Hb1 Hb2 Fz1 Fz2 Vz1 Vz2). reflexivity.
Qed.

Lemma symmetry : forall o, even_square o -> forall s (h : heap f32) p1 c1 t1 p2 c2 t2, at_addr h p1 c1 -> at_addr h p2 c2 ->
  @wf_color f32 (F32 o) RGB_TRUE c1 -> @wf_color f32 (F32 o) RGB_TRUE c2 -> is_bytes t1 -> is_bytes t2 -> holds_bytes t1 c1 -> holds_bytes t2 c2 ->
  fst (@distance f32 (F32 o) (Euclid s) (Some p1) (Some p2) h) = fst (@distance f32 (F32 o) (Euclid s) (Some p2) (Some p1) h) /\
  (s <> CIELUV -> fst (@distance f32 (F32 o) (Squared s) (Some p1) (Some p2) h) = fst (@distance f32 (F32 o) (Squared s) (Some p2) (Some p1) h)).
Proof.
  intros o E s h p1 c1 t1 p2 c2 t2 H1 H2 W1 W2 B1 B2 K1 K2. destruct (Nat.eq_dec p1 p2) as [Q|N]; [subst; auto|].
  destruct (deep_made o c1 t1 W1 B1 K1) as [s1 [E1 [_ D1]]]. destruct (deep_made o c2 t2 W2 B2 K2) as [s2 [E2 [_ D2]]].
  assert (N' : p2 <> p1) by congruence. split.
  - destruct (bytes_run o (Euclid s) h p1 c1 p2 c2 s1 s2 eq_refl N H1 H2 W1 W2 E1 E2) as [h' R]. destruct (bytes_run o (Euclid s) h p2 c2 p1 c1 s2 s1 eq_refl N' H2 H1 W2 W1 E2 E1) as [h2 R2].
    rewrite R, R2. cbn [fst on_components]. rewrite (squared_swap o t1 t2 s1 s2 E B1 B2 D1 D2). reflexivity.
  - intros NS. assert (CI : @compared_in f32 (Squared s) = RGB_DEEP) by (destruct s; try reflexivity; contradiction).
    destruct (bytes_run o (Squared s) h p1 c1 p2 c2 s1 s2 CI N H1 H2 W1 W2 E1 E2) as [h' R]. destruct (bytes_run o (Squared s) h p2 c2 p1 c1 s2 s1 CI N' H2 H1 W2 W1 E2 E1) as [h2 R2].
    rewrite R, R2. cbn [fst on_components]. apply (squared_swap o t1 t2 s1 s2 E B1 B2 D1 D2).
Qed.

Lemma squared_accuracy : forall o, accurate_square o -> forall s (h : heap f32) p1 c1 t1 p2 c2 t2, s <> CIELUV -> at_addr h p1 c1 -> at_addr h p2 c2 ->
  @wf_color f32 (F32 o) RGB_TRUE c1 -> @wf_color f32 (F32 o) RGB_TRUE c2 -> is_bytes t1 -> is_bytes t2 -> holds_bytes t1 c1 -> holds_bytes t2 c2 ->
  exists x h', @distance f32 (F32 o) (Squared s) (Some p1) (Some p2) h = (Ok x, h') /\ approx (byte_distance t1 t2 * byte_distance t1 t2) (/ 131072) x.
Proof.
  intros o AS s h p1 c1 t1 p2 c2 t2 NS H1 H2 W1 W2 B1 B2 K1 K2.
  destruct (squared_measured o AS h p1 p2 c1 c2 t1 t2 H1 H2 W1 W2 B1 B2 K1 K2 s NS) as [x [h' [R [Fx Ex]]]]. exists x, h'. split; [exact R|]. split; [exact Fx|]. eapply Rle_trans; [exact Ex|num].
Qed.
