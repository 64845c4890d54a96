(** * Delta E 2000 is defined for every pair of colours (C176) *)
From Coq Require Import ZArith QArith Reals Lra Lia List Bool.
From Flocq Require Import Core IEEE754.BinarySingleNaN.
From Verif Require Import Arith Outcome ColorModel GammaModel MatrixModel SpaceModel Heap Converter Calculation Distance F32 F32Facts RArith
  Spec Spec32 Laws NormalForms Alpha8 Core_Proofs Core2_Proofs Core3_Proofs Core4_Proofs Hue32 Spec_Matrix Spec_Conv Spec_Calc Conv_Proofs Spec_Distance Distance_Proofs Distance2_Proofs Error_Proofs Rank_Proofs Spec_Tame.
Import ListNotations.
Local Open Scope R_scope.
Local Notation fin x := (is_finite x = true).
Local Notation fval := (@B2R 24 128).

(** ** Operations on numbers of any size *)
Lemma rnd_le x e : (-149 <= e < 128)%Z -> Rabs x <= bpow radix2 e -> Rabs (rnd32 x) <= bpow radix2 e /\ Rabs (rnd32 x) < bpow radix2 128.
Proof.
  intros He B. assert (A : Rabs (rnd32 x) <= bpow radix2 e).
  { unfold rnd32. apply abs_round_le_generic; [apply fexp_correct; reflexivity|apply valid_rnd_N| |exact B]. apply generic_format_bpow. unfold SpecFloat.fexp, SpecFloat.emin. lia. }
  split; [exact A|]. eapply Rle_lt_trans; [exact A|]. apply bpow_lt. lia.
Qed.
Lemma plus_big (x y : f32) e : (-149 <= e < 128)%Z -> fin x -> fin y -> Rabs (fval x + fval y) <= bpow radix2 e ->
  fin (Bplus mode_NE x y) /\ fval (Bplus mode_NE x y) = rnd32 (fval x + fval y) /\ Rabs (fval (Bplus mode_NE x y)) <= bpow radix2 e.
Proof.
  intros He Fx Fy B. destruct (rnd_le _ e He B) as [R1 R2]. pose proof (Bplus_correct 24 128 prec_gt_0_32 prec_lt_emax_32 mode_NE x y Fx Fy) as H. cbv zeta in H.
  rewrite Rlt_bool_true in H by exact R2. destruct H as [H1 [H2 _]]. split; [exact H2|]. split; [exact H1|]. rewrite H1. exact R1.
Qed.
Lemma minus_big (x y : f32) e : (-149 <= e < 128)%Z -> fin x -> fin y -> Rabs (fval x - fval y) <= bpow radix2 e ->
  fin (Bminus mode_NE x y) /\ fval (Bminus mode_NE x y) = rnd32 (fval x - fval y) /\ Rabs (fval (Bminus mode_NE x y)) <= bpow radix2 e.
Proof.
  intros He Fx Fy B. destruct (rnd_le _ e He B) as [R1 R2]. pose proof (Bminus_correct 24 128 prec_gt_0_32 prec_lt_emax_32 mode_NE x y Fx Fy) as H. cbv zeta in H.
  rewrite Rlt_bool_true in H by exact R2. destruct H as [H1 [H2 _]]. split; [exact H2|]. split; [exact H1|]. rewrite H1. exact R1.
Qed.
Lemma mult_big (x y : f32) e : (-149 <= e < 128)%Z -> fin x -> fin y -> Rabs (fval x * fval y) <= bpow radix2 e ->
  fin (Bmult mode_NE x y) /\ fval (Bmult mode_NE x y) = rnd32 (fval x * fval y) /\ Rabs (fval (Bmult mode_NE x y)) <= bpow radix2 e.
Proof.
  intros He Fx Fy B. destruct (rnd_le _ e He B) as [R1 R2]. pose proof (Bmult_correct 24 128 prec_gt_0_32 prec_lt_emax_32 mode_NE x y) as H. cbv zeta in H.
  rewrite Rlt_bool_true in H by exact R2. destruct H as [H1 [H2 _]]. rewrite Fx, Fy in H2. split; [exact H2|]. split; [exact H1|]. rewrite H1. exact R1.
Qed.
Lemma div_big (x y : f32) e : (-149 <= e < 128)%Z -> fin x -> fin y -> fval y <> 0 -> Rabs (fval x / fval y) <= bpow radix2 e ->
  fin (Bdiv mode_NE x y) /\ fval (Bdiv mode_NE x y) = rnd32 (fval x / fval y) /\ Rabs (fval (Bdiv mode_NE x y)) <= bpow radix2 e.
Proof.
  intros He Fx Fy N B. destruct (rnd_le _ e He B) as [R1 R2]. pose proof (Bdiv_correct 24 128 prec_gt_0_32 prec_lt_emax_32 mode_NE x y N) as H. cbv zeta in H.
  rewrite Rlt_bool_true in H by exact R2. destruct H as [H1 [H2 _]]. rewrite Fx in H2. split; [exact H2|]. split; [exact H1|]. rewrite H1. exact R1.
Qed.
Lemma rnd_nonneg x : 0 <= x -> 0 <= rnd32 x.
Proof. intros. unfold rnd32. apply round_ge_generic; [apply fexp_correct; reflexivity|apply valid_rnd_N|apply generic_format_0|assumption]. Qed.
Lemma sqrt_big (x : f32) e : (-149 <= e < 128)%Z -> fin x -> 0 <= fval x -> fval x <= bpow radix2 e * bpow radix2 e -> fin (Bsqrt mode_NE x) /\ 0 <= fval (Bsqrt mode_NE x) <= bpow radix2 e.
Proof.
  intros He Fx P B. destruct (Bsqrt_ok x Fx P) as [F V]. split; [exact F|]. rewrite V. split; [apply rnd_nonneg, sqrt_pos|].
  destruct (rnd_le (sqrt (fval x)) e He) as [R _].
  - rewrite Rabs_pos_eq by apply sqrt_pos. rewrite <- (sqrt_square (bpow radix2 e)) by apply bpow_ge_0. apply sqrt_le_1_alt. exact B.
  - rewrite Rabs_pos_eq in R by (apply rnd_nonneg, sqrt_pos). exact R.
Qed.
Lemma fz_small o n : (Z.abs n <= 16777216)%Z -> fin (@fz f32 (F32 o) n) /\ fval (@fz f32 (F32 o) n) = IZR n.
Proof. intros. destruct (lit32_int n) as [A B]; [unfold small; lia|]. split; assumption. Qed.

Lemma lab_range3 o (c : color f32) : @wf_color f32 (F32 o) LAB c -> exists l a b, comps c = [l; a; b] /\ fin a /\ Rabs (fval a) <= 128 /\ fin b /\ Rabs (fval b) <= 128.
Proof.
  intros W. destruct (comps3 LAB c W eq_refl) as [l [a [b E]]]. exists l, a, b. split; [exact E|].
  pose proof (wf_range _ _ W 1%nat a ltac:(rewrite E; reflexivity)) as R1. pose proof (wf_range _ _ W 2%nat b ltac:(rewrite E; reflexivity)) as R2.
  apply (within_in_interval o) in R1; try (unfold small; cbn; lia). apply (within_in_interval o) in R2; try (unfold small; cbn; lia).
  destruct R1 as [F1 R1]. destruct R2 as [F2 R2]. cbn [comp_range fst snd] in R1, R2. repeat split; try assumption; apply Rabs_le; lra.
Qed.

Section Tame.
Variable o : oracle.
Hypothesis T : tame o.
Local Notation "$ n" := (@fz f32 (F32 o) n) (at level 0, n at level 0, format "$ n").
Local Notation pow := (@fpow f32 (F32 o)).
Local Notation "x +. y" := (@fadd f32 (F32 o) x y) (at level 50, left associativity).
Local Notation "x -. y" := (@fsub f32 (F32 o) x y) (at level 50, left associativity).
Local Notation "x *. y" := (@fmul f32 (F32 o) x y) (at level 40, left associativity).
Local Notation "x /. y" := (@fdiv f32 (F32 o) x y) (at level 40, left associativity).

Lemma b16 : bpow radix2 16 = 65536. Proof. reflexivity. Qed.
Lemma chroma_ok (a b : f32) : fin a -> fin b -> Rabs (fval a) <= 128 -> Rabs (fval b) <= 128 -> let c := Bsqrt mode_NE (pow a $2 +. pow b $2) in fin c /\ 0 <= fval c <= 256.
Proof.
  intros Fa Fb Ba Bb. cbv zeta. destruct (proj1 T a Fa Ba) as [F1 R1]. destruct (proj1 T b Fb Bb) as [F2 R2]. change (o_pow o) with pow in * . change (@B2R 24 128) with fval in * .
  destruct (plus_big (pow a $2) (pow b $2) 16 ltac:(lia) F1 F2) as [F3 [V3 B3]]; [rewrite b16; apply Rabs_le; lra|].
  change (Bplus mode_NE (pow a $2) (pow b $2)) with (pow a $2 +. pow b $2) in * .
  assert (P : 0 <= fval (pow a $2 +. pow b $2)) by (rewrite V3; apply rnd_nonneg; lra). rewrite Rabs_pos_eq in B3 by exact P. rewrite b16 in B3.
  destruct (sqrt_big _ 8 ltac:(lia) F3 P) as [F4 B4]; [change (bpow radix2 8) with 256; lra|]. split; [exact F4|]. change (bpow radix2 8) with 256 in B4. exact B4.
Qed.

Lemma pow7_ok (c : f32) : fin c -> 0 <= fval c <= 256 -> let s := Bsqrt mode_NE (pow c $7 /. (pow c $7 +. pow $25 $7)) in fin s /\ 0 <= fval s <= bpow radix2 30.
Proof.
  intros Fc Bc. cbv zeta. destruct (proj1 (proj2 T) c Fc Bc) as [F1 R1]. destruct (fz_small o 25 ltac:(lia)) as [F25 V25].
  destruct (proj1 (proj2 T) $25 F25) as [F2 R2]. { change (@B2R 24 128) with fval. rewrite V25. lra. } pose proof (proj1 (proj2 (proj2 T))) as L.
  change (o_pow o) with pow in * . change (@B2R 24 128) with fval in * . set (x := pow c $7) in * . set (y := pow $25 $7) in * . clearbody x y.
  assert (E60 : bpow radix2 60 = 2 ^ 60) by (change (bpow radix2 60) with (IZR (2 ^ 60)); rewrite (pow_IZR 2 60); reflexivity).
  assert (E61 : bpow radix2 61 = 2 * 2 ^ 60) by (rewrite <- E60; change 61%Z with (60 + 1)%Z; rewrite bpow_plus; change (bpow radix2 1) with 2; lra).
  destruct (plus_big x y 61 ltac:(lia) F1 F2) as [F3 [V3 B3]]; [rewrite E61; apply Rabs_le; lra|].
  change (Bplus mode_NE x y) with (x +. y) in * .
  assert (P : 1 <= fval (x +. y)). { rewrite V3. unfold rnd32. apply round_ge_generic; [apply fexp_correct; reflexivity|apply valid_rnd_N| |lra]. change 1 with (bpow radix2 0). apply generic_format_bpow. unfold SpecFloat.fexp, SpecFloat.emin. lia. }
  assert (Q : 0 <= fval x / fval (x +. y) <= 2 ^ 60).
  { split; [apply Rmult_le_pos; [lra|left; apply Rinv_0_lt_compat; lra]|]. apply Rle_trans with (fval x / 1); [|lra]. unfold Rdiv. apply Rmult_le_compat_l; [lra|]. apply Rinv_le_contravar; lra. }
  destruct (div_big x (x +. y) 60 ltac:(lia) F1 F3 ltac:(lra)) as [F4 [V4 B4]]; [rewrite E60, Rabs_pos_eq; lra|].
  change (Bdiv mode_NE x (x +. y)) with (x /. (x +. y)) in * .
  assert (P4 : 0 <= fval (x /. (x +. y))) by (rewrite V4; apply rnd_nonneg; lra). rewrite Rabs_pos_eq in B4 by exact P4.
  apply sqrt_big; [lia|exact F4|exact P4|]. rewrite <- bpow_plus. exact B4.
Qed.
Lemma shifted_ok (a s : f32) : fin a -> Rabs (fval a) <= 128 -> fin s -> 0 <= fval s <= bpow radix2 30 -> fin (a +. a /. $2 *. ($1 -. s)).
Proof.
  intros Fa Ba Fs Bs. destruct (fz_small o 1 ltac:(lia)) as [F1 V1]. destruct (fz_small o 2 ltac:(lia)) as [F2 V2]. apply Rabs_le_inv in Ba.
  assert (E30 : bpow radix2 30 = 1073741824) by reflexivity. assert (E40 : bpow radix2 40 = 1099511627776) by reflexivity. assert (E41 : bpow radix2 41 = 2199023255552) by reflexivity.
  destruct (minus_big $1 s 30 ltac:(lia) F1 Fs) as [F3 [_ B3]]; [rewrite V1, E30 in * ; apply Rabs_le; lra|].
  destruct (div_big a $2 7 ltac:(lia) Fa F2) as [F4 [_ B4]]; [rewrite V2; lra|rewrite V2; change (bpow radix2 7) with 128; apply Rabs_le; lra|].
  destruct (mult_big _ _ 37 ltac:(lia) F4 F3) as [F5 [_ B5]].
  { rewrite Rabs_mult. replace 37%Z with (7 + 30)%Z by reflexivity. rewrite bpow_plus. apply Rmult_le_compat; try apply Rabs_pos; assumption. }
  destruct (plus_big a _ 38 ltac:(lia) Fa F5) as [F6 _]; [|exact F6].
  change (bpow radix2 37) with 137438953472 in B5. change (bpow radix2 38) with 274877906944. apply Rabs_le_inv in B5. apply Rabs_le. lra.
Qed.
Lemma deg_const : fin ($180 /. pi32) /\ Rabs (fval ($180 /. pi32)) <= 64.
Proof.
  assert (S : exists m, $180 /. pi32 = normalize m (-18) false /\ (0 <= m < 16777216)%Z). { exists 15019744%Z. split; [|lia]. apply B2SF_inj. vm_compute. reflexivity. }
  destruct S as [m [-> Hm]]. unfold normalize.
  pose proof (binary_normalize_correct 24 128 prec_gt_0_32 prec_lt_emax_32 mode_NE m (-18) false) as H. cbv zeta in H.
  assert (P : 0 <= F2R (Float radix2 m (-18)) <= 64).
  { unfold F2R. cbn [Fnum Fexp]. change (bpow radix2 (-18)) with (/ 262144). destruct Hm as [M1 M2]. apply IZR_le in M1. apply IZR_lt in M2. lra. }
  destruct (rnd_le (F2R (Float radix2 m (-18))) 6 ltac:(lia)) as [R1 R2]; [rewrite Rabs_pos_eq by lra; change (bpow radix2 6) with 64; lra|].
  rewrite Rlt_bool_true in H by exact R2. destruct H as [H1 [H2 _]]. split; [exact H2|]. rewrite H1. exact R1.
Qed.
Lemma hue_ok (b a : f32) : fin b -> fin a -> exists z, @hue_int f32 (F32 o) b a = Ok z.
Proof.
  intros Fb Fa. unfold hue_int, to_deg. cbn [fatan2 ftoZ fpi F32]. destruct (proj2 (proj2 (proj2 T)) b a Fb Fa) as [FA BA]. change (@B2R 24 128) with fval in * .
  destruct deg_const as [FC BC]. destruct (mult_big (o_atan2 o b a) ($180 /. pi32) 8 ltac:(lia) FA FC) as [F [_ B]].
  { rewrite Rabs_mult. apply Rle_trans with (4 * 64); [apply Rmult_le_compat; try apply Rabs_pos; assumption|change (bpow radix2 8) with 256; lra]. }
  change (Bmult mode_NE (o_atan2 o b a) ($180 /. pi32)) with (o_atan2 o b a *. ($180 /. pi32)) in * . change (bpow radix2 8) with 256 in B.
  unfold toZ32. rewrite F. pose proof (Btrunc_correct 24 128 prec_lt_emax_32 (o_atan2 o b a *. ($180 /. pi32))) as TC. set (w := o_atan2 o b a *. ($180 /. pi32)) in * .
  replace ((-2147483648 <=? Btrunc w) && (Btrunc w <=? 2147483647))%Z with true; [eexists; reflexivity|]. symmetry.
  assert (TV : IZR (Btrunc w) = IZR (Ztrunc (fval w))). { rewrite TC. unfold round, scaled_mantissa, F2R, cexp, FIX_exp. cbn [Fnum Fexp]. rewrite bpow_opp. change (bpow radix2 0) with 1. rewrite Rinv_1, !Rmult_1_r. reflexivity. }
  apply eq_IZR in TV. rewrite TV. apply Rabs_le_inv in B. apply andb_true_intro. split; apply Z.leb_le.
  - apply Z.le_trans with (Ztrunc (IZR (-256))); [rewrite Ztrunc_IZR; lia|]. apply Ztrunc_le. lra.
  - apply Z.le_trans with (Ztrunc (IZR 256)); [|rewrite Ztrunc_IZR; lia]. apply Ztrunc_le. lra.
Qed.

Lemma cie00_ok kL k1 k2 kC kH c1 c2 : @wf_color f32 (F32 o) LAB c1 -> @wf_color f32 (F32 o) LAB c2 -> exists x, @cie00_f f32 (F32 o) kL k1 k2 kC kH c1 c2 = Ok x.
Proof.
  intros W1 W2. destruct (lab_range3 o c1 W1) as [l1 [a1 [b1 [E1 [Fa1 [Ba1 [Fb1 Bb1]]]]]]]. destruct (lab_range3 o c2 W2) as [l2 [a2 [b2 [E2 [Fa2 [Ba2 [Fb2 Bb2]]]]]]].
  unfold cie00_f, with3. rewrite E1, E2. cbv zeta.
  destruct (chroma_ok a1 b1 Fa1 Fb1 Ba1 Bb1) as [FC1 BC1]. destruct (chroma_ok a2 b2 Fa2 Fb2 Ba2 Bb2) as [FC2 BC2].
  change (@fsqrt f32 (F32 o)) with (@Bsqrt 24 128 prec_gt_0_32 prec_lt_emax_32 mode_NE) in * .
  set (C1 := Bsqrt mode_NE (pow a1 $2 +. pow b1 $2)) in * . set (C2 := Bsqrt mode_NE (pow a2 $2 +. pow b2 $2)) in * .
  destruct (fz_small o 2 ltac:(lia)) as [F2 V2].
  destruct (Bplus_ok C1 C2 0 512 FC1 FC2) as [FS VS]; try sm; [lra|]. assert (BS : 0 <= fval (Bplus mode_NE C1 C2) <= 512) by (rewrite VS; apply (rnd32_bounds _ 0 512); try sm; lra).
  destruct (Bdiv_ok (Bplus mode_NE C1 C2) $2 0 256 FS F2) as [FA VA]; try sm; [rewrite V2; lra|rewrite V2; lra|].
  assert (BA : 0 <= fval (Bdiv mode_NE (Bplus mode_NE C1 C2) $2) <= 256) by (rewrite VA, V2; apply (rnd32_bounds _ 0 256); try sm; lra).
  change (Bdiv mode_NE (Bplus mode_NE C1 C2) $2) with ((C1 +. C2) /. $2) in * .
  destruct (pow7_ok _ FA BA) as [FP BP]. cbv zeta in FP, BP.
  set (s := Bsqrt mode_NE _) in FP, BP |- * .
  destruct (hue_ok b1 _ Fb1 (shifted_ok a1 s Fa1 Ba1 FP BP)) as [h1 ->]. cbn [obind].
  destruct (hue_ok b2 _ Fb2 (shifted_ok a2 s Fa2 Ba2 FP BP)) as [h2 ->]. cbn [obind]. eexists. reflexivity.
Qed.
End Tame.

Lemma cie00_total : forall o, tame o -> forall kL k1 k2 kC kH X1 X2 (h : heap f32) p1 c1 p2 c2,
  at_addr h p1 c1 -> at_addr h p2 c2 -> @wf_color f32 (F32 o) X1 c1 -> @wf_color f32 (F32 o) X2 c2 ->
  (needs_space X1 LAB = true -> has_space h c1) -> (needs_space X2 LAB = true -> has_space h c2) ->
  exists x h', @distance f32 (F32 o) (Cie00 kL k1 k2 kC kH) (Some p1) (Some p2) h = (Ok x, h') /\ spaces h' = spaces h /\
    (forall i c, i <> p1 -> i <> p2 -> at_addr h i c -> at_addr h' i c).
Proof.
  intros o T kL k1 k2 kC kH X1 X2 h p1 c1 p2 c2 H1 H2 W1 W2 N1 N2. destruct (Nat.eq_dec p1 p2) as [->|NP].
  - exists (@fz f32 (F32 o) 0), h. rewrite distance_same. auto.
  - destruct (distance_run (AF := F32 o) (AL := F32Laws o) (Cie00 kL k1 k2 kC kH) X1 X2 h p1 c1 p2 c2 NP H1 H2 W1 W2 N1 N2) as [h' [d1 [d2 [_ [Wd1 [Wd2 [E [S [O _]]]]]]]]].
    destruct (cie00_ok o T kL k1 k2 kC kH d1 d2 Wd1 Wd2) as [x Ex]. exists x, h'. rewrite E. cbn [on_components]. rewrite Ex. auto.
Qed.

(** ** A library that satisfies the assumptions *)
Definition by_product (x y : f32) : f32 :=
  let s := Bmult mode_NE x x in if Beqb y (lit32 2) then s else Bmult mode_NE (Bmult mode_NE s s) (Bmult mode_NE s x).
Definition tame_oracle : oracle := Oracle by_product (fun x => x) (fun x => x) (fun _ _ => lit32 0) (fun x => x) (fun x => x).
Lemma tame_exists : tame tame_oracle.
Proof.
  assert (SQ : forall (x : f32) e, (0 <= e < 60)%Z -> fin x -> Rabs (fval x) <= bpow radix2 e -> fin (Bmult mode_NE x x) /\ 0 <= fval (Bmult mode_NE x x) <= bpow radix2 (e + e)).
  { intros x e He Fx B. destruct (mult_big x x (e + e) ltac:(lia) Fx Fx) as [F [V R]].
    - rewrite Rabs_mult, bpow_plus. apply Rmult_le_compat; try apply Rabs_pos; assumption.
    - split; [exact F|]. assert (P : 0 <= fval (Bmult mode_NE x x)) by (rewrite V; apply rnd_nonneg, Rle_0_sqr). rewrite Rabs_pos_eq in R by exact P. lra. }
  assert (K2 : forall x, o_pow tame_oracle x (@fz f32 (F32 tame_oracle) 2) = Bmult mode_NE x x) by reflexivity.
  assert (K7 : forall x, o_pow tame_oracle x (@fz f32 (F32 tame_oracle) 7) = Bmult mode_NE (Bmult mode_NE (Bmult mode_NE x x) (Bmult mode_NE x x)) (Bmult mode_NE (Bmult mode_NE x x) x)) by reflexivity.
  split; [|split; [|split]].
  - intros x Fx Bx. cbv zeta. rewrite K2. destruct (SQ x 7%Z ltac:(lia) Fx Bx) as [F B]. split; [exact F|]. change (bpow radix2 (7 + 7)) with 16384 in B. lra.
  - intros x Fx Bx. cbv zeta. rewrite K7. assert (A : Rabs (fval x) <= bpow radix2 8) by (change (bpow radix2 8) with 256; rewrite Rabs_pos_eq; lra).
    destruct (SQ x 8%Z ltac:(lia) Fx A) as [F1 B1]. set (s := Bmult mode_NE x x) in * . change (8 + 8)%Z with 16%Z in B1.
    destruct (SQ s 16%Z ltac:(lia) F1 ltac:(rewrite Rabs_pos_eq; lra)) as [F2 B2]. change (16 + 16)%Z with 32%Z in B2.
    destruct (mult_big s x 24 ltac:(lia) F1 Fx) as [F3 [V3 B3]].
    { rewrite Rabs_mult. replace (bpow radix2 24) with (bpow radix2 16 * bpow radix2 8) by (rewrite <- bpow_plus; reflexivity). apply Rmult_le_compat; try apply Rabs_pos; [rewrite Rabs_pos_eq; lra|exact A]. }
    assert (P3 : 0 <= fval (Bmult mode_NE s x)) by (rewrite V3; apply rnd_nonneg, Rmult_le_pos; lra).
    destruct (mult_big (Bmult mode_NE s s) (Bmult mode_NE s x) 56 ltac:(lia) F2 F3) as [F4 [V4 B4]].
    { rewrite Rabs_mult. replace (bpow radix2 56) with (bpow radix2 32 * bpow radix2 24) by (rewrite <- bpow_plus; reflexivity). apply Rmult_le_compat; try apply Rabs_pos; [rewrite Rabs_pos_eq; lra|exact B3]. }
    assert (P4 : 0 <= fval (Bmult mode_NE (Bmult mode_NE s s) (Bmult mode_NE s x))) by (rewrite V4; apply rnd_nonneg, Rmult_le_pos; lra).
    split; [exact F4|]. split; [exact P4|]. rewrite Rabs_pos_eq in B4 by exact P4. eapply Rle_trans; [exact B4|].
    change (bpow radix2 56) with (IZR (2 ^ 56)). rewrite (pow_IZR 2 60). apply IZR_le. cbn. lia.
  - assert (L : Bleb (lit32 1) (o_pow tame_oracle (@fz f32 (F32 tame_oracle) 25) (@fz f32 (F32 tame_oracle) 7)) = true) by (vm_compute; reflexivity).
    destruct (lit32_int 1 ltac:(unfold small; lia)) as [V1 F1].
    assert (F : fin (o_pow tame_oracle (@fz f32 (F32 tame_oracle) 25) (@fz f32 (F32 tame_oracle) 7))) by (vm_compute; reflexivity).
    change (lit32 1) with (lit32 (inject_Z 1)) in L. rewrite Bleb_fin in L by assumption. rewrite V1 in L. destruct (Rle_bool_spec 1 (fval (o_pow tame_oracle (@fz f32 (F32 tame_oracle) 25) (@fz f32 (F32 tame_oracle) 7)))); [assumption|discriminate].
  - intros y x _ _. cbn [o_atan2 tame_oracle]. destruct (lit32_int 0 ltac:(unfold small; lia)) as [V0 F0]. change (lit32 0) with (lit32 (inject_Z 0)). split; [exact F0|]. rewrite V0. rewrite Rabs_R0. lra.
Qed.
