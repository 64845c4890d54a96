(** * Facts about the binary32 instance *)
From Coq Require Import ZArith QArith Reals Lra Lia List Bool.
From Flocq Require Import Core IEEE754.BinarySingleNaN.
From Verif Require Import Arith F32.

Local Notation fin x := (is_finite x = true).
Notation fval := (@B2R 24 128).

(** ** Literals *)

Lemma normalize_exact m e s :
  generic_format radix2 (SpecFloat.fexp 24 128) (F2R (Float radix2 m e)) ->
  (Rabs (F2R (Float radix2 m e)) < bpow radix2 128)%R ->
  fval (normalize m e s) = F2R (Float radix2 m e) /\ fin (normalize m e s).
Proof.
  intros G B. unfold normalize.
  pose proof (binary_normalize_correct 24 128 prec_gt_0_32 prec_lt_emax_32 mode_NE m e s) as H.
  cbv zeta in H. rewrite (round_generic radix2 _ _ _ G) in H.
  rewrite Rlt_bool_true in H by exact B.
  tauto.
Qed.

Definition small (n : Z) : Prop := (Z.abs n <= 16777216)%Z.

Lemma format_small n : small n -> generic_format radix2 (SpecFloat.fexp 24 128) (IZR n).
Proof.
  intros H. unfold small in H.
  assert (G : generic_format radix2 (FLT_exp (SpecFloat.emin 24 128) 24) (IZR n)); [|exact G].
  destruct (Z.eq_dec (Z.abs n) 16777216) as [E|E].
  - assert (D : (n = 16777216 \/ n = -16777216)%Z) by lia.
    assert (P : IZR 16777216 = bpow radix2 24) by (simpl; lra).
    destruct D as [->| ->].
    + rewrite P. apply generic_format_bpow. unfold FLT_exp, SpecFloat.emin; simpl. lia.
    + replace (IZR (-16777216)) with (- bpow radix2 24)%R by (rewrite <- P; rewrite <- opp_IZR; reflexivity).
      apply generic_format_opp. apply generic_format_bpow. unfold FLT_exp, SpecFloat.emin; simpl. lia.
  - apply generic_format_FLT. exists (Float radix2 n 0).
    + unfold F2R; simpl; ring.
    + simpl. change (Z.pow_pos 2 24) with 16777216%Z. lia.
    + simpl. unfold SpecFloat.emin. lia.
Qed.

Lemma lit32_int_eq n : lit32 (inject_Z n) = normalize (n * 2 ^ 201) (-201) false.
Proof.
  unfold lit32. cbn [Qnum Qden inject_Z].
  rewrite Z.div_1_r, Z.mod_1_r. rewrite Z.eqb_refl.
  f_equal.
  change (2 ^ 201)%Z with (2 * 2 ^ 200)%Z. destruct (Z.ltb_spec n 0); lia.
Qed.

Lemma F2R_shift n : F2R (Float radix2 (n * 2 ^ 201) (-201)) = IZR n.
Proof.
  unfold F2R. cbn [Fnum Fexp].
  rewrite mult_IZR. change (IZR (2 ^ 201)) with (bpow radix2 201).
  rewrite Rmult_assoc, <- bpow_plus. cbn [Z.add bpow Z.pos_sub]. 
  change (201 + -201)%Z with 0%Z. simpl. ring.
Qed.

Lemma lit32_int n : small n -> fval (lit32 (inject_Z n)) = IZR n /\ fin (lit32 (inject_Z n)).
Proof.
  intros H. rewrite lit32_int_eq.
  pose proof (F2R_shift n) as E.
  rewrite <- E. apply normalize_exact; rewrite E.
  - apply format_small, H.
  - apply Rle_lt_trans with (IZR 16777216).
    + rewrite <- abs_IZR. apply IZR_le. exact H.
    + change (IZR 16777216) with (bpow radix2 24). apply bpow_lt. lia.
Qed.

(** ** Comparisons *)

Lemma Bleb_fin (x y : f32) : fin x -> fin y -> Bleb x y = Rle_bool (fval x) (fval y).
Proof. apply Bleb_correct. Qed.
Lemma Bltb_fin (x y : f32) : fin x -> fin y -> Bltb x y = Rlt_bool (fval x) (fval y).
Proof. apply Bltb_correct. Qed.
Lemma Beqb_fin (x y : f32) : fin x -> fin y -> Beqb x y = Req_bool (fval x) (fval y).
Proof. apply Beqb_correct. Qed.

Lemma fin_not_nan (x : f32) : fin x -> is_nan x = false.
Proof. destruct x; simpl; congruence. Qed.

(** Between two finite bounds, a value is finite. *)
Lemma between_fin (lo hi x : f32) :
  fin lo -> fin hi -> Bleb lo x = true -> Bleb x hi = true ->
  fin x /\ (fval lo <= fval x <= fval hi)%R.
Proof.
  intros Fl Fh A B.
  assert (Fx : fin x).
  { destruct x as [s|s| |s m e H]; try reflexivity; destruct lo as [sl|sl| |sl ml el Hl]; destruct hi as [sh|sh| |sh mh eh Hh];
      try discriminate; destruct s; try discriminate;
      cbv in A; cbv in B; try discriminate;
      try (destruct sl; discriminate); try (destruct sh; discriminate). }
  rewrite Bleb_fin in A, B by assumption.
  split; [assumption|].
  split.
  - destruct (Rle_bool_spec (fval lo) (fval x)); [assumption|discriminate].
  - destruct (Rle_bool_spec (fval x) (fval hi)); [assumption|discriminate].
Qed.

Lemma fin_between (lo hi x : f32) :
  fin lo -> fin hi -> fin x -> (fval lo <= fval x <= fval hi)%R ->
  Bleb lo x = true /\ Bleb x hi = true.
Proof.
  intros Fl Fh Fx [A B]. rewrite !Bleb_fin by assumption.
  split; apply Rle_bool_true; assumption.
Qed.

(** ** fmin, fmax and the clamp *)

Lemma fmin32_fin x y : fin x -> fin y -> fin (fmin32 x y) /\ fval (fmin32 x y) = Rmin (fval x) (fval y).
Proof.
  intros Fx Fy. unfold fmin32. rewrite (fin_not_nan x), (fin_not_nan y) by assumption.
  rewrite Bltb_fin by assumption.
  destruct (Rlt_bool_spec (fval y) (fval x)); split; auto; unfold Rmin; destruct (Rle_dec (fval x) (fval y)); lra.
Qed.

Lemma fmax32_fin x y : fin x -> fin y -> fin (fmax32 x y) /\ fval (fmax32 x y) = Rmax (fval x) (fval y).
Proof.
  intros Fx Fy. unfold fmax32. rewrite (fin_not_nan x), (fin_not_nan y) by assumption.
  rewrite Bltb_fin by assumption.
  destruct (Rlt_bool_spec (fval x) (fval y)); split; auto; unfold Rmax; destruct (Rle_dec (fval x) (fval y)); lra.
Qed.

Definition clamp32 (v mx mn : f32) : f32 := fmax32 (fmin32 v mx) mn.

Lemma clamp32_range v mx mn : fin mx -> fin mn -> (fval mn <= fval mx)%R ->
  fin (clamp32 v mx mn) /\ (fval mn <= fval (clamp32 v mx mn) <= fval mx)%R.
Proof.
  intros Fx Fn L. unfold clamp32.
  assert (D : fin (fmin32 v mx) /\ (fval (fmin32 v mx) <= fval mx)%R \/ fmin32 v mx = B754_infinity true).
  { destruct v as [s|s| |s m e H].
    - left. destruct (fmin32_fin (B754_zero s) mx) as [A B]; auto. split; auto. rewrite B. apply Rmin_r.
    - unfold fmin32. rewrite (fin_not_nan mx) by assumption. simpl is_nan. cbv iota.
      destruct s.
      + right. destruct mx as [sm|sm| |sm mm em Hm]; try discriminate; reflexivity.
      + left. destruct mx as [sm|sm| |sm mm em Hm]; try discriminate; try destruct sm; simpl; auto with real.
    - left. unfold fmin32. simpl. auto with real.
    - left. destruct (fmin32_fin (B754_finite s m e H) mx) as [A B]; auto. split; auto. rewrite B. apply Rmin_r. }
  destruct D as [[D1 D2]|D].
  - destruct (fmax32_fin (fmin32 v mx) mn) as [A B]; auto. split; auto. rewrite B. split.
    + apply Rmax_r.
    + apply Rmax_lub; assumption.
  - rewrite D. unfold fmax32. rewrite (fin_not_nan mn) by assumption. simpl is_nan. cbv iota.
    destruct mn as [sm|sm| |sm mm em Hm]; try discriminate; try destruct sm; simpl; auto with real.
Qed.

Lemma clamp32_id v mx mn : fin mx -> fin mn -> fin v -> (fval mn <= fval v <= fval mx)%R -> clamp32 v mx mn = v.
Proof.
  intros Fx Fn Fv [L H]. unfold clamp32, fmin32.
  rewrite (fin_not_nan v), (fin_not_nan mx) by assumption. rewrite Bltb_fin by assumption.
  rewrite Rlt_bool_false by assumption.
  unfold fmax32. rewrite (fin_not_nan v), (fin_not_nan mn) by assumption. rewrite Bltb_fin by assumption.
  rewrite Rlt_bool_false by assumption. reflexivity.
Qed.

(** In general the clamp is the real clamp, NaN going to the maximum. *)
Lemma clamp32_val v mx mn : fin mx -> fin mn -> (fval mn <= fval mx)%R -> fin v ->
  fval (clamp32 v mx mn) = Rmax (Rmin (fval v) (fval mx)) (fval mn).
Proof.
  intros Fx Fn L Fv. unfold clamp32.
  destruct (fmin32_fin v mx) as [A B]; auto.
  destruct (fmax32_fin (fmin32 v mx) mn) as [C D]; auto. rewrite D, B. reflexivity.
Qed.

(** ** fmod *)

Lemma F2R_abs_le m e b : (Rabs (IZR m) <= b)%R -> (Rabs (F2R (Float radix2 m e)) <= b * bpow radix2 e)%R.
Proof.
  intros H. unfold F2R; cbn [Fnum Fexp]. rewrite Rabs_mult, (Rabs_pos_eq (bpow radix2 e)) by apply bpow_ge_0.
  apply Rmult_le_compat_r; [apply bpow_ge_0|assumption].
Qed.

Lemma fmod32_range x y : fin y -> (0 < fval y)%R -> (fval y <= 16777216)%R ->
  is_nan (fmod32 x y) = true \/
  (fin (fmod32 x y) /\ (- fval y <= fval (fmod32 x y) <= fval y)%R).
Proof.
  intros Fy Py Ly.
  destruct x as [sx|sx| |sx mx ex Hx]; destruct y as [sy|sy| |sy my ey Hy]; try discriminate; simpl fmod32; auto.
  - right. split; auto. change (fval (B754_zero sx)) with 0%R. lra.
  - right. set (e := Z.min ex ey).
    set (X := (Zpos mx * 2 ^ (ex - e))%Z). set (Y := (Zpos my * 2 ^ (ey - e))%Z).
    assert (PY : (0 < Y)%Z).
    { unfold Y. apply Z.mul_pos_pos; [reflexivity|]. apply Z.pow_pos_nonneg; [reflexivity|]. lia. }
    pose proof (Z.mod_pos_bound X Y PY) as MB.
    set (r := (X mod Y)%Z) in *.
    set (z := if sx then (- r)%Z else r).
    assert (FY : F2R (Float radix2 Y e) = fval (B754_finite sy my ey Hy)).
    { simpl in Py |- *. destruct sy.
      - simpl cond_Zopp in Py. exfalso. revert Py.
        apply Rle_not_lt. apply F2R_le_0. simpl. lia.
      - unfold Y. simpl cond_Zopp. symmetry.
        replace (ey - e)%Z with (ey - e)%Z by reflexivity.
        apply (F2R_change_exp radix2 e (Zpos my) ey). lia. }
    assert (AB : (Rabs (F2R (Float radix2 z e)) <= fval (B754_finite sy my ey Hy))%R).
    { rewrite <- FY. unfold F2R at 2. cbn [Fnum Fexp]. apply F2R_abs_le.
      rewrite <- abs_IZR. apply IZR_le. unfold z. destruct sx; lia. }
    pose proof (binary_normalize_correct 24 128 prec_gt_0_32 prec_lt_emax_32 mode_NE z e sx) as H.
    cbv zeta in H. set (rd := round radix2 (SpecFloat.fexp 24 128) (round_mode mode_NE) (F2R (Float radix2 z e))) in *.
    assert (RB : (Rabs rd <= fval (B754_finite sy my ey Hy))%R).
    { unfold rd. apply abs_round_le_generic; [apply fexp_correct; reflexivity|apply valid_rnd_round_mode| apply generic_format_B2R|exact AB]. }
    rewrite Rlt_bool_true in H.
    + destruct H as [H1 [H2 _]]. split; [exact H2|].
      assert (E : fval (fmod32 (B754_finite sx mx ex Hx) (B754_finite sy my ey Hy)) = rd) by exact H1.
      simpl fmod32 in E. simpl fmod32. fold e in E. fold e. 
      match goal with |- (_ <= ?v <= _)%R => replace v with rd by (symmetry; exact H1) end.
      apply Rabs_le_inv. exact RB.
    + apply Rle_lt_trans with (1 := RB). apply Rle_lt_trans with (1 := Ly).
      change 16777216%R with (bpow radix2 24). apply bpow_lt. lia.
Qed.

(** ** Arithmetic operations round to nearest and do not leave integer bounds *)

(** Round to nearest, ties to even, in binary32. *)
Definition rnd32 (x : R) : R := round radix2 (SpecFloat.fexp 24 128) ZnearestE x.

Lemma rnd32_bounds x lo hi : small lo -> small hi -> (IZR lo <= x <= IZR hi)%R ->
  (IZR lo <= rnd32 x <= IZR hi)%R.
Proof.
  intros Sl Sh [A B]. unfold rnd32. split.
  - apply round_ge_generic; auto; [apply fexp_correct; reflexivity|apply valid_rnd_N|apply format_small, Sl].
  - apply round_le_generic; auto; [apply fexp_correct; reflexivity|apply valid_rnd_N|apply format_small, Sh].
Qed.

Lemma rnd32_small_lt x lo hi : small lo -> small hi -> (IZR lo <= x <= IZR hi)%R ->
  (Rabs (rnd32 x) < bpow radix2 128)%R.
Proof.
  intros Sl Sh B. apply rnd32_bounds in B; auto.
  apply Rle_lt_trans with (IZR 16777216).
  - unfold small in *. apply Rabs_le. split.
    + apply Rle_trans with (IZR lo); [|lra]. rewrite <- opp_IZR. apply IZR_le. lia.
    + apply Rle_trans with (IZR hi); [lra|]. apply IZR_le. lia.
  - change (IZR 16777216) with (bpow radix2 24). apply bpow_lt. lia.
Qed.

Lemma rnd32_id (x : f32) : rnd32 (fval x) = fval x.
Proof. apply round_generic; [apply valid_rnd_N|apply generic_format_B2R]. Qed.

Lemma rnd32_le x y : (x <= y)%R -> (rnd32 x <= rnd32 y)%R.
Proof. apply round_le; [apply fexp_correct; reflexivity|apply valid_rnd_N]. Qed.

Lemma rnd32_int n : small n -> rnd32 (IZR n) = IZR n.
Proof. intros S. apply round_generic; [apply valid_rnd_N|apply format_small, S]. Qed.

Lemma rnd32_0 : rnd32 0 = 0%R.
Proof. apply round_0. apply valid_rnd_N. Qed.

Lemma Bmult_ok (x y : f32) lo hi : fin x -> fin y -> small lo -> small hi ->
  (IZR lo <= fval x * fval y <= IZR hi)%R ->
  fin (Bmult mode_NE x y) /\ fval (Bmult mode_NE x y) = rnd32 (fval x * fval y).
Proof.
  intros Fx Fy Sl Sh B. pose proof (Bmult_correct 24 128 _ _ mode_NE x y) as H. cbv zeta in H.
  rewrite Rlt_bool_true in H by (apply (rnd32_small_lt _ lo hi); assumption).
  destruct H as [H1 [H2 _]]. rewrite Fx, Fy in H2. split; auto.
Qed.

Lemma Bplus_ok (x y : f32) lo hi : fin x -> fin y -> small lo -> small hi ->
  (IZR lo <= fval x + fval y <= IZR hi)%R ->
  fin (Bplus mode_NE x y) /\ fval (Bplus mode_NE x y) = rnd32 (fval x + fval y).
Proof.
  intros Fx Fy Sl Sh B. pose proof (Bplus_correct 24 128 _ _ mode_NE x y Fx Fy) as H. cbv zeta in H.
  rewrite Rlt_bool_true in H by (apply (rnd32_small_lt _ lo hi); assumption).
  destruct H as [H1 [H2 _]]. auto.
Qed.

Lemma Bminus_ok (x y : f32) lo hi : fin x -> fin y -> small lo -> small hi ->
  (IZR lo <= fval x - fval y <= IZR hi)%R ->
  fin (Bminus mode_NE x y) /\ fval (Bminus mode_NE x y) = rnd32 (fval x - fval y).
Proof.
  intros Fx Fy Sl Sh B. pose proof (Bminus_correct 24 128 _ _ mode_NE x y Fx Fy) as H. cbv zeta in H.
  rewrite Rlt_bool_true in H by (apply (rnd32_small_lt _ lo hi); assumption).
  destruct H as [H1 [H2 _]]. auto.
Qed.

Lemma Bdiv_ok (x y : f32) lo hi : fin x -> fin y -> fval y <> 0%R -> small lo -> small hi ->
  (IZR lo <= fval x / fval y <= IZR hi)%R ->
  fin (Bdiv mode_NE x y) /\ fval (Bdiv mode_NE x y) = rnd32 (fval x / fval y).
Proof.
  intros Fx Fy Ny Sl Sh B. pose proof (Bdiv_correct 24 128 _ _ mode_NE x y Ny) as H. cbv zeta in H.
  rewrite Rlt_bool_true in H by (apply (rnd32_small_lt _ lo hi); assumption).
  destruct H as [H1 [H2 _]]. rewrite Fx in H2. auto.
Qed.

(** Conversion from int. *)
Lemma ofZ32 n : small n -> fin (normalize n 0 false) /\ fval (normalize n 0 false) = IZR n.
Proof.
  intros S. assert (E : F2R (Float radix2 n 0) = IZR n) by (unfold F2R; simpl; ring).
  rewrite <- E. apply and_comm. apply normalize_exact; rewrite E.
  - apply format_small, S.
  - apply Rle_lt_trans with (IZR 16777216).
    + rewrite <- abs_IZR. apply IZR_le. exact S.
    + change (IZR 16777216) with (bpow radix2 24). apply bpow_lt. lia.
Qed.
