(** * fmod on binary32 is exact; the value the hue setters store *)
From Coq Require Import ZArith QArith Reals Lra Lia List Bool.
From Flocq Require Import Core IEEE754.BinarySingleNaN.
From Verif Require Import Arith Outcome ColorModel Spec Spec32 F32 F32Facts Laws NormalForms Core2_Proofs.
Import ListNotations.
Local Open Scope Z_scope.

Lemma bounded_mant m e : SpecFloat.bounded 24 128 m e = true -> Zpos m < 2 ^ 24 /\ -149 <= e <= 104.
Proof.
  intros H. pose proof (bounded_canonical_lt_emax 24 128 _ _ m e) as _.
  unfold SpecFloat.bounded in H. apply andb_prop in H. destruct H as [H1 H2].
  apply Zle_bool_imp_le in H2.
  unfold SpecFloat.canonical_mantissa in H1. apply Zeq_bool_eq in H1.
  unfold SpecFloat.fexp, SpecFloat.emin in H1.
  rewrite Digits.Zpos_digits2_pos in H1.
  pose proof (Digits.Zdigits_correct radix2 (Zpos m)) as [_ D]. simpl Z.abs in D.
  set (d := Digits.Zdigits radix2 (Z.pos m)) in *.
  split; [|lia].
  apply Z.lt_le_trans with (1 := D). change (Zpower radix2 d) with (2 ^ d).
  apply Z.pow_le_mono_r; lia.
Qed.

Lemma format_F2R24 n e : Z.abs n < 2 ^ 24 -> -149 <= e ->
  generic_format radix2 (SpecFloat.fexp 24 128) (F2R (Float radix2 n e)).
Proof.
  intros Hn He.
  assert (G : generic_format radix2 (FLT_exp (SpecFloat.emin 24 128) 24) (F2R (Float radix2 n e))); [|exact G].
  apply generic_format_FLT. exists (Float radix2 n e); auto.
Qed.

Lemma fmod32_exact x y : is_finite x = true -> is_finite y = true -> (0 < fval y)%R ->
  is_finite (fmod32 x y) = true /\
  (exists q : Z, fval (fmod32 x y) = fval x - IZR q * fval y)%R /\
  ((0 <= fval x)%R -> (0 <= fval (fmod32 x y) < fval y)%R) /\
  ((fval x <= 0)%R -> (- fval y < fval (fmod32 x y) <= 0)%R).
Proof.
  intros Fx Fy Py.
  destruct y as [sy|sy| |sy my ey Hy]; try discriminate; [change (fval (B754_zero sy)) with 0%R in Py; lra|].
  destruct x as [sx|sx| |sx mx ex Hx]; try discriminate.
  { change (fmod32 (B754_zero sx) (B754_finite sy my ey Hy)) with (@B754_zero 24 128 sx).
    change (fval (B754_zero sx)) with 0%R. split; auto. split; [exists 0%Z; lra|]. split; intros; lra. }
  assert (SY : sy = false).
  { destruct sy; auto. exfalso. apply (Rlt_irrefl 0). eapply Rlt_le_trans; [exact Py|].
    apply F2R_le_0. simpl. lia. }
  subst sy.
  destruct (bounded_mant _ _ Hx) as [Bmx Bex]. destruct (bounded_mant _ _ Hy) as [Bmy Bey].
  set (e := Z.min ex ey).
  set (X := Zpos mx * 2 ^ (ex - e)). set (Y := Zpos my * 2 ^ (ey - e)).
  assert (PY : 0 < Y).
  { unfold Y. apply Z.mul_pos_pos; [reflexivity|]. apply Z.pow_pos_nonneg; [reflexivity|]. lia. }
  assert (PX : 0 < X).
  { unfold X. apply Z.mul_pos_pos; [reflexivity|]. apply Z.pow_pos_nonneg; [reflexivity|]. lia. }
  pose proof (Z.mod_pos_bound X Y PY) as MB.
  pose proof (Z.div_mod X Y ltac:(lia)) as DM.
  set (r := X mod Y) in *.
  assert (R24 : r < 2 ^ 24).
  { destruct (Z_le_gt_dec ex ey) as [L|L].
    - assert (EX : X = Zpos mx) by (unfold X, e; rewrite Z.min_l, Z.sub_diag by lia; lia).
      assert (r <= X) by (apply Z.mod_le; lia). lia.
    - assert (EY : Y = Zpos my) by (unfold Y, e; rewrite Z.min_r, Z.sub_diag by lia; lia). lia. }
  set (z := if sx then - r else r).
  assert (AZ : Z.abs z < 2 ^ 24) by (unfold z; destruct sx; lia).
  assert (EE : -149 <= e <= 104) by (unfold e; lia).
  destruct (normalize_exact z e sx) as [V F].
  { apply format_F2R24; lia. }
  { apply Rlt_le_trans with (bpow radix2 (24 + e)).
    - unfold F2R. cbn [Fnum Fexp]. rewrite Rabs_mult, (Rabs_pos_eq (bpow radix2 e)) by (apply bpow_ge_0).
      rewrite bpow_plus. apply Rmult_lt_compat_r; [apply bpow_gt_0|].
      rewrite <- abs_IZR. change (bpow radix2 24) with (IZR (2 ^ 24)). apply IZR_lt, AZ.
    - apply bpow_le. lia. }
  assert (M : fmod32 (B754_finite sx mx ex Hx) (B754_finite false my ey Hy) = normalize z e sx) by reflexivity.
  rewrite M. split; auto.
  assert (FY : fval (B754_finite false my ey Hy) = (IZR Y * bpow radix2 e)%R).
  { change (fval (B754_finite false my ey Hy)) with (F2R (Float radix2 (Zpos my) ey)).
    rewrite (F2R_change_exp radix2 e (Zpos my) ey) by (unfold e; lia). reflexivity. }
  assert (FX : fval (B754_finite sx mx ex Hx) = (IZR (if sx then - X else X) * bpow radix2 e)%R).
  { change (fval (B754_finite sx mx ex Hx)) with (F2R (Float radix2 (cond_Zopp sx (Zpos mx)) ex)).
    rewrite (F2R_change_exp radix2 e _ ex) by (unfold e; lia). unfold F2R. cbn [Fnum Fexp].
    f_equal. f_equal. unfold X. destruct sx; simpl cond_Zopp; change (Zpower radix2 (ex - e)) with (2 ^ (ex - e)); lia. }
  assert (V' : fval (normalize z e sx) = (IZR z * bpow radix2 e)%R) by (rewrite V; reflexivity).
  pose proof (bpow_gt_0 radix2 e) as BP.
  rewrite FX, FY, V'. split; [|split].
  - exists (if sx then - (X / Y) else X / Y). 
    rewrite <- Rmult_assoc, <- mult_IZR, <- Rmult_minus_distr_r, <- minus_IZR. f_equal. f_equal.
    unfold z. destruct sx; lia.
  - intros P. assert (sx = false).
    { destruct sx; auto. exfalso. assert (IZR (- X) < 0)%R by (apply IZR_lt; lia). nra. }
    subst sx. unfold z. split; [apply Rmult_le_pos; [apply IZR_le; lia|lra]|].
    apply Rmult_lt_compat_r; [lra|]. apply IZR_lt; lia.
  - intros P. assert (sx = true).
    { destruct sx; auto. exfalso. assert (0 < IZR X)%R by (apply IZR_lt; lia). nra. }
    subst sx. unfold z. rewrite opp_IZR. 
    assert (0 <= IZR r)%R by (apply IZR_le; lia). assert (IZR r < IZR Y)%R by (apply IZR_lt; lia). split; nra.
Qed.

Lemma fmod32_nan x y : is_finite x = false -> fmod32 x y = B754_nan.
Proof. destruct x; try discriminate; destruct y; reflexivity. Qed.

(** The stored hue: the angle modulo 360, rounded, saturated to 359. *)
Lemma hue_norm32 o v : is_finite v = true ->
  exists (k : Z) (m : R), fval v = (360 * IZR k + m)%R /\ (0 <= m < 360)%R /\
    is_value (@hue_norm f32 (F32 o) v) (Rmin (rnd32 m) 359) /\
    ((0 <= fval v)%R -> rnd32 m = m).
Proof.
  intros Fv. destruct (fz_val o 360) as [F3 V3]; [sm|]. destruct (fz_val o 0) as [F0 V0]; [sm|].
  destruct (fz_val o 359) as [F9 V9]; [sm|].
  destruct (fmod32_exact v (@fz f32 (F32 o) 360) Fv F3) as [Fr [[q Eq] [Hp Hn]]]; [rewrite V3; lra|].
  unfold hue_norm, hue_fuel. cbn [wrap_negative]. cbn [ffmod flt fadd F32].
  set (r := fmod32 v (@fz f32 (F32 o) 360)) in *. rewrite V3 in *.
  assert (FMT : forall x : f32, rnd32 (fval x) = fval x).
  { intros x. apply round_generic; [apply valid_rnd_N|]. apply generic_format_B2R. }
  assert (CL : forall x : f32, is_finite x = true -> (0 <= fval x)%R ->
     is_value (@clamp f32 (F32 o) x (@fz f32 (F32 o) 359) (@fz f32 (F32 o) 0)) (Rmin (fval x) 359)).
  { intros x Fx P. rewrite clamp_F32. split.
    - apply clamp32_range; auto. rewrite V0, V9. lra.
    - rewrite (clamp32_val x (@fz f32 (F32 o) 359) (@fz f32 (F32 o) 0)) by (auto; rewrite V0, V9; lra). rewrite V0, V9.
      apply Rmax_left. apply Rmin_glb; lra. }
  rewrite Bltb_fin by assumption. rewrite V0.
  destruct (Rlt_bool_spec (fval r) 0) as [L|L].
  - assert (VN : (fval v < 0)%R).
    { destruct (Rlt_le_dec (fval v) 0) as [A|A]; auto. apply Hp in A. lra. }
    specialize (Hn ltac:(lra)).
    destruct (Bplus_ok r (@fz f32 (F32 o) 360) 0 360) as [FP VP]; auto; try sm.
    { rewrite V3. simpl. lra. }
    rewrite Bltb_fin by assumption. rewrite V0.
    assert (NN : (0 <= fval (Bplus mode_NE r (@fz f32 (F32 o) 360)))%R).
    { rewrite VP. apply (rnd32_bounds _ 0 360); try sm. rewrite V3. simpl. lra. }
    rewrite Rlt_bool_false by assumption.
    exists (q - 1), (fval r + 360)%R. split; [rewrite minus_IZR; lra|]. split; [lra|]. split; [|intros; lra].
    rewrite <- V3 at 1. rewrite <- VP. apply CL; auto.
  - exists q, (fval r). split; [lra|]. split.
    + split; auto. destruct (Rle_lt_dec 0 (fval v)) as [A|A]; [apply Hp in A; lra|].
      specialize (Hn ltac:(lra)). lra.
    + split; [|auto]. rewrite FMT. apply CL; auto.
Qed.

Lemma hue_norm32_nonfinite o v : is_finite v = false -> is_value (@hue_norm f32 (F32 o) v) 359.
Proof.
  intros Fv. destruct (fz_val o 0) as [F0 V0]; [sm|]. destruct (fz_val o 359) as [F9 V9]; [sm|].
  unfold hue_norm, hue_fuel. cbn [ffmod F32]. rewrite fmod32_nan by assumption.
  cbn [wrap_negative flt F32].
  assert (E : Bltb B754_nan (@fz f32 (F32 o) 0) = false) by (destruct (@fz f32 (F32 o) 0); reflexivity).
  rewrite E. rewrite clamp_F32. unfold clamp32. change (fmin32 B754_nan (@fz f32 (F32 o) 359)) with (@fz f32 (F32 o) 359).
  assert (M : fmax32 (@fz f32 (F32 o) 359) (@fz f32 (F32 o) 0) = @fz f32 (F32 o) 359).
  { unfold fmax32. rewrite !fin_not_nan by assumption. rewrite Bltb_fin by assumption.
    rewrite Rlt_bool_false; auto. rewrite V0, V9. lra. }
  rewrite M. split; auto.
Qed.

(** In particular a hue already in range is stored unchanged. *)
Lemma hue_norm32_id o v : in_interval 0 359 v -> is_value (@hue_norm f32 (F32 o) v) (fval v).
Proof.
  intros [Fv R]. destruct (hue_norm32 o v Fv) as [k [m [E [B [V X]]]]].
  assert (k = 0).
  { assert (-1 < k < 1); [|lia]. split; apply lt_IZR; simpl in R; lra. }
  subst k. specialize (X ltac:(simpl in R; lra)). rewrite X in V.
  replace (fval v) with (Rmin m 359); auto. simpl in *. rewrite Rmin_left; lra.
Qed.
