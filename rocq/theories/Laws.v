(** * The laws of arithmetic the structural proofs rely on, for both instances *)
From Coq Require Import ZArith QArith Qreals Reals Lra Lia List Bool.
From Flocq Require Import Core IEEE754.BinarySingleNaN.
From Verif Require Import Arith Outcome ColorModel Spec F32 F32Facts RArith.
Import ListNotations.

Class ArithLaws (F : Type) {AF : Arith F} : Prop := {
  clamp_within : forall v lo hi, small lo -> small hi -> (lo <= hi)%Z ->
    within lo hi (clamp v (fz hi) (fz lo));
  within_weaken : forall x lo hi lo' hi', small lo -> small hi -> small lo' -> small hi' ->
    (lo' <= lo)%Z -> (hi <= hi')%Z -> within lo hi x -> within lo' hi' x;
  clamp_id : forall x lo hi, small lo -> small hi -> within lo hi x -> clamp x (fz hi) (fz lo) = x;
  wrap_total : forall h : F, exists h', wrap_negative hue_fuel (ffmod h (fz 360)) = Ok h';
  feq_refl_within : forall x lo hi, small lo -> small hi -> within lo hi x -> feq x x = true;
  feq_sym : forall x y : F, feq x y = feq y x
}.

(** ** binary32 *)

Lemma fz32 o n : @fz f32 (F32 o) n = lit32 (inject_Z n).
Proof. reflexivity. Qed.

Lemma clamp_F32 o v mx mn : @clamp f32 (F32 o) v mx mn = clamp32 v mx mn.
Proof. reflexivity. Qed.

Lemma within32 o lo hi x : small lo -> small hi ->
  @within f32 (F32 o) lo hi x <-> (is_finite x = true /\ (IZR lo <= fval x <= IZR hi)%R).
Proof.
  intros Sl Sh. destruct (lit32_int lo Sl) as [El Fl]. destruct (lit32_int hi Sh) as [Eh Fh].
  unfold within. rewrite !fz32. cbn [fle F32]. split.
  - intros [A B]. destruct (between_fin _ _ _ Fl Fh A B) as [Fx R]. rewrite El, Eh in R. auto.
  - intros [Fx R]. apply fin_between; auto. rewrite El, Eh. exact R.
Qed.

#[global] Instance F32Laws (o : oracle) : @ArithLaws f32 (F32 o).
Proof.
  constructor.
  - intros v lo hi Sl Sh L. rewrite within32 by assumption. rewrite clamp_F32, !fz32.
    destruct (lit32_int lo Sl) as [El Fl]. destruct (lit32_int hi Sh) as [Eh Fh].
    rewrite <- El, <- Eh. apply clamp32_range; auto. rewrite El, Eh. apply IZR_le, L.
  - intros x lo hi lo' hi' S1 S2 S3 S4 L1 L2. rewrite !within32 by assumption. intros [A B].
    split; auto. apply IZR_le in L1. apply IZR_le in L2. lra.
  - intros x lo hi Sl Sh W. rewrite within32 in W by assumption. destruct W as [Fx R].
    destruct (lit32_int lo Sl) as [El Fl]. destruct (lit32_int hi Sh) as [Eh Fh].
    rewrite clamp_F32, !fz32. apply clamp32_id; auto. rewrite El, Eh. exact R.
  - intros h. rewrite fz32. cbn [ffmod F32].
    assert (S3 : small 360) by (unfold small; lia).
    assert (S0 : small 0) by (unfold small; lia).
    destruct (lit32_int 360 S3) as [E3 F3]. destruct (lit32_int 0 S0) as [E0 F0].
    destruct (fmod32_range h (lit32 (inject_Z 360)) F3) as [N|[Fr R]]; try (rewrite E3; lra).
    + unfold hue_fuel. cbn [wrap_negative]. rewrite fz32. cbn [flt F32].
      destruct (fmod32 h (lit32 (inject_Z 360))); try discriminate. simpl Bltb.
      eexists; reflexivity.
    + set (r := fmod32 h (lit32 (inject_Z 360))) in *. rewrite E3 in R.
      unfold hue_fuel. cbn [wrap_negative]. rewrite !fz32. cbn [flt fadd F32].
      rewrite Bltb_fin by assumption. rewrite E0.
      destruct (Rlt_bool_spec (fval r) 0) as [L|L]; [|eexists; reflexivity].
      pose proof (Bplus_correct 24 128 _ _ mode_NE r (lit32 (inject_Z 360)) Fr F3) as P.
      cbv zeta in P. rewrite E3 in P.
      set (rd := round radix2 (SpecFloat.fexp 24 128) (round_mode mode_NE) (fval r + 360)) in *.
      assert (G : forall n, small n -> generic_format radix2 (SpecFloat.fexp 24 128) (IZR n)) by (apply format_small).
      assert (B0 : (0 <= rd)%R).
      { unfold rd. apply round_ge_generic; [apply fexp_correct; reflexivity|apply valid_rnd_round_mode|apply (G 0%Z S0)|lra]. }
      assert (B1 : (rd <= 360)%R).
      { unfold rd. apply round_le_generic; [apply fexp_correct; reflexivity|apply valid_rnd_round_mode|apply (G 360%Z S3)|lra]. }
      rewrite Rlt_bool_true in P.
      2:{ rewrite Rabs_pos_eq by assumption. apply Rle_lt_trans with (1 := B1).
          apply Rlt_trans with (bpow radix2 24); [simpl; lra|apply bpow_lt; lia]. }
      destruct P as [P1 [P2 _]].
      rewrite Bltb_fin by assumption. rewrite P1, E0. rewrite Rlt_bool_false by assumption.
      eexists; reflexivity.
  - intros x lo hi Sl Sh W. rewrite within32 in W by assumption. destruct W as [Fx _].
    cbn [feq F32]. rewrite Beqb_fin by assumption. apply Req_bool_true. reflexivity.
  - intros x y. cbn [feq F32].
    unfold Beqb, SpecFloat.SFeqb. pose proof (Bcompare_swap 24 128 y x) as S. unfold Bcompare in S.
    rewrite S. destruct (SpecFloat.SFcompare (B2SF y) (B2SF x)) as [[]|]; reflexivity.
Qed.

(** ** Reals *)

Lemma fzR n : @fz R RArith n = IZR n.
Proof. unfold fz. cbn [lit RArith]. unfold Q2R, inject_Z. simpl. field. Qed.

Lemma Rleb_true x y : Rleb x y = true <-> (x <= y)%R.
Proof. unfold Rleb. destruct (Rle_dec x y); split; auto; discriminate. Qed.
Lemma Rltb_true x y : Rltb x y = true <-> (x < y)%R.
Proof. unfold Rltb. destruct (Rlt_dec x y); split; auto; discriminate. Qed.
Lemma Reqb_true x y : Reqb x y = true <-> x = y.
Proof. unfold Reqb. destruct (Req_EM_T x y); split; auto; discriminate. Qed.
Lemma Rleb_false x y : Rleb x y = false <-> (y < x)%R.
Proof. unfold Rleb. destruct (Rle_dec x y); split; auto; try discriminate; lra. Qed.
Lemma Rltb_false x y : Rltb x y = false <-> (y <= x)%R.
Proof. unfold Rltb. destruct (Rlt_dec x y); split; auto; try discriminate; lra. Qed.
Lemma Reqb_false x y : Reqb x y = false <-> x <> y.
Proof. unfold Reqb. destruct (Req_EM_T x y); split; auto; try discriminate; contradiction. Qed.

Lemma withinR lo hi x : @within R RArith lo hi x <-> (IZR lo <= x <= IZR hi)%R.
Proof. unfold within. rewrite !fzR. cbn [fle RArith]. rewrite !Rleb_true. tauto. Qed.

Lemma Int_part_bounds r : (IZR (Int_part r) <= r < IZR (Int_part r) + 1)%R.
Proof. destruct (base_Int_part r). lra. Qed.

Lemma Int_part_pos r : (0 <= r)%R -> (0 <= Int_part r)%Z.
Proof.
  intros H. destruct (Int_part_bounds r) as [_ B].
  assert (IZR (-1) < IZR (Int_part r))%R by (simpl; lra). apply lt_IZR in H0. lia.
Qed.

(** The remainder has the sign of the dividend and is smaller than the divisor. *)
Lemma Rfmod_bounds x y : (0 < y)%R ->
  ((0 <= x)%R -> (0 <= Rfmod x y < y)%R) /\ ((x < 0)%R -> (- y < Rfmod x y <= 0)%R).
Proof.
  intros Hy. unfold Rfmod, Rtrunc.
  assert (E : (x = x / y * y)%R) by (field; lra).
  split; intros Hx.
  - destruct (Rle_dec 0 (x / y)) as [L|L].
    + destruct (Int_part_bounds (x / y)) as [A B]. rewrite E at 1 3. set (q := (x / y)%R) in *. nra.
    + exfalso. apply L. apply Rmult_le_pos; [lra|]. left. apply Rinv_0_lt_compat. lra.
  - destruct (Rle_dec 0 (x / y)) as [L|L].
    + exfalso. assert (x / y * y >= 0)%R by (apply Rle_ge, Rmult_le_pos; lra). lra.
    + rewrite opp_IZR. destruct (Int_part_bounds (- (x / y))) as [A B]. rewrite E at 1 3. set (q := (x / y)%R) in *. nra.
Qed.

#[global] Instance RLaws : @ArithLaws R RArith.
Proof.
  constructor.
  - intros v lo hi _ _ L. rewrite withinR. unfold clamp. cbn [fmax fmin RArith]. rewrite !fzR.
    apply IZR_le in L. split; [apply Rmax_r|]. apply Rmax_lub; auto. apply Rmin_r.
  - intros x lo hi lo' hi' _ _ _ _ L1 L2. rewrite !withinR. apply IZR_le in L1. apply IZR_le in L2. lra.
  - intros x lo hi _ _ W. rewrite withinR in W. unfold clamp. cbn [fmax fmin RArith]. rewrite !fzR.
    rewrite Rmin_left by lra. rewrite Rmax_left by lra. reflexivity.
  - intros h. rewrite fzR. cbn [ffmod RArith].
    assert (B : (-360 < Rfmod h 360)%R).
    { destruct (Rfmod_bounds h 360) as [A B]; [lra|]. destruct (Rle_lt_dec 0 h) as [H|H]; [apply A in H|apply B in H]; lra. }
    set (r := Rfmod h 360) in *. unfold hue_fuel. cbn [wrap_negative]. rewrite !fzR. cbn [flt fadd RArith].
    destruct (Rltb r 0) eqn:E; [|eexists; reflexivity].
    replace (Rltb (r + 360) 0) with false; [eexists; reflexivity|].
    symmetry. apply Rltb_false. lra.
  - intros x lo hi _ _ _. cbn [feq RArith]. apply Reqb_true. reflexivity.
  - intros x y. cbn [feq RArith]. destruct (Reqb x y) eqn:E.
    + apply Reqb_true in E. symmetry. apply Reqb_true. auto.
    + apply Reqb_false in E. symmetry. apply Reqb_false. auto.
Qed.
