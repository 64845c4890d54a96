(** * Multiplying by 255 and dividing again, in binary32

    For every float [a], if [m] is the rounded quotient [a / 255], then the rounded product
    [m * 255] divided by 255 rounds to [m] again.  (This fails for floats [m] that are not
    such quotients.) *)
From Coq Require Import ZArith Reals Lra Lia List Bool.
From Flocq Require Import Core IEEE754.BinarySingleNaN.
From Verif Require Import F32 F32Facts.
Local Open Scope R_scope.

Local Notation fexp := (SpecFloat.fexp 24 128).
Local Instance vexp : Valid_exp fexp := fexp_correct 24 128 prec_gt_0_32.

Lemma ZnearestE_closer x y M : ZnearestE x = M -> Rabs (y - IZR M) <= Rabs (x - IZR M) -> ZnearestE y = M.
Proof.
  intros E C.
  pose proof (Znearest_half (fun z => negb (Z.even z)) x) as H. rewrite E in H.
  destruct (Rle_lt_or_eq_dec _ _ (Rle_trans _ _ _ C H)) as [L|L].
  - apply Znearest_imp. exact L.
  - (* a tie: M is even *)
    assert (X : Rabs (x - IZR M) = / 2) by lra.
    assert (EV : Z.even M = true).
    { assert (D : x = IZR M + / 2 \/ x = IZR M - / 2).
      { unfold Rabs in X. destruct (Rcase_abs (x - IZR M)); lra. }
      unfold ZnearestE, Znearest in E. destruct D as [D|D]; subst x.
      - replace (Zfloor (IZR M + / 2)) with M in E.
        2:{ symmetry. apply Zfloor_imp. rewrite plus_IZR. lra. }
        replace (IZR M + / 2 - IZR M) with (/ 2) in E by ring.
        rewrite Rcompare_Eq in E by reflexivity.
        destruct (Z.even M) eqn:EM; auto. cbn [negb] in E.
        replace (Zceil (IZR M + / 2)) with (M + 1)%Z in E; [lia|].
        symmetry. apply Zceil_imp. rewrite minus_IZR, plus_IZR. lra.
      - replace (Zfloor (IZR M - / 2)) with (M - 1)%Z in E.
        2:{ symmetry. apply Zfloor_imp. rewrite plus_IZR, minus_IZR. lra. }
        rewrite minus_IZR in E. replace (IZR M - / 2 - (IZR M - 1)) with (/ 2) in E by lra.
        rewrite Rcompare_Eq in E by reflexivity.
        destruct (Z.even (M - 1)) eqn:EM; cbn [negb] in E; [lia|].
        rewrite Z.even_sub in EM. destruct (Z.even M); auto. }
    assert (D : y = IZR M + / 2 \/ y = IZR M - / 2).
    { unfold Rabs in L. destruct (Rcase_abs (y - IZR M)); lra. }
    unfold ZnearestE, Znearest. destruct D as [D|D]; subst y.
    + replace (Zfloor (IZR M + / 2)) with M.
      2:{ symmetry. apply Zfloor_imp. rewrite plus_IZR. lra. }
      replace (IZR M + / 2 - IZR M) with (/ 2) by ring.
      rewrite Rcompare_Eq by reflexivity. rewrite EV. reflexivity.
    + replace (Zfloor (IZR M - / 2)) with (M - 1)%Z.
      2:{ symmetry. apply Zfloor_imp. rewrite plus_IZR, minus_IZR. lra. }
      rewrite minus_IZR. replace (IZR M - / 2 - (IZR M - 1)) with (/ 2) by lra.
      rewrite Rcompare_Eq by reflexivity.
      replace (Z.even (M - 1)) with false.
      2:{ rewrite Z.even_sub, EV. reflexivity. }
      cbn [negb]. apply Zceil_imp. rewrite minus_IZR. lra.
Qed.

(** [255 * 2^k] is a float. *)
Lemma format_255_bpow k : generic_format radix2 fexp (bpow radix2 k) ->
  generic_format radix2 fexp (255 * bpow radix2 k).
Proof.
  intros G.
  assert (K : (fexp k <= k)%Z) by (apply generic_format_bpow_inv in G; [exact G|apply vexp]).
  replace (255 * bpow radix2 k) with (F2R (Float radix2 255 k)) by reflexivity.
  apply generic_format_F2R. intros _. unfold cexp.
  assert (M : (mag radix2 (F2R (Float radix2 255 k)) = k + 8 :> Z)%Z).
  { rewrite mag_F2R by discriminate.
    replace (mag radix2 (IZR 255) : Z) with 8%Z; [lia|]. symmetry. apply mag_unique_pos. simpl. lra. }
  rewrite M. unfold SpecFloat.fexp, SpecFloat.emin in *. lia.
Qed.

Lemma scale_255 a : generic_format radix2 fexp a -> let m := rnd32 (a / 255) in
  rnd32 (rnd32 (m * 255) / 255) = m.
Proof.
  intros Fa m.
  assert (NB : forall x y, generic_format radix2 fexp y -> Rabs (rnd32 x - x) <= Rabs (y - x)).
  { intros x y Gy. destruct (round_N_pt radix2 fexp (fun z => negb (Z.even z)) x) as [_ H]. apply H, Gy. }
  assert (Fm : generic_format radix2 fexp m) by (apply generic_format_round; [apply vexp|apply valid_rnd_N]).
  destruct (Req_dec m 0) as [Z0|NZ].
  { rewrite Z0. rewrite Rmult_0_l, rnd32_0. unfold Rdiv. rewrite Rmult_0_l. apply rnd32_0. }
  (* exact product: done *)
  assert (EX : generic_format radix2 fexp (m * 255) -> rnd32 (rnd32 (m * 255) / 255) = m).
  { intros G. unfold rnd32 at 2. rewrite round_generic; [|apply valid_rnd_N|exact G].
    replace (m * 255 / 255) with m by field. unfold rnd32. apply round_generic; [apply valid_rnd_N|exact Fm]. }
  assert (P2 : forall j, Rabs m = bpow radix2 j -> rnd32 (rnd32 (m * 255) / 255) = m).
  { intros j Hj. apply EX.
    assert (Gj : generic_format radix2 fexp (bpow radix2 j)) by (rewrite <- Hj; apply generic_format_abs, Fm).
    apply format_255_bpow in Gj. unfold Rabs in Hj. destruct (Rcase_abs m).
    - replace (m * 255) with (- (255 * bpow radix2 j)) by (rewrite <- Hj; ring). apply generic_format_opp, Gj.
    - rewrite Rmult_comm, Hj. exact Gj. }
  set (x := a / 255) in *.
  destruct (mag_round radix2 fexp ZnearestE x) as [Mg|Mg]; [exact NZ| |exact (P2 _ Mg)].
  set (e := mag radix2 x : Z) in *.
  change (mag radix2 m = e :> Z) in Mg.
  destruct (Req_dec (Rabs m) (bpow radix2 (e - 1))) as [Q|NQ]; [exact (P2 _ Q)|].
  set (c := fexp e).
  set (M := ZnearestE (x * bpow radix2 (- c))).
  assert (Em : m = IZR M * bpow radix2 c).
  { unfold m, rnd32, round, F2R, scaled_mantissa, cexp. cbn [Fnum Fexp]. reflexivity. }
  pose proof (bpow_gt_0 radix2 c) as Pc. pose proof (bpow_gt_0 radix2 (- c)) as Pc'.
  assert (Cc : bpow radix2 c * bpow radix2 (- c) = 1).
  { rewrite <- bpow_plus. replace (c + - c)%Z with 0%Z by ring. reflexivity. }
  assert (Bm : bpow radix2 (e - 1) <= Rabs m < bpow radix2 e).
  { destruct (mag radix2 m) as [e' He']. simpl in Mg. subst e'. apply He', NZ. }
  set (y := rnd32 (m * 255) / 255).
  assert (CL : Rabs (y - m) <= Rabs (x - m)).
  { pose proof (NB (m * 255) a Fa) as H.
    replace (y - m) with ((rnd32 (m * 255) - m * 255) * / 255) by (unfold y; field).
    replace (x - m) with ((a - m * 255) * / 255) by (unfold x; field).
    rewrite !Rabs_mult. apply Rmult_le_compat_r; [apply Rabs_pos|exact H]. }
  assert (HX : Rabs (x * bpow radix2 (- c) - IZR M) <= / 2) by apply Znearest_half.
  assert (SC : forall t, t * bpow radix2 (- c) - IZR M = (t - m) * bpow radix2 (- c)).
  { intros t. rewrite Em. rewrite Rmult_minus_distr_r. rewrite Rmult_assoc, Cc. ring. }
  assert (CL' : Rabs (y * bpow radix2 (- c) - IZR M) <= Rabs (x * bpow radix2 (- c) - IZR M)).
  { rewrite !SC, !Rabs_mult. apply Rmult_le_compat_r; [apply Rabs_pos|exact CL]. }
  (* M is strictly inside the binade *)
  assert (AM : Rabs m = IZR (Z.abs M) * bpow radix2 c).
  { rewrite Em, Rabs_mult, abs_IZR, (Rabs_pos_eq (bpow radix2 c)) by lra. reflexivity. }
  assert (NM : (M <> 0)%Z) by (intros Z; apply NZ; rewrite Em, Z; ring).
  assert (CE : (c < e)%Z).
  { apply (lt_bpow radix2). apply Rle_lt_trans with (Rabs m); [|apply Bm].
    rewrite AM. rewrite <- (Rmult_1_l (bpow radix2 c)) at 1. apply Rmult_le_compat_r; [lra|]. apply IZR_le. lia. }
  assert (B1 : (2 ^ (e - 1 - c) + 1 <= Z.abs M)%Z).
  { assert (IZR (2 ^ (e - 1 - c)) < IZR (Z.abs M)).
    { change (2 ^ (e - 1 - c))%Z with (radix2 ^ (e - 1 - c))%Z. rewrite IZR_Zpower by lia.
      apply Rmult_lt_reg_r with (bpow radix2 c); [exact Pc|]. rewrite <- bpow_plus, <- AM.
      replace (e - 1 - c + c)%Z with (e - 1)%Z by ring. destruct Bm as [[Bm|Bm] _]; auto. congruence. }
    apply lt_IZR in H. lia. }
  assert (B2 : (Z.abs M <= 2 ^ (e - c) - 1)%Z).
  { assert (IZR (Z.abs M) < IZR (2 ^ (e - c))).
    { change (2 ^ (e - c))%Z with (radix2 ^ (e - c))%Z. rewrite IZR_Zpower by lia.
      apply Rmult_lt_reg_r with (bpow radix2 c); [exact Pc|]. rewrite <- bpow_plus, <- AM.
      replace (e - c + c)%Z with e by ring. apply Bm. }
    apply lt_IZR in H. lia. }
  assert (My : (mag radix2 y = e :> Z)%Z).
  { apply mag_unique.
    assert (YS : Rabs y = Rabs (y * bpow radix2 (- c)) * bpow radix2 c).
    { rewrite Rabs_mult, (Rabs_pos_eq (bpow radix2 (- c))) by lra. rewrite Rmult_assoc, (Rmult_comm (bpow radix2 (- c))), Cc. ring. }
    assert (T : Rabs (IZR M) - / 2 <= Rabs (y * bpow radix2 (- c)) <= Rabs (IZR M) + / 2).
    { set (u := y * bpow radix2 (- c)) in *. assert (L : Rabs (u - IZR M) <= / 2) by lra.
      pose proof (Rabs_triang_inv (IZR M) u). pose proof (Rabs_triang_inv u (IZR M)).
      rewrite (Rabs_minus_sym (IZR M) u) in H. lra. }
    rewrite <- abs_IZR in T. apply IZR_le in B1. apply IZR_le in B2.
    rewrite plus_IZR in B1. rewrite minus_IZR in B2.
    change (2 ^ (e - 1 - c))%Z with (radix2 ^ (e - 1 - c))%Z in B1. rewrite IZR_Zpower in B1 by lia.
    change (2 ^ (e - c))%Z with (radix2 ^ (e - c))%Z in B2. rewrite IZR_Zpower in B2 by lia.
    rewrite YS. split.
    - replace (bpow radix2 (e - 1)) with (bpow radix2 (e - 1 - c) * bpow radix2 c) by (rewrite <- bpow_plus; f_equal; ring).
      apply Rmult_le_compat_r; lra.
    - replace (bpow radix2 e) with (bpow radix2 (e - c) * bpow radix2 c) by (rewrite <- bpow_plus; f_equal; ring).
      apply Rmult_lt_compat_r; lra. }
  unfold rnd32, round, F2R, scaled_mantissa, cexp. cbn [Fnum Fexp]. rewrite My. fold c.
  rewrite (ZnearestE_closer (x * bpow radix2 (- c)) (y * bpow radix2 (- c)) M); auto.
Qed.
