(** * The rounding errors of the Porter-Duff coverages do not lead out of [0, 1] *)
From Coq Require Import ZArith QArith Reals Lra Lia List Bool.
From Flocq Require Import Core IEEE754.BinarySingleNaN Relative.
From Verif Require Import Arith F32 F32Facts Core3_Proofs.
Local Open Scope R_scope.

Local Notation fx := (SpecFloat.fexp 24 128).
Definition uu : R := / 16777216.
Definition eta : R := / 1000000000000000000000000000000.

Lemma rnd_rel z : 0 <= z -> rnd32 z <= z * (1 + uu) + eta.
Proof.
  intros Z. destruct (error_N_FLT radix2 (SpecFloat.emin 24 128) 24 eq_refl (fun x => negb (Z.even x)) z) as [e [t [E [T [_ H]]]]].
  change (round radix2 (FLT_exp (SpecFloat.emin 24 128) 24) (Znearest (fun x => negb (Z.even x))) z) with (rnd32 z) in H.
  rewrite H.
  assert (E' : e <= uu).
  { apply Rle_trans with (1 := Rle_abs e). apply Rle_trans with (1 := E). unfold uu, u_ro. simpl. lra. }
  assert (T' : t <= eta).
  { apply Rle_trans with (1 := Rle_abs t). apply Rle_trans with (1 := T).
    apply Rle_trans with (/ 2 * bpow radix2 (-100)); [apply Rmult_le_compat_l; [lra|]; apply bpow_le; unfold SpecFloat.emin; lia|].
    unfold eta. simpl. lra. }
  assert (z * e <= z * uu) by (apply Rmult_le_compat_l; assumption). lra.
Qed.

(** Absolute error below a power of two. *)
Lemma rnd_abs z e : (-100 <= e)%Z -> Rabs z < bpow radix2 e -> Rabs (rnd32 z - z) <= bpow radix2 (e - 25).
Proof.
  intros He Z. unfold rnd32.
  apply Rle_trans with (1 := error_le_half_ulp radix2 fx (fun x => negb (Z.even x)) z).
  destruct (Req_dec z 0) as [->|N].
  - unfold ulp. rewrite Req_bool_true by reflexivity.
    destruct (negligible_exp_FLT (SpecFloat.emin 24 128) 24) as [n [Hn Ln]].
    change (negligible_exp fx) with (negligible_exp (FLT_exp (SpecFloat.emin 24 128) 24)). rewrite Hn.
    change fx with (FLT_exp (SpecFloat.emin 24 128) 24). unfold FLT_exp.
    apply Rle_trans with (bpow radix2 (-1) * bpow radix2 (-149)).
    + apply Rmult_le_compat; [lra|apply bpow_ge_0|simpl; lra|]. apply bpow_le. unfold SpecFloat.emin in *. lia.
    + rewrite <- bpow_plus. apply bpow_le. lia.
  - rewrite ulp_neq_0 by assumption. unfold cexp.
    assert (M : (mag radix2 z <= e)%Z) by (apply mag_le_bpow; assumption).
    apply Rle_trans with (bpow radix2 (-1) * bpow radix2 (e - 24)).
    + apply Rmult_le_compat; [lra|apply bpow_ge_0|simpl; lra|]. apply bpow_le.
      change fx with (FLT_exp (SpecFloat.emin 24 128) 24). unfold FLT_exp, SpecFloat.emin. lia.
    + rewrite <- bpow_plus. apply bpow_le. lia.
Qed.

Lemma rnd_1 z : 0 <= z < 1 -> rnd32 z <= z + uu / 2.
Proof.
  intros Z. pose proof (rnd_abs z 0 ltac:(lia)) as H. apply Rabs_le_inv in H; [|rewrite Rabs_pos_eq; simpl; lra].
  replace (bpow radix2 (0 - 25)) with (uu / 2) in H by (unfold uu; simpl; lra). lra.
Qed.
Lemma rnd_2 z : 0 <= z < 1 / 2 -> rnd32 z <= z + uu / 4.
Proof.
  intros Z. pose proof (rnd_abs z (-1) ltac:(lia)) as H. apply Rabs_le_inv in H; [|rewrite Rabs_pos_eq; simpl; lra].
  replace (bpow radix2 (-1 - 25)) with (uu / 4) in H by (unfold uu; simpl; lra). lra.
Qed.
Lemma rnd_4 z : 0 <= z < 1 / 4 -> rnd32 z <= z + uu / 8.
Proof.
  intros Z. pose proof (rnd_abs z (-2) ltac:(lia)) as H. apply Rabs_le_inv in H; [|rewrite Rabs_pos_eq; simpl; lra].
  replace (bpow radix2 (-2 - 25)) with (uu / 8) in H by (unfold uu; simpl; lra). lra.
Qed.

(** One and a half ulp-th above 1 is rounded to 1. *)
Lemma rnd_mid z : z <= 1 + uu -> rnd32 z <= 1.
Proof.
  intros Z. apply Rle_trans with (rnd32 (1 + uu)); [apply rnd32_le, Z|].
  destruct (lit32_int 1) as [E1 F1]; [unfold small; simpl; lia|].
  set (one := lit32 (inject_Z 1)) in *.
  set (u := normalize 1 (-24) false).
  assert (Eu : fval u = uu /\ is_finite u = true).
  { unfold u. destruct (normalize_exact 1 (-24) false) as [A B].
    - replace (F2R (Float radix2 1 (-24))) with (bpow radix2 (-24)) by (unfold F2R; simpl; lra).
      apply generic_format_bpow. unfold SpecFloat.fexp, SpecFloat.emin. simpl. lia.
    - unfold F2R. simpl. rewrite Rabs_pos_eq; lra.
    - split; [rewrite A; unfold F2R, uu; simpl; lra|exact B]. }
  destruct Eu as [Eu Fu].
  destruct (Bplus_ok one u 0 2 F1 Fu) as [A B]; try (unfold small; simpl; lia).
  { rewrite E1, Eu. unfold uu. simpl. lra. }
  rewrite E1, Eu in B. rewrite <- B.
  assert (C : Bleb (Bplus mode_NE one u) one = true) by (vm_compute; reflexivity).
  rewrite Bleb_fin in C by assumption. rewrite E1 in C.
  destruct (Rle_bool_spec (fval (Bplus mode_NE one u)) 1) as [L|L]; [exact L|discriminate C].
Qed.

(** Floats in [1/2, 1] are multiples of [uu]. *)
Lemma grid v : rnd32 v = v -> 1 / 2 <= v < 1 -> exists k : Z, v = IZR k * uu /\ (0 <= k < 16777216)%Z.
Proof.
  intros Q H. assert (G : generic_format radix2 fx v).
  { rewrite <- Q. apply generic_format_round; [apply (fexp_correct 24 128); reflexivity|apply valid_rnd_N]. }
  unfold generic_format in G.
  assert (M : mag radix2 v = 0%Z :> Z).
  { apply mag_unique. rewrite Rabs_pos_eq by lra. simpl. lra. }
  set (m := Ztrunc (scaled_mantissa radix2 fx v)) in *. exists m.
  assert (E : v = IZR m * uu).
  { rewrite G at 1. unfold F2R, cexp. rewrite M. cbn [Fnum Fexp].
    change (fx 0) with (-24)%Z. unfold uu. simpl. lra. }
  split; [exact E|]. unfold uu in E.
  assert (0 <= IZR m < 16777216) by lra.
  split; [apply le_IZR|apply lt_IZR]; lra.
Qed.
Lemma format_grid (k : Z) : (0 <= k <= 16777216)%Z -> rnd32 (IZR k * uu) = IZR k * uu.
Proof.
  intros K. apply round_generic; [apply valid_rnd_N|].
  destruct (Z.eq_dec k 16777216) as [->|N].
  - replace (16777216 * uu) with (bpow radix2 0) by (unfold uu; simpl; lra). apply generic_format_bpow.
    unfold SpecFloat.fexp, SpecFloat.emin. simpl. lia.
  - change fx with (FLT_exp (SpecFloat.emin 24 128) 24). apply generic_format_FLT. exists (Float radix2 k (-24)).
    + unfold F2R, uu. simpl. lra.
    + simpl. change (Z.pow_pos 2 24) with 16777216%Z. lia.
    + simpl. unfold SpecFloat.emin. lia.
Qed.

Lemma format_idem z : rnd32 (rnd32 z) = rnd32 z.
Proof.
  apply round_generic; [apply valid_rnd_N|]. apply generic_format_round; [apply (fexp_correct 24 128); reflexivity|apply valid_rnd_N].
Qed.

Lemma rnd_half z : z <= uu / 2 -> rnd32 z <= uu / 2.
Proof.
  intros H. apply Rle_trans with (rnd32 (uu / 2)); [apply rnd32_le, H|]. apply Req_le.
  apply round_generic; [apply valid_rnd_N|].
  replace (uu / 2) with (bpow radix2 (-25)) by (unfold uu; simpl; lra). apply generic_format_bpow.
  unfold SpecFloat.fexp, SpecFloat.emin. simpl. lia.
Qed.

Lemma rnd_pos z : 0 <= z -> 0 <= rnd32 z.
Proof. intros H. rewrite <- rnd32_0. apply rnd32_le, H. Qed.
Lemma rnd_unit z : 0 <= z <= 1 -> 0 <= rnd32 z <= 1.
Proof. intros H. apply (rnd32_bounds z 0 1); [unfold small; simpl; lia|unfold small; simpl; lia|exact H]. Qed.

(** A factor just below one lowers a float of [1/2, 1] by at least half a unit. *)
Lemma rnd_shrink B : rnd32 B = B -> 1 / 2 <= B <= 1 -> rnd32 ((1 - uu) * B) <= B - uu / 2.
Proof.
  intros Q H. destruct (Req_dec B (1 / 2)) as [E|N].
  - rewrite E. replace ((1 - uu) * (1 / 2)) with (1 / 2 - uu / 2) by lra. apply Req_le.
    apply round_generic; [apply valid_rnd_N|]. change fx with (FLT_exp (SpecFloat.emin 24 128) 24).
    apply generic_format_FLT. exists (Float radix2 16777215 (-25)).
    + unfold F2R, uu. simpl. lra.
    + simpl. change (Z.pow_pos 2 24) with 16777216%Z. lia.
    + simpl. unfold SpecFloat.emin. lia.
  - set (z := (1 - uu) * B). assert (Hz : z < B - uu / 2 /\ 0 <= z < 1) by (unfold z, uu in *; lra).
    pose proof (rnd_1 z (proj2 Hz)) as R1.
    assert (K : exists k : Z, B = IZR k * uu /\ (8388609 <= k <= 16777216)%Z).
    { destruct (Req_dec B 1) as [->|N1].
      - exists 16777216%Z. split; [unfold uu; lra|lia].
      - destruct (grid B Q) as [k [E K]]; [lra|]. exists k. split; [exact E|]. unfold uu in E.
        assert (8388608 < IZR k) by lra. apply lt_IZR in H0. lia. }
    destruct K as [k [E K]]. destruct (Rlt_le_dec (rnd32 z) (1 / 2)) as [L|L].
    + assert (8388609 <= IZR k) by (apply IZR_le; lia). unfold uu in *. lra.
    + destruct (grid (rnd32 z) (format_idem z)) as [j [Ej J]]; [unfold uu in *; lra|].
      assert (D : IZR j < IZR k) by (unfold uu in *; lra). apply lt_IZR in D.
      assert (IZR j <= IZR (k - 1)) by (apply IZR_le; lia). rewrite minus_IZR in H0. unfold uu in *. lra.
Qed.

(** The alpha of the union of two coverages, computed in single precision. *)
Definition union_alpha (x y : R) : R :=
  rnd32 (rnd32 (rnd32 (x * rnd32 (1 - y)) + rnd32 (y * rnd32 (1 - x))) + rnd32 (x * y)).

Lemma union_sym x y : union_alpha x y = union_alpha y x.
Proof. unfold union_alpha. rewrite (Rplus_comm (rnd32 (x * rnd32 (1 - y)))), (Rmult_comm x y). reflexivity. Qed.

(** Both coverages at least five units away from one. *)
Lemma union_far x y : 0 <= x <= 1 - 5 * uu -> 0 <= y <= 1 - 5 * uu -> union_alpha x y <= 1.
Proof.
  intros X Y. apply rnd_mid.
  assert (0 <= x * (1 - y)) by (apply Rmult_le_pos; unfold uu in *; lra).
  assert (0 <= y * (1 - x)) by (apply Rmult_le_pos; unfold uu in *; lra).
  assert (0 <= x * y) by (apply Rmult_le_pos; lra).
  set (a := 1 - x) in *. set (b := 1 - y) in *.
  assert (Pa : 5 * uu <= a <= 1) by (unfold a; lra). assert (Pb : 5 * uu <= b <= 1) by (unfold b; lra).
  assert (A1 : 5 * uu * a <= b * a) by (apply Rmult_le_compat_r; unfold uu in *; lra).
  assert (A2 : 5 * uu * b <= a * b) by (apply Rmult_le_compat_r; unfold uu in *; lra).
  rewrite (Rmult_comm b a) in A1.
  pose proof (rnd_rel b) as RB. pose proof (rnd_rel a) as RA.
  assert (PB : 0 <= rnd32 b) by (apply rnd_pos; unfold uu in *; lra).
  assert (PA : 0 <= rnd32 a) by (apply rnd_pos; unfold uu in *; lra).
  assert (S1 : x * rnd32 b <= x * b * (1 + uu) + eta).
  { apply Rle_trans with (x * (b * (1 + uu) + eta)); [apply Rmult_le_compat_l; [lra|apply RB; unfold uu in *; lra]|].
    assert (x * eta <= 1 * eta) by (apply Rmult_le_compat_r; unfold eta, uu in *; lra). lra. }
  assert (S2 : y * rnd32 a <= y * a * (1 + uu) + eta).
  { apply Rle_trans with (y * (a * (1 + uu) + eta)); [apply Rmult_le_compat_l; [lra|apply RA; unfold uu in *; lra]|].
    assert (y * eta <= 1 * eta) by (apply Rmult_le_compat_r; unfold eta, uu in *; lra). lra. }
  assert (P1 : 0 <= x * rnd32 b) by (apply Rmult_le_pos; lra).
  assert (P2 : 0 <= y * rnd32 a) by (apply Rmult_le_pos; lra).
  pose proof (rnd_rel _ P1) as T1. pose proof (rnd_rel _ P2) as T2. pose proof (rnd_rel (x * y) ltac:(assumption)) as T3.
  pose proof (rnd_pos _ P1) as Q1. pose proof (rnd_pos _ P2) as Q2.
  pose proof (rnd_rel (rnd32 (x * rnd32 b) + rnd32 (y * rnd32 a)) ltac:(lra)) as T4.
  set (s := rnd32 (x * rnd32 b)) in *. set (d := rnd32 (y * rnd32 a)) in *.
  set (z := rnd32 (s + d)) in *. set (t := rnd32 (x * y)) in *.
  set (p1 := x * rnd32 b) in *. set (p2 := y * rnd32 a) in *.
  assert (Ex : x = 1 - a) by (unfold a; ring). assert (Ey : y = 1 - b) by (unfold b; ring).
  replace (x * b) with (b - a * b) in * by (rewrite Ex; ring).
  replace (y * a) with (a - a * b) in * by (rewrite Ey; ring).
  replace (x * y) with (1 - a - b + a * b) in * by (rewrite Ex, Ey; ring).
  clearbody a b s d z t p1 p2. clear Ex Ey RA RB PA PB. set (ab := a * b) in *. clearbody ab.
  unfold uu, eta in *. lra.
Qed.

Lemma unit_one y : 0 <= y <= 1 -> rnd32 y = y -> union_alpha 1 y <= 1.
Proof.
  intros Y Q. apply rnd_mid.
  replace (1 - 1) with 0 by ring. rewrite rnd32_0, Rmult_0_r, rnd32_0, Rplus_0_r, !Rmult_1_l, !format_idem.
  rewrite Q. destruct (Req_dec y 0) as [->|N].
  - rewrite Rminus_0_r, (rnd32_int 1) by (unfold small; simpl; lia). unfold uu. lra.
  - pose proof (rnd_1 (1 - y)). unfold uu in *. lra.
Qed.

(** One coverage within four units of one, the other no greater. *)
Lemma union_near x y : rnd32 x = x -> rnd32 y = y -> 1 - 5 * uu < x < 1 -> 0 <= y <= x -> union_alpha x y <= 1.
Proof.
  intros Qx Qy X Y. apply rnd_mid.
  destruct (grid x Qx) as [m [Em M]]; [unfold uu in *; lra|].
  set (k := (16777216 - m)%Z).
  assert (Ea : 1 - x = IZR k * uu) by (unfold k; rewrite minus_IZR; unfold uu in *; lra).
  assert (Ra : rnd32 (1 - x) = 1 - x) by (rewrite Ea; apply format_grid; unfold k; lia).
  assert (Ka : 1 - x = uu \/ 2 * uu <= 1 - x).
  { destruct (Z.eq_dec k 1) as [E|E]; [left; rewrite Ea, E; ring|right; rewrite Ea].
    assert (2 <= IZR k) by (apply IZR_le; unfold k in *; lia). unfold uu. lra. }
  rewrite Ra. set (a := 1 - x) in *. set (b := 1 - y) in *.
  assert (Ex : x = 1 - a) by (unfold a; ring). assert (Ey : y = 1 - b) by (unfold b; ring).
  assert (Pa : uu <= a < 5 * uu) by (unfold uu in *; lra). assert (Pb : a <= b <= 1) by lra.
  clear m Em M k Ea Ra Qx.
  assert (Pya : 0 <= y * a) by (apply Rmult_le_pos; unfold uu in *; lra).
  assert (Pxy : 0 <= x * y) by (apply Rmult_le_pos; unfold uu in *; lra).
  assert (Pxb : 0 <= x * b) by (apply Rmult_le_pos; unfold uu in *; lra).
  assert (Lab1 : a * b <= a) by (rewrite <- (Rmult_1_r a) at 2; apply Rmult_le_compat_l; unfold uu in *; lra).
  pose proof (rnd_rel (y * a) Pya) as D1. pose proof (rnd_pos _ Pya) as D0.
  assert (E1 : x * b = b - a * b) by (rewrite Ex; ring).
  assert (E2 : y * a = a - a * b) by (rewrite Ey; ring).
  assert (E3 : x * y = 1 - a - b + a * b) by (rewrite Ex, Ey; ring).
  destruct (Rlt_le_dec y (1 / 2)) as [Hy|Hy].
  - (* y < 1/2 *)
    pose proof (rnd_unit b ltac:(unfold uu in *; lra)) as UB.
    assert (B2 : 1 / 2 <= rnd32 b).
    { replace (1 / 2) with (rnd32 (IZR 8388608 * uu)) by (rewrite format_grid by lia; unfold uu; lra). apply rnd32_le. unfold uu, b in *; lra. }
    assert (Bu : rnd32 b <= b + uu / 2).
    { destruct (Req_dec b 1) as [->|N]; [rewrite (rnd32_int 1) by (unfold small; simpl; lia); unfold uu; lra|].
      apply rnd_1. unfold uu in *. lra. }
    assert (Gt : rnd32 (x * y) <= x * y + uu / 4).
    { apply rnd_2. split; [exact Pxy|]. apply Rle_lt_trans with (1 * y); [apply Rmult_le_compat_r; lra|lra]. }
    destruct Ka as [Ka|Ka].
    + assert (S : rnd32 (x * rnd32 b) <= rnd32 b - uu / 2).
      { rewrite Ex, Ka. apply rnd_shrink; [apply format_idem|lra]. }
      assert (D : rnd32 (y * a) <= uu / 2) by (apply rnd_half; rewrite Ka; unfold uu in *; lra).
      assert (Z : rnd32 (rnd32 (x * rnd32 b) + rnd32 (y * a)) <= rnd32 b).
      { rewrite <- (format_idem b) at 2. apply rnd32_le. lra. }
      assert (a * b >= 0) by (apply Rle_ge, Rmult_le_pos; unfold uu in *; lra).
      rewrite E3 in Gt. set (ab := a * b) in *.
      generalize dependent (rnd32 (rnd32 (x * rnd32 b) + rnd32 (y * a))). rewrite E3. intros z Z.
      unfold uu in *. lra.
    + assert (Pxb' : 0 <= x * rnd32 b) by (apply Rmult_le_pos; unfold uu in *; lra).
      assert (Sx : x * rnd32 b <= x * b + uu / 2).
      { apply Rle_trans with (x * (b + uu / 2)); [apply Rmult_le_compat_l; lra|].
        assert (x * (uu / 2) <= 1 * (uu / 2)) by (apply Rmult_le_compat_r; unfold uu in *; lra). lra. }
      assert (Sx1 : x * rnd32 b < 1).
      { apply Rle_lt_trans with (x * 1); [apply Rmult_le_compat_l; lra|unfold uu in *; lra]. }
      pose proof (rnd_1 _ (conj Pxb' Sx1)) as S. pose proof (rnd_pos _ Pxb') as S0.
      assert (Lab2 : a * (1 / 2) <= a * b) by (apply Rmult_le_compat_l; unfold uu in *; lra).
      assert (La2 : a * b <= 5 * uu * b) by (apply Rmult_le_compat_r; unfold uu in *; lra).
      assert (Bb : b <= 1) by lra.
      set (s := rnd32 (x * rnd32 b)) in *. set (d := rnd32 (y * a)) in *.
      assert (Sd : s + d < 1).
      { rewrite E1 in Sx. rewrite E2 in D1. unfold uu, eta in *. 
        assert (Lab3 : a * b >= a - a * y) by (rewrite Ey; lra).
        assert (0 <= (1 - 2 * a) * y) by (apply Rmult_le_pos; lra).
        assert (b - a * b + (a - a * b) <= 1 - a) by (replace b with (1 - y) by lra; lra).
        lra. }
      pose proof (rnd_1 (s + d) ltac:(lra)) as Z.
      rewrite E3 in Gt. rewrite E1 in Sx. rewrite E2 in D1. 
      generalize dependent (rnd32 (s + d)). intros z Z. rewrite E3.
      set (ab := a * b) in *. clearbody ab s d a b.
      unfold uu, eta in *. lra.
  - (* y >= 1/2 *)
    destruct (grid y Qy) as [j [Ej J]]; [lra|].
    assert (Rb : rnd32 b = b).
    { replace b with (IZR (16777216 - j) * uu) by (unfold b; rewrite minus_IZR; unfold uu in *; lra). apply format_grid. lia. }
    rewrite Rb. clear j Ej J.
    assert (Gt : rnd32 (x * y) <= x * y + uu / 2).
    { apply rnd_1. split; [exact Pxy|]. apply Rle_lt_trans with (1 * y); [apply Rmult_le_compat_r; lra|lra]. }
    assert (Lab0 : uu * b <= a * b) by (apply Rmult_le_compat_r; lra).
    assert (Lab5 : a * b <= 5 * uu * b) by (apply Rmult_le_compat_r; unfold uu in *; lra).
    pose proof (rnd_pos _ Pxb) as S0.
    destruct (Rlt_le_dec b (1 / 4)) as [Hb|Hb]; [|destruct (Rlt_le_dec b (3 / 8)) as [Hc|Hc]].
    + pose proof (rnd_4 (x * b) ltac:(unfold uu in *; lra)) as S.
      set (s := rnd32 (x * b)) in *. set (d := rnd32 (y * a)) in *.
      pose proof (rnd_2 (s + d) ltac:(unfold uu, eta in *; lra)) as Z.
      rewrite E3 in Gt. rewrite E1 in S. rewrite E2 in D1.
      generalize dependent (rnd32 (s + d)). intros z Z. rewrite E3.
      set (ab := a * b) in *. clearbody ab s d a b. unfold uu, eta in *. lra.
    + pose proof (rnd_2 (x * b) ltac:(unfold uu in *; lra)) as S.
      set (s := rnd32 (x * b)) in *. set (d := rnd32 (y * a)) in *.
      pose proof (rnd_2 (s + d) ltac:(unfold uu, eta in *; lra)) as Z.
      rewrite E3 in Gt. rewrite E1 in S. rewrite E2 in D1.
      generalize dependent (rnd32 (s + d)). intros z Z. rewrite E3.
      set (ab := a * b) in *. clearbody ab s d a b. unfold uu, eta in *. lra.
    + pose proof (rnd_2 (x * b) ltac:(unfold uu in *; lra)) as S.
      set (s := rnd32 (x * b)) in *. set (d := rnd32 (y * a)) in *.
      pose proof (rnd_1 (s + d) ltac:(unfold uu, eta in *; lra)) as Z.
      rewrite E3 in Gt. rewrite E1 in S. rewrite E2 in D1.
      generalize dependent (rnd32 (s + d)). intros z Z. rewrite E3.
      set (ab := a * b) in *. clearbody ab s d a b. unfold uu, eta in *. lra.
Qed.

Lemma union_le x y : rnd32 x = x -> rnd32 y = y -> 0 <= x <= 1 -> 0 <= y <= 1 -> union_alpha x y <= 1.
Proof.
  intros Qx Qy X Y.
  destruct (Req_dec x 1) as [->|Nx]; [apply unit_one; assumption|].
  destruct (Req_dec y 1) as [->|Ny]; [rewrite union_sym; apply unit_one; assumption|].
  destruct (Rle_lt_dec y x) as [L|L].
  - destruct (Rle_lt_dec x (1 - 5 * uu)); [apply union_far; lra|apply union_near; lra].
  - rewrite union_sym. destruct (Rle_lt_dec y (1 - 5 * uu)); [apply union_far; lra|apply union_near; lra].
Qed.
