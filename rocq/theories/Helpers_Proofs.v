(** * Proofs about the helpers of color_converter.cpp *)
From Coq Require Import ZArith QArith Qreals Reals Lra Lia List Bool.
From Flocq Require Import Core IEEE754.BinarySingleNaN.
From Verif Require Import Arith Outcome ColorModel SpaceModel Heap Converter F32 RArith Laws Spec Spec_Conv Spec_Round Spec_Formula F32Facts HueR_Proofs Round_Proofs Formula_Proofs Formula2_Proofs Helpers.
Import ListNotations.
Local Open Scope R_scope.
Local Notation fin x := (is_finite x = true).
Local Notation fval := (@B2R 24 128).

Lemma half_lit : Q2R (1 # 2) = / 2. Proof. unfold Q2R. cbn. lra. Qed.

(** ** The old way from HSL to RGB *)
Ltac flat a := lazymatch a with context [Rltb _ _] => fail | _ => idtac end.
Ltac pw := repeat match goal with
  | |- context [Rltb ?a ?b] => flat a; flat b; let E := fresh in destruct (Rlt_dec a b) as [E|E]; [rewrite (Rltb_lt a b E)|rewrite (Rltb_ge a b) by lra]; try (exfalso; lra) end.
Ltac at_t t v := let E := fresh in assert (E : t = v) by lra; rewrite E; lra.
Lemma old_channels x s l : 0 <= x < 360 -> 0 <= s <= 1 -> 0 <= l <= 1 ->
  hsl_to_rgb_old x s l = lifted (hexagon_rgb x ((1 - Rabs (2 * l - 1)) * s)) (l - ((1 - Rabs (2 * l - 1)) * s) / 2).
Proof.
  intros Bx Bs Bl. unfold hsl_to_rgb_old, hsl_channel. rn. cbn [lit RArith]. rewrite half_lit.
  set (v1 := if Rltb l (/ 2) then _ else _). set (C := (1 - Rabs (2 * l - 1)) * s).
  assert (E1 : v1 = l + C / 2).
  { unfold v1, C, Rltb. destruct (Rlt_dec l (/ 2)); [rewrite (Rabs_left (2 * l - 1)) by lra|rewrite (Rabs_pos_eq (2 * l - 1)) by lra]; lra. }
  rewrite E1. clearbody C. clear v1 E1. set (t := x / 360). replace x with (360 * t) by (unfold t; lra). assert (Bt : 0 <= t < 1) by (unfold t; lra). clearbody t. clear Bx x.
  unfold lifted, hexagon_rgb.
  assert (K : forall a b c a' b' c' : R, a = a' -> b = b' -> c = c' -> [a; b; c] = [a'; b'; c']) by (intros; subst; reflexivity).
  destruct (Rle_dec (360 * t) 60); [|destruct (Rle_dec (360 * t) 120); [|destruct (Rle_dec (360 * t) 180); [|destruct (Rle_dec (360 * t) 240); [|destruct (Rle_dec (360 * t) 300)]]]];
    apply K; pw; first [lra|at_t t (1 / 6)|at_t t (2 / 6)|at_t t (3 / 6)|at_t t (4 / 6)|at_t t (5 / 6)].
Qed.
Lemma old_agrees (h : heap R) p c x s l : at_addr h p c -> wf_color HSL c -> comps c = [x; s; l] ->
  yields to_rgb_deep h p (fun d => comps d = hsl_to_rgb_old x s l).
Proof.
  intros Hp W Ec. destruct (hue_range c HSL x s l W eq_refl Ec) as [Bx [Bs Bl]].
  destruct (from_hsl h p c x s l Hp Ec W _ eq_refl) as [q [m [h1 [R1 [A1 [_ [E _]]]]]]].
  exists q, m, h1. split; [exact R1|]. split; [exact A1|]. rewrite E. symmetry. apply old_channels; lra.
Qed.

(** ** Rounding to decimals *)
Lemma pow10 k : Rpow_c 10 (INR k) = 10 ^ k.
Proof.
  unfold Rpow_c. destruct (Req_EM_T (INR k) 2) as [E|_].
  { replace k with 2%nat; [simpl; lra|]. apply INR_eq. rewrite E. simpl. lra. }
  destruct (Req_EM_T (INR k) 3) as [E|_].
  { replace k with 3%nat; [simpl; lra|]. apply INR_eq. rewrite E. simpl. lra. }
  destruct (Rlt_dec 0 10); [|lra]. apply Rpower_pow. lra.
Qed.
Lemma in_int z : (-2147483648 <= z <= 2147483647)%Z -> (Z.leb (-2147483648) z && Z.leb z 2147483647)%bool = true.
Proof. intros. apply andb_true_intro. split; apply Z.leb_le; lia. Qed.
Lemma quot_move z x f : 0 < f -> Rabs (IZR z / f - x) = Rabs (IZR z - x * f) / f.
Proof.
  intros. replace (IZR z / f - x) with ((IZR z - x * f) / f) by (field; lra). unfold Rdiv. rewrite Rabs_mult, (Rabs_pos_eq (/ f)); [reflexivity|].
  left. apply Rinv_0_lt_compat. assumption.
Qed.
Lemma round_positive x k : 0 <= x -> x * 10 ^ k + / 2 < 2147483648 ->
  exists y z, round_float_to_n_decimals x (INR k) = Ok y /\ y = IZR z / 10 ^ k /\ Rabs (y - x) <= / 2 / 10 ^ k.
Proof.
  intros Hx Hb. assert (Pf : 0 < 10 ^ k) by (apply pow_lt; lra). unfold round_float_to_n_decimals. rn. cbn [ftoZ fofZ lit RArith]. rewrite half_lit, pow10.
  set (f := 10 ^ k) in * . assert (P : 0 <= x * f) by (apply Rmult_le_pos; lra). unfold Rtrunc. destruct (Rle_dec 0 (x * f + / 2)); [|lra].
  destruct (base_Int_part (x * f + / 2)) as [B1 B2]. set (z := Int_part (x * f + / 2)) in * .
  assert ((0 <= z)%Z) by (assert (-1 < z)%Z; [apply lt_IZR|]; [lra|lia]). assert ((z < 2147483648)%Z) by (apply lt_IZR; lra).
  rewrite in_int by lia. exists (IZR z / f), z. split; [reflexivity|]. split; [reflexivity|]. rewrite quot_move by assumption.
  unfold Rdiv. apply Rmult_le_compat_r; [left; apply Rinv_0_lt_compat; assumption|]. apply Rabs_le. lra.
Qed.
Lemma round_negative x k : x * 10 ^ k + / 2 < 0 -> -2147483648 <= x * 10 ^ k + / 2 -> (forall n, x * 10 ^ k + / 2 <> IZR n) ->
  exists y, round_float_to_n_decimals x (INR k) = Ok y /\ exists n, Rabs (IZR n / 10 ^ k - x) < Rabs (y - x).
Proof.
  intros Hx Hb NI. assert (Pf : 0 < 10 ^ k) by (apply pow_lt; lra). unfold round_float_to_n_decimals. rn. cbn [ftoZ fofZ lit RArith]. rewrite half_lit, pow10.
  set (f := 10 ^ k) in * . unfold Rtrunc. destruct (Rle_dec 0 (x * f + / 2)); [lra|].
  destruct (base_Int_part (- (x * f + / 2))) as [B1 B2]. set (z := Int_part (- (x * f + / 2))) in * .
  assert ((-1 < z)%Z) by (apply lt_IZR; lra). assert ((z <= 2147483648)%Z) by (apply le_IZR; lra).
  rewrite in_int by lia. exists (IZR (- z) / f). split; [reflexivity|]. exists (- z - 1)%Z. rewrite !quot_move by assumption.
  unfold Rdiv. apply Rmult_lt_compat_r; [apply Rinv_0_lt_compat; assumption|]. rewrite minus_IZR, opp_IZR. pose proof (NI (- z)%Z) as N. rewrite opp_IZR in N.
  rewrite (Rabs_pos_eq (- IZR z - x * f)) by lra. apply Rabs_lt. lra.
Qed.
(** In binary32: the largest float below a half is rounded to 1, and three billion does not fit an int. *)
Definition below_half : f32 := normalize 16777215 (-25) false.
Definition three_billion : f32 := normalize 3000000000 0 false.
Lemma round_half o z : o_pow o (@fz f32 (F32 o) 10) z = @fz f32 (F32 o) 1 -> @round_float_to_n_decimals f32 (F32 o) below_half z = Ok (@fz f32 (F32 o) 1).
Proof.
  intros E. unfold round_float_to_n_decimals. cbn [fpow F32]. rewrite E. cbn [fmul fadd ftoZ fofZ fdiv lit F32]. unfold fz. cbn [lit F32].
  replace (toZ32 _) with (Some 1%Z) by (vm_compute; reflexivity). f_equal. apply B2SF_inj. vm_compute. reflexivity.
Qed.
Lemma round_overflow o z : o_pow o (@fz f32 (F32 o) 10) z = @fz f32 (F32 o) 1 -> @round_float_to_n_decimals f32 (F32 o) three_billion z = Undef.
Proof.
  intros E. unfold round_float_to_n_decimals. cbn [fpow F32]. rewrite E. cbn [fmul fadd ftoZ fofZ fdiv lit F32]. unfold fz. cbn [lit F32].
  replace (toZ32 _) with (@None Z) by (vm_compute; reflexivity). reflexivity.
Qed.
Lemma below_half_value : fin below_half /\ fval below_half = / 2 - bpow radix2 (-25).
Proof.
  unfold below_half, normalize. pose proof (binary_normalize_correct 24 128 prec_gt_0_32 prec_lt_emax_32 mode_NE 16777215 (-25) false) as H. cbv zeta in H.
  rewrite round_generic in H; [|apply valid_rnd_N|apply generic_format_FLT; exists (Float radix2 16777215 (-25)); [reflexivity|cbn; lia|cbn; lia]].
  rewrite Rlt_bool_true in H. { destruct H as [H1 [H2 _]]. split; [exact H2|]. rewrite H1. unfold F2R. cbn. lra. }
  unfold F2R. cbn. rewrite Rabs_pos_eq; lra.
Qed.

(** ** Clamping *)
Lemma clamp_float_spec o (v lo hi : f32) : fin lo -> fin hi -> fval lo <= fval hi -> let r := @clamp_float f32 (F32 o) v lo hi in
  fin r /\ fval lo <= fval r <= fval hi /\ (fin v -> fval r = Rmin (Rmax (fval v) (fval lo)) (fval hi)) /\ (fin v -> fval lo <= fval v <= fval hi -> r = v) /\
  (is_nan v = true -> r = lo) /\ (v = B754_infinity true -> r = lo) /\ (v = B754_infinity false -> r = hi).
Proof.
  intros Fl Fh L. cbv zeta. unfold clamp_float. cbn [fmin fmax F32].
  assert (KL : fmin32 lo hi = lo).
  { unfold fmin32. rewrite !fin_not_nan by assumption. rewrite Bltb_fin by assumption. rewrite Rlt_bool_false by assumption. reflexivity. }
  destruct (is_finite v) eqn:Fv.
  - destruct (fmax32_fin v lo Fv Fl) as [A1 A2]. destruct (fmin32_fin (fmax32 v lo) hi A1 Fh) as [B1 B2].
    split; [exact B1|]. split. { rewrite B2, A2. split; [apply Rmin_glb; [apply Rmax_r|exact L]|apply Rmin_r]. }
    split. { intros _. rewrite B2, A2. reflexivity. }
    split. { intros _ [L1 L2]. unfold fmax32. rewrite !(fin_not_nan v), (fin_not_nan lo) by assumption. rewrite Bltb_fin by assumption. rewrite Rlt_bool_false by assumption.
      unfold fmin32. rewrite !(fin_not_nan v), (fin_not_nan hi) by assumption. rewrite Bltb_fin by assumption. rewrite Rlt_bool_false by assumption. reflexivity. }
    split. { intros N. rewrite (fin_not_nan v Fv) in N. discriminate. } split; intros ->; discriminate.
  - assert (D : fmin32 (fmax32 v lo) hi = lo /\ v <> B754_infinity false \/ fmin32 (fmax32 v lo) hi = hi /\ v = B754_infinity false).
    { destruct v as [s|s| |s m e H]; try discriminate.
      - destruct s; [left|right]; (split; [|try discriminate; try reflexivity]).
        + replace (fmax32 (B754_infinity true) lo) with lo; [exact KL|]. unfold fmax32. cbn [is_nan]. rewrite (fin_not_nan lo) by assumption. destruct lo as [t|t| |t m e H]; try discriminate; reflexivity.
        + replace (fmax32 (B754_infinity false) lo) with (B754_infinity false : f32).
          * unfold fmin32. cbn [is_nan]. rewrite (fin_not_nan hi) by assumption. destruct hi as [t|t| |t m e H]; try discriminate; reflexivity.
          * unfold fmax32. cbn [is_nan]. rewrite (fin_not_nan lo) by assumption. destruct lo as [t|t| |t m e H]; try discriminate; try destruct t; reflexivity.
      - left. split; [|discriminate]. exact KL. }
    destruct D as [[-> NE]|[-> E]].
    + split; [exact Fl|]. split; [lra|]. split; [discriminate|]. split; [discriminate|]. split; [reflexivity|]. split; [reflexivity|]. intros; contradiction.
    + split; [exact Fh|]. split; [lra|]. split; [discriminate|]. split; [discriminate|]. split; [subst v; discriminate|]. split; [|reflexivity]. intros E'. rewrite E in E'. discriminate.
Qed.

(** ** Changing the range *)
Lemma transform_affine x a b c d : a <> b -> transform_range x a b c d = c + (x - a) / (b - a) * (d - c).
Proof. intros N. unfold transform_range. rn. field. lra. Qed.
Lemma transform_back x a b c d : a <> b -> c <> d -> transform_range (transform_range x a b c d) c d a b = x.
Proof. intros N1 N2. rewrite !transform_affine by assumption. field. lra. Qed.
Lemma transform_between x a b c d : a < b -> c <= d -> a <= x <= b -> c <= transform_range x a b c d <= d.
Proof.
  intros L1 L2 B. rewrite transform_affine by lra. assert (0 <= (x - a) / (b - a) <= 1).
  { split; [apply Rmult_le_pos; [lra|left; apply Rinv_0_lt_compat; lra]|]. apply Rmult_le_reg_r with (b - a); [lra|]. unfold Rdiv. rewrite Rmult_assoc, Rinv_l by lra. lra. }
  assert (0 <= (x - a) / (b - a) * (d - c)) by (apply Rmult_le_pos; lra).
  assert ((x - a) / (b - a) * (d - c) <= 1 * (d - c)) by (apply Rmult_le_compat_r; lra). lra.
Qed.
Lemma transform_degenerate o (x a b c d : f32) : fin a -> fin b -> fval a = fval b -> is_finite (@transform_range f32 (F32 o) x a b c d) = false.
Proof.
  intros Fa Fb E. unfold transform_range. cbn [fsub fmul fdiv fadd F32].
  assert (Z0 : exists s, Bminus mode_NE b a = B754_zero s).
  { pose proof (Bminus_correct 24 128 prec_gt_0_32 prec_lt_emax_32 mode_NE b a Fb Fa) as H. rewrite E in H. replace (fval b - fval b) with 0 in H by lra.
    rewrite round_0 in H by apply valid_rnd_N. rewrite Rabs_R0, Rlt_bool_true in H by apply bpow_gt_0. destruct H as [H1 [H2 _]].
    destruct (Bminus mode_NE b a) as [s|s| |s m e H]; try discriminate; [exists s; reflexivity|]. exfalso. cbn in H1.
    apply (F2R_neq_0 radix2 (Float radix2 (cond_Zopp s (Zpos m)) e)); [destruct s; discriminate|exact H1]. }
  destruct Z0 as [s ->]. set (y := Bmult mode_NE _ _). clearbody y.
  assert (D : is_finite (Bdiv mode_NE y (B754_zero s)) = false) by (destruct y; reflexivity).
  set (q := Bdiv mode_NE y (B754_zero s)) in * . clearbody q. destruct q as [t|t| |t m e H]; try discriminate; destruct c as [t'|t'| |t' m' e' H']; try reflexivity; destruct t, t'; reflexivity.
Qed.
