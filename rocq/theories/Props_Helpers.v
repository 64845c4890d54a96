(** * Properties C173-C175: the numeric helpers of color_converter.cpp *)
From Coq Require Import ZArith Reals Lra Lia List.
From Flocq Require Import Core IEEE754.BinarySingleNaN.
From Verif Require Import Arith Outcome ColorModel SpaceModel Heap Converter F32 RArith Spec Spec_Conv Spec_Round Formula_Proofs FormulaEx_Proofs Helpers Helpers_Proofs.
Import ListNotations.
Local Open Scope R_scope.

(** C173 *)
Theorem C173_old : forall (h : heap R) p c x s l, at_addr h p c -> wf_color HSL c -> comps c = [x; s; l] ->
  yields to_rgb_deep h p (fun d => comps d = hsl_to_rgb_old x s l).
Proof. exact old_agrees. Qed.
Print Assumptions C173_old.
Example C173_example : exists (h : heap R) c, at_addr h 0%nat c /\ wf_color HSL c /\ comps c = [200; 1 / 2; 3 / 4] /\ 0 <= m_alpha c <= 1.
Proof. exact (hue_example HSL eq_refl). Qed.

(** C174: non-negative numbers are rounded to a nearest decimal ... *)
Theorem C174_nonnegative_partial : forall x k, 0 <= x -> x * 10 ^ k + / 2 < 2147483648 ->
  exists y z, round_float_to_n_decimals x (INR k) = Ok y /\ y = IZR z / 10 ^ k /\ Rabs (y - x) <= / 2 / 10 ^ k.
Proof. exact round_positive. Qed.
Print Assumptions C174_nonnegative_partial.
(** ... but nearly all negative ones are not: another decimal is strictly nearer. *)
Theorem C174_negative_refuted : forall x k, x * 10 ^ k + / 2 < 0 -> -2147483648 <= x * 10 ^ k + / 2 -> (forall n, x * 10 ^ k + / 2 <> IZR n) ->
  exists y, round_float_to_n_decimals x (INR k) = Ok y /\ exists n, Rabs (IZR n / 10 ^ k - x) < Rabs (y - x).
Proof. exact round_negative. Qed.
Print Assumptions C174_negative_refuted.
Example C174_witness : - (7 / 10) * 10 ^ 0 + / 2 < 0 /\ -2147483648 <= - (7 / 10) * 10 ^ 0 + / 2 /\ forall n, - (7 / 10) * 10 ^ 0 + / 2 <> IZR n.
Proof.
  split; [lra|]. split; [lra|]. intros n E. assert (A : (-1 < n)%Z) by (apply lt_IZR; lra). assert (B : (n < 0)%Z) by (apply lt_IZR; lra). lia.
Qed.
(** In binary32, with powf(10, z) = 1: the float next below 1/2 becomes 1, and 3e9 is undefined behaviour. *)
Theorem C174_half_refuted : forall o z, o_pow o (@fz f32 (F32 o) 10) z = @fz f32 (F32 o) 1 ->
  @round_float_to_n_decimals f32 (F32 o) below_half z = Ok (@fz f32 (F32 o) 1).
Proof. exact round_half. Qed.
Print Assumptions C174_half_refuted.
Theorem C174_overflow_refuted : forall o z, o_pow o (@fz f32 (F32 o) 10) z = @fz f32 (F32 o) 1 ->
  @round_float_to_n_decimals f32 (F32 o) three_billion z = Undef.
Proof. exact round_overflow. Qed.
Print Assumptions C174_overflow_refuted.
Example C174_below_half : is_finite below_half = true /\ B2R below_half = / 2 - bpow radix2 (-25).
Proof. exact below_half_value. Qed.
Example C174_oracle : forall a b c d e, exists o z, o = Oracle (fun _ _ => lit32 (QArith_base.inject_Z 1)) a b c d e /\ o_pow o (@fz f32 (F32 o) 10) z = @fz f32 (F32 o) 1.
Proof. intros. eexists. exists (lit32 (QArith_base.inject_Z 0)). split; [reflexivity|]. reflexivity. Qed.

(** C175 *)
Theorem C175_clamp : forall o (v lo hi : f32), is_finite lo = true -> is_finite hi = true -> B2R lo <= B2R hi ->
  let r := @clamp_float f32 (F32 o) v lo hi in
  is_finite r = true /\ B2R lo <= B2R r <= B2R hi /\ (is_finite v = true -> B2R r = Rmin (Rmax (B2R v) (B2R lo)) (B2R hi)) /\
  (is_finite v = true -> B2R lo <= B2R v <= B2R hi -> r = v) /\
  (is_nan v = true -> r = lo) /\ (v = B754_infinity true -> r = lo) /\ (v = B754_infinity false -> r = hi).
Proof. exact clamp_float_spec. Qed.
Print Assumptions C175_clamp.
Theorem C175_affine : forall x a b c d, a <> b -> transform_range x a b c d = c + (x - a) / (b - a) * (d - c).
Proof. exact transform_affine. Qed.
Print Assumptions C175_affine.
Theorem C175_back : forall x a b c d, a <> b -> c <> d -> transform_range (transform_range x a b c d) c d a b = x.
Proof. exact transform_back. Qed.
Print Assumptions C175_back.
Theorem C175_between : forall x a b c d, a < b -> c <= d -> a <= x <= b -> c <= transform_range x a b c d <= d.
Proof. exact transform_between. Qed.
Print Assumptions C175_between.
Theorem C175_degenerate : forall o (x a b c d : f32), is_finite a = true -> is_finite b = true -> B2R a = B2R b ->
  is_finite (@transform_range f32 (F32 o) x a b c d) = false.
Proof. exact transform_degenerate. Qed.
Print Assumptions C175_degenerate.
Example C175_example : transform_range 25 (-100) 100 0 100 = 62.5.
Proof. rewrite transform_affine; lra. Qed.
