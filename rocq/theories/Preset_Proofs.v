(** * The presets against their published values (C183, C184) *)
From Coq Require Import ZArith QArith Qreals Reals Lra Lia List Bool.
From Verif Require Import Arith Outcome ColorModel GammaModel MatrixModel SpaceModel RArith Laws Spec_Matrix Spec_Space Space_Proofs Gamma2_Proofs Spec_Preset.
Import ListNotations.
Local Open Scope R_scope.

Lemma within_lit e a b : - e <= a - b <= e -> within e a b.
Proof. intros H. apply Rabs_le. exact H. Qed.

Ltac lits := cbn [lit RArith]; unfold Q2R; cbn [Qnum Qden].

(** ** Illuminants *)
Lemma whites_published : Forall2 (fun (w : white_point R) t => within 0.0005 (cx w) (fst t) /\ within 0.0005 (cy w) (snd t))
  white_presets (illuminants_2 ++ illuminants_10).
Proof.
  unfold white_presets, illuminants_2, illuminants_10. cbn [app].
  repeat (apply Forall2_cons; [split; apply within_lit; unfold cx, cy;
    cbn -[Q2R Rplus Rminus Rmult Rdiv Rinv Ropp]; unfold Q2R; cbn [Qnum Qden]; lra|]).
  apply Forall2_nil.
Qed.

(** ** Power functions *)
Lemma rpow_c x y : 0 <= x -> gen y -> Rpow_c x y = rpow x y.
Proof.
  intros X G. unfold rpow. destruct (Rle_dec x 0) as [L|L].
  - replace x with 0 by lra. apply Rpow_c_zero. destruct G. lra.
  - destruct G as [_ [G2 G3]]. apply Rpow_c_pos; auto. lra.
Qed.

Lemma srgb_published x : 0 <= x <= 1 -> gamma_correction gamma_sRGB x = srgb_encode x /\ inverse_gamma_correction gamma_sRGB x = srgb_decode x.
Proof.
  intros X. destruct (srgb_val x) as [-> ->]. unfold srgb_fwd, srgb_inv, srgb_encode, srgb_decode. split.
  - destruct (Rle_dec x 0.0031308); [reflexivity|]. destruct (Rle_dec x 1); [|lra]. rewrite rpow_c by (lra || apply gen24i). reflexivity.
  - destruct (Rle_dec x 0.04045); [reflexivity|]. destruct (Rle_dec x 1); [|lra]. apply rpow_c; [lra|apply gen24].
Qed.

Lemma power_published e q x : In q power_exponents -> Q2R q = e -> 0 <= x <= 1 ->
  gamma_correction (power_gamma q) x = rpow x (1 / e) /\ inverse_gamma_correction (power_gamma q) x = rpow x e.
Proof.
  intros I <- X. destruct (power_exp q I) as [G1 G2]. destruct (power_gamma_val q x) as [-> ->]; [lra|].
  rewrite !rpow_c by (assumption || lra). auto.
Qed.

Lemma powers_published x : 0 <= x <= 1 ->
  Forall (fun ge => gamma_correction (fst ge) x = rpow x (1 / snd ge) /\ inverse_gamma_correction (fst ge) x = rpow x (snd ge))
    [(gamma1_8, 1.8); (gamma2_2, 2.2); (gamma2_6, 2.6); (gamma2_8, 2.8); (gammaAdobe, 563 / 256)].
Proof.
  intros X. repeat apply Forall_cons; try apply Forall_nil; cbn [fst snd];
    (apply power_published; [unfold power_exponents; cbn [In]; tauto|unfold Q2R; cbn [Qnum Qden]; lra|exact X]).
Qed.

Lemma uhdtv_swapped x : 0 <= x <= 1 ->
  (x <> 0.081 -> gamma_correction gammaUHDTV x = rec2020_decode x) /\
  (x < 0.018 \/ 0.018054 < x -> inverse_gamma_correction gammaUHDTV x = rec2020_encode x).
Proof.
  intros X. destruct (uh_val x) as [-> ->]. unfold uh_fwd, uh_inv, rec2020_encode, rec2020_decode. split.
  - intros N. destruct (Rle_dec x 0.081), (Rlt_dec x 0.081); try lra. destruct (Rle_dec x 1); [|lra]. apply rpow_c; [lra|apply gen45i].
  - intros N. destruct (Rle_dec x 0.018053968510807), (Rlt_dec x 0.018); try lra. destruct (Rle_dec x 1); [|lra].
    rewrite rpow_c by (lra || apply gen45). reflexivity.
Qed.

Lemma uhdtv_refuted x : 0 < x < 0.018 ->
  gamma_correction gammaUHDTV x < rec2020_encode x / 20 /\ 20 * rec2020_decode x < inverse_gamma_correction gammaUHDTV x.
Proof.
  intros X. destruct (uh_val x) as [-> ->]. unfold uh_fwd, uh_inv, rec2020_encode, rec2020_decode.
  destruct (Rle_dec x 0.081), (Rlt_dec x 0.018), (Rle_dec x 0.018053968510807), (Rlt_dec x 0.081); lra.
Qed.

Lemma gen18 : gen 1.8. Proof. unfold gen. lra. Qed.
Lemma gen18i : gen (1 / 1.8). Proof. unfold gen. lra. Qed.

Lemma romm_encode_published x : 0 <= x <= 1 -> x <= 0.001953 \/ 1 / 512 <= x -> gamma_correction gammaRomm x = romm_encode x.
Proof.
  intros X C. destruct (romm_val x) as [-> _]. unfold romm_fwd, romm_encode.
  destruct (Rle_dec x 0.001953), (Rlt_dec x (1 / 512)); try lra. destruct (Rle_dec x 1); [|lra]. apply rpow_c; [lra|apply gen18i].
Qed.

Lemma romm_decode_partial x : 0 <= x <= 1 -> x <= 0.001953 \/ 1 / 32 <= x -> inverse_gamma_correction gammaRomm x = romm_decode x.
Proof.
  intros X C. destruct (romm_val x) as [_ ->]. unfold romm_inv, romm_decode.
  destruct (Rle_dec x 0.001953), (Rlt_dec x (1 / 32)); try lra. destruct (Rle_dec x 1); [|lra]. apply rpow_c; [lra|apply gen18].
Qed.

Lemma romm_decode_refuted x : 0.001953 < x < 1 / 32 -> inverse_gamma_correction gammaRomm x < romm_decode x.
Proof.
  intros X. destruct (romm_val x) as [_ ->]. unfold romm_inv, romm_decode.
  destruct (Rle_dec x 0.001953), (Rlt_dec x (1 / 32)), (Rle_dec x 1); try lra.
  rewrite Rpow_c_pos by lra. replace 1.8 with (1 + 0.8) by lra. rewrite Rpower_plus, Rpower_1 by lra.
  assert (Rpower x 0.8 < 1 / 16); [|nra].
  replace 0.8 with (INR 4 / INR 5) by (cbn; lra). apply Rpower_frac_lt; [lra|lra|discriminate|].
  assert (x ^ 4 < (1 / 32) ^ 4); [|lra].
  assert (A : 0 < x * x < (1 / 32) * (1 / 32)) by nra. replace (x ^ 4) with ((x * x) * (x * x)) by ring. nra.
Qed.
Lemma romm_dark_eighth : inverse_gamma_correction gammaRomm 0.002 * 8 < romm_decode 0.002.
Proof.
  destruct (romm_val 0.002) as [_ ->]. unfold romm_inv, romm_decode.
  destruct (Rle_dec 0.002 0.001953), (Rlt_dec 0.002 (1 / 32)), (Rle_dec 0.002 1); try lra.
  rewrite Rpow_c_pos by lra. replace 1.8 with (INR 9 / INR 5) by (cbn; lra).
  assert (Rpower 0.002 (INR 9 / INR 5) < 0.002 / 130); [|lra]. apply Rpower_frac_lt; [lra|lra|discriminate|]. lra.
Qed.

(** ** RGB spaces *)
Lemma publishedI rx ry gx gy bx by_ a w gam t :
  nondegenerate (rx, ry, 1 - rx - ry) (gx, gy, 1 - gx - gy) (bx, by_, 1 - bx - by_) (white_xyz w) ->
  near_xy (rx, ry) (t_red t) -> near_xy (gx, gy) (t_green t) -> near_xy (bx, by_) (t_blue t) -> near_xy (cx w, cy w) (t_white t) ->
  decodes gam (t_decode t) -> published (space_ctor rx ry gx gy bx by_ (Some (a, w)) (Some gam)) t.
Proof.
  intros N R G B W D. destruct (space_ctor_ok rx ry gx gy bx by_ a w (Some gam) N) as [s [E [Ew [Eg [Er [Egr [Eb _]]]]]]].
  exists s, a, w, gam. rewrite Er, Egr, Eb. repeat split; auto; try (apply R || apply G || apply B || apply W); lra.
Qed.

Lemma power_decodes q e : In q power_exponents -> Q2R q = e -> decodes (power_gamma q) (power e).
Proof. intros I E v V. exact (proj2 (power_published e q v I E V)). Qed.
Lemma srgb_decodes : decodes gamma_sRGB (Some srgb_decode).
Proof. intros v V. exact (proj2 (srgb_published v V)). Qed.

Lemma spaces_published addr : Forall2 published (space_presets addr) rgb_tables.
Proof.
  unfold space_presets, rgb_tables.
  repeat apply Forall2_cons; try apply Forall2_nil; apply publishedI.
  all: cbn [t_red t_green t_blue t_white t_decode]; unfold D50, D65, Ill_C, Ill_E.
  all: try exact I.
  all: try exact srgb_decodes.
  all: try (apply power_decodes; [unfold power_exponents; cbn [In]; tauto|unfold Q2R; cbn [Qnum Qden]; lra]).
  all: try (unfold nondegenerate, white_xyz, det_cols3; cbn [tx ty_ tz wp_D65_2Degree wp_D50_2Degree wp_C_2Degree wp_E_2Degree white_point5];
      lits; repeat split; lra).
  all: try (split; apply within_lit; unfold cx, cy; cbn -[Q2R Rplus Rminus Rmult Rdiv Rinv Ropp]; unfold Q2R; cbn [Qnum Qden]; lra).
Qed.

Lemma curves_example : srgb_encode 0.001 = 0.01292 /\ rec2020_encode 0.01 = 0.045 /\ romm_decode 0.002 = 0.000125.
Proof.
  unfold srgb_encode, rec2020_encode, romm_decode.
  destruct (Rle_dec 0.001 0.0031308), (Rlt_dec 0.01 0.018), (Rlt_dec 0.002 (1 / 32)); repeat split; lra.
Qed.
