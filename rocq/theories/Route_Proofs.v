(** * Direct conversions and conversions in two steps are the same computation (C182) *)
From Coq Require Import ZArith List Bool Lia.
From Verif Require Import Arith Outcome ColorModel GammaModel MatrixModel SpaceModel Heap Converter Laws Spec Spec_Matrix Spec_Conv Spec_Route
  NormalForms Alpha8 Core_Proofs Conv_Proofs Conv2_Proofs Conv3_Proofs.
Import ListNotations.

Section Route.
Context {F : Type} {AF : Arith F} {L : ArithLaws F} {A8 : Alpha8Laws F}.
Local Notation heap := (heap F).

Ltac names H := unfold
  rgb_true_to_cmyk, rgb_true_to_hsi, rgb_true_to_hsv, rgb_true_to_hsl, rgb_true_to_hcy, rgb_true_to_xyz, rgb_true_to_xyy, rgb_true_to_cieluv, rgb_true_to_lch_uv, rgb_true_to_lab, rgb_true_to_lch_ab,
  rgb_deep_to_grey_true, rgb_deep_to_xyy, rgb_deep_to_cieluv, rgb_deep_to_lab, rgb_deep_to_lch_ab, rgb_deep_to_lch_uv,
  grey_true_to_cmyk, grey_true_to_hsi, grey_true_to_hsv, grey_true_to_hsl, grey_true_to_hcy, grey_true_to_xyz, grey_true_to_xyy, grey_true_to_cieluv, grey_true_to_lab, grey_true_to_lch_ab, grey_true_to_lch_uv,
  grey_deep_to_cmyk, grey_deep_to_hsi, grey_deep_to_hsv, grey_deep_to_hsl, grey_deep_to_hcy, grey_deep_to_xyz, grey_deep_to_xyy, grey_deep_to_cieluv, grey_deep_to_lab, grey_deep_to_lch_ab, grey_deep_to_lch_uv,
  cmyk_to_rgb_true, cmyk_to_grey_true, cmyk_to_grey_deep, cmyk_to_hsi, cmyk_to_hsv, cmyk_to_hsl, cmyk_to_hcy, cmyk_to_xyz, cmyk_to_xyy, cmyk_to_cieluv, cmyk_to_lab, cmyk_to_lch_ab, cmyk_to_lch_uv,
  hsi_to_rgb_true, hsi_to_grey_true, hsi_to_grey_deep, hsi_to_cmyk, hsi_to_hsv, hsi_to_hsl, hsi_to_hcy, hsi_to_xyz, hsi_to_xyy, hsi_to_cieluv, hsi_to_lab, hsi_to_lch_ab, hsi_to_lch_uv,
  hsv_to_rgb_true, hsv_to_grey_true, hsv_to_grey_deep, hsv_to_cmyk, hsv_to_hsi, hsv_to_hcy, hsv_to_xyz, hsv_to_xyy, hsv_to_cieluv, hsv_to_lab, hsv_to_lch_ab, hsv_to_lch_uv,
  hsl_to_rgb_true, hsl_to_grey_true, hsl_to_grey_deep, hsl_to_cmyk, hsl_to_hsi, hsl_to_hcy, hsl_to_xyz, hsl_to_xyy, hsl_to_cieluv, hsl_to_lab, hsl_to_lch_ab, hsl_to_lch_uv,
  hcy_to_rgb_true, hcy_to_grey_true, hcy_to_grey_deep, hcy_to_cmyk, hcy_to_hsi, hcy_to_hsv, hcy_to_hsl, hcy_to_xyz, hcy_to_xyy, hcy_to_cieluv, hcy_to_lab, hcy_to_lch_ab, hcy_to_lch_uv,
  xyy_to_rgb_true, xyy_to_rgb_deep, xyy_to_grey_true, xyy_to_grey_deep, xyy_to_cmyk, xyy_to_hsi, xyy_to_hsv, xyy_to_hsl, xyy_to_hcy, xyy_to_cieluv, xyy_to_lab, xyy_to_lch_ab, xyy_to_lch_uv,
  lch_ab_to_rgb_true, lch_ab_to_rgb_deep, lch_ab_to_grey_true, lch_ab_to_grey_deep, lch_ab_to_cmyk, lch_ab_to_hsi, lch_ab_to_hsv, lch_ab_to_hsl, lch_ab_to_hcy, lch_ab_to_xyz, lch_ab_to_xyy, lch_ab_to_lch_uv, lch_ab_to_cieluv,
  lch_uv_to_rgb_true, lch_uv_to_rgb_deep, lch_uv_to_grey_true, lch_uv_to_grey_deep, lch_uv_to_cmyk, lch_uv_to_hsi, lch_uv_to_hsv, lch_uv_to_hsl, lch_uv_to_hcy, lch_uv_to_xyz, lch_uv_to_xyy, lch_uv_to_lch_ab, lch_uv_to_lab,
  cieluv_to_rgb_true, cieluv_to_rgb_deep, cieluv_to_grey_true, cieluv_to_grey_deep, cieluv_to_cmyk, cieluv_to_hsi, cieluv_to_hsv, cieluv_to_hsl, cieluv_to_hcy, cieluv_to_xyy, cieluv_to_lch_ab, cieluv_to_lab,
  lab_to_rgb_true, lab_to_rgb_deep, lab_to_grey_true, lab_to_grey_deep, lab_to_cmyk, lab_to_hsi, lab_to_hsv, lab_to_hsl, lab_to_hcy, lab_to_xyy, lab_to_lch_uv, lab_to_cieluv,
  xyz_to_rgb_true, xyz_to_grey_true, xyz_to_grey_deep, xyz_to_cmyk, xyz_to_hsi, xyz_to_hsv, xyz_to_hsl, xyz_to_hcy, xyz_to_lch_ab, xyz_to_lch_uv in H.


Ltac dispatch H Hp T := cbn [to_type] in H;
  unfold to_rgb_true, to_rgb_deep, to_grey_true, to_grey_deep, to_cmyk, to_hsi, to_hsv, to_hsl, to_hcy, to_xyz, to_xyy, to_cieluv, to_lab, to_lch_ab, to_lch_uv in H;
  unfold bind at 1, load in H; rewrite Hp, T in H; names H; try names H; try names H; unfold bind in H.
Ltac steps := repeat match goal with
  | E : ?lhs = (Ok (Some _), _) |- _ => match lhs with context [match ?t with (_, _) => _ end] =>
      lazymatch t with match _ with (_, _) => _ end => fail | _ => destruct t as [[?|?| |] ?]; try discriminate E end end
  end; match goal with E : ?f ?p ?h = (Ok (Some _), _) |- _ => rewrite ?E | _ => idtac end.
Lemma route_same X Mid Y : on_route X Mid Y = true -> X <> UNDEFINED -> Y <> UNDEFINED -> X <> Mid -> Mid <> Y -> X <> Y ->
  forall (h : heap) p c, at_addr h p c -> wf_color X c -> (needs_space X Mid || cie Y = true -> has_space h c) ->
  to_type Y (Some p) h = bind (to_type Mid (Some p)) (to_type Y) h.
Proof.
  intros B UX UY N1 N2 N3 h p c Hp W HS.
  assert (UM : Mid <> UNDEFINED) by (destruct Mid; discriminate).
  destruct (to_type_cv X Mid UX UM N1 h p c Hp W) as [q [r [h' [c' [E [_ [Hq [Wr _]]]]]]]].
  { intros N. apply HS. rewrite N. reflexivity. }
  pose proof (wf_ty _ _ W) as TX. pose proof (wf_ty _ _ Wr) as TM. unfold at_addr in Hp, Hq. clear HS UM W Wr.
  unfold bind at 1. rewrite E.
  remember (to_type Y (Some p) h) as l eqn:El. remember (to_type Y (Some q) h') as l' eqn:El'.
  destruct Mid; try discriminate B; destruct X; try congruence; try discriminate B; clear N1 UX;
  dispatch E Hp TX;
  destruct Y; try congruence; try discriminate B; clear N2 N3 UY B;
  dispatch El Hp TX; dispatch El' Hq TM; subst l l'; steps; try reflexivity.
Qed.
End Route.

From Coq Require Import Reals.
From Verif Require Import F32 RArith.
Lemma route_same_binary32 o X Mid Y : on_route X Mid Y = true -> X <> UNDEFINED -> Y <> UNDEFINED -> X <> Mid -> Mid <> Y -> X <> Y ->
  forall (h : heap f32) p c, at_addr h p c -> @wf_color f32 (F32 o) X c -> (needs_space X Mid || cie Y = true -> has_space h c) ->
  @to_type f32 (F32 o) Y (Some p) h = bind (@to_type f32 (F32 o) Mid (Some p)) (@to_type f32 (F32 o) Y) h.
Proof. exact (@route_same f32 (F32 o) _ _ X Mid Y). Qed.
Lemma route_same_exact X Mid Y : on_route X Mid Y = true -> X <> UNDEFINED -> Y <> UNDEFINED -> X <> Mid -> Mid <> Y -> X <> Y ->
  forall (h : heap R) p c, at_addr h p c -> wf_color X c -> (needs_space X Mid || cie Y = true -> has_space h c) ->
  to_type Y (Some p) h = bind (to_type Mid (Some p)) (to_type Y) h.
Proof. exact (@route_same R RArith _ _ X Mid Y). Qed.
