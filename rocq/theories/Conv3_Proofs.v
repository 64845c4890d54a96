(** * Conversions: every conversion function, one lemma each, and the dispatchers
    (the list of composed functions follows the one in Converter.v) *)
From Coq Require Import ZArith QArith List Bool Lia.
From Verif Require Import Arith Outcome ColorModel GammaModel MatrixModel SpaceModel Heap Converter
  Spec F32Facts Laws NormalForms Core_Proofs Core2_Proofs Alpha8 Spec_Matrix Spec_Conv Conv_Proofs Conv2_Proofs.
Import ListNotations.

Section Conv.
Context {F : Type} {AF : Arith F} {AL : ArithLaws F} {A8 : Alpha8Laws F}.
Local Notation M := (M F).
Local Notation cv := (cv (F := F)).

(** ** Leaves *)

Lemma rgb_true_to_rgb_deep_cv : cv RGB_TRUE RGB_DEEP rgb_true_to_rgb_deep.
Proof. exact (cv_leaf _ _ _ rgb_true_to_rgb_deep_ok). Qed.
Lemma rgb_true_to_grey_true_cv : cv RGB_TRUE GREY_TRUE rgb_true_to_grey_true.
Proof. exact (cv_leaf _ _ _ rgb_true_to_grey_true_ok). Qed.
Lemma rgb_deep_to_rgb_true_cv : cv RGB_DEEP RGB_TRUE rgb_deep_to_rgb_true.
Proof. exact (cv_leaf _ _ _ rgb_deep_to_rgb_true_ok). Qed.
Lemma rgb_deep_to_grey_deep_cv : cv RGB_DEEP GREY_DEEP rgb_deep_to_grey_deep.
Proof. exact (cv_leaf _ _ _ rgb_deep_to_grey_deep_ok). Qed.
Lemma rgb_deep_to_cmyk_cv : cv RGB_DEEP CMYK rgb_deep_to_cmyk.
Proof. exact (cv_leaf _ _ _ rgb_deep_to_cmyk_ok). Qed.
Lemma rgb_deep_to_hsi_cv : cv RGB_DEEP HSI rgb_deep_to_hsi.
Proof. exact (cv_leaf _ _ _ rgb_deep_to_hsi_ok). Qed.
Lemma rgb_deep_to_hsv_cv : cv RGB_DEEP HSV rgb_deep_to_hsv.
Proof. exact (cv_leaf _ _ _ rgb_deep_to_hsv_ok). Qed.
Lemma rgb_deep_to_hsl_cv : cv RGB_DEEP HSL rgb_deep_to_hsl.
Proof. exact (cv_leaf _ _ _ rgb_deep_to_hsl_ok). Qed.
Lemma rgb_deep_to_hcy_cv : cv RGB_DEEP HCY rgb_deep_to_hcy.
Proof. exact (cv_leaf _ _ _ rgb_deep_to_hcy_ok). Qed.
Lemma grey_true_to_rgb_true_cv : cv GREY_TRUE RGB_TRUE grey_true_to_rgb_true.
Proof. exact (cv_leaf _ _ _ grey_true_to_rgb_true_ok). Qed.
Lemma grey_true_to_rgb_deep_cv : cv GREY_TRUE RGB_DEEP grey_true_to_rgb_deep.
Proof. exact (cv_leaf _ _ _ grey_true_to_rgb_deep_ok). Qed.
Lemma grey_true_to_grey_deep_cv : cv GREY_TRUE GREY_DEEP grey_true_to_grey_deep.
Proof. exact (cv_leaf _ _ _ grey_true_to_grey_deep_ok). Qed.
Lemma grey_deep_to_rgb_true_cv : cv GREY_DEEP RGB_TRUE grey_deep_to_rgb_true.
Proof. exact (cv_leaf _ _ _ grey_deep_to_rgb_true_ok). Qed.
Lemma grey_deep_to_rgb_deep_cv : cv GREY_DEEP RGB_DEEP grey_deep_to_rgb_deep.
Proof. exact (cv_leaf _ _ _ grey_deep_to_rgb_deep_ok). Qed.
Lemma grey_deep_to_grey_true_cv : cv GREY_DEEP GREY_TRUE grey_deep_to_grey_true.
Proof. exact (cv_leaf _ _ _ grey_deep_to_grey_true_ok). Qed.
Lemma cmyk_to_rgb_deep_cv : cv CMYK RGB_DEEP cmyk_to_rgb_deep.
Proof. exact (cv_leaf _ _ _ cmyk_to_rgb_deep_ok). Qed.
Lemma hsi_to_rgb_deep_cv : cv HSI RGB_DEEP hsi_to_rgb_deep.
Proof. exact (cv_leaf _ _ _ hsi_to_rgb_deep_ok). Qed.
Lemma hsv_to_rgb_deep_cv : cv HSV RGB_DEEP hsv_to_rgb_deep.
Proof. exact (cv_leaf _ _ _ hsv_to_rgb_deep_ok). Qed.
Lemma hsv_to_hsl_cv : cv HSV HSL hsv_to_hsl.
Proof. exact (cv_leaf _ _ _ hsv_to_hsl_ok). Qed.
Lemma hsl_to_rgb_deep_cv : cv HSL RGB_DEEP hsl_to_rgb_deep.
Proof. exact (cv_leaf _ _ _ hsl_to_rgb_deep_ok). Qed.
Lemma hsl_to_hsv_cv : cv HSL HSV hsl_to_hsv.
Proof. exact (cv_leaf _ _ _ hsl_to_hsv_ok). Qed.
Lemma hcy_to_rgb_deep_cv : cv HCY RGB_DEEP hcy_to_rgb_deep.
Proof. exact (cv_leaf _ _ _ hcy_to_rgb_deep_ok). Qed.
Lemma xyz_to_cieluv_cv : cv XYZ CIELUV xyz_to_cieluv.
Proof. exact (cv_leaf_white _ _ _ xyz_to_cieluv_ok eq_refl). Qed.
Lemma xyz_to_lab_cv : cv XYZ LAB xyz_to_lab.
Proof. exact (cv_leaf_white _ _ _ xyz_to_lab_ok eq_refl). Qed.
Lemma xyy_to_xyz_cv : cv XYY XYZ xyy_to_xyz.
Proof. exact (cv_leaf _ _ _ xyy_to_xyz_ok). Qed.
Lemma cieluv_to_xyz_cv : cv CIELUV XYZ cieluv_to_xyz.
Proof. exact (cv_leaf_white _ _ _ cieluv_to_xyz_ok eq_refl). Qed.
Lemma cieluv_to_lch_uv_cv : cv CIELUV LCH_UV cieluv_to_lch_uv.
Proof. exact (cv_leaf _ _ _ cieluv_to_lch_uv_ok). Qed.
Lemma lab_to_xyz_cv : cv LAB XYZ lab_to_xyz.
Proof. exact (cv_leaf_white _ _ _ lab_to_xyz_ok eq_refl). Qed.
Lemma lab_to_lch_ab_cv : cv LAB LCH_AB lab_to_lch_ab.
Proof. exact (cv_leaf _ _ _ lab_to_lch_ab_ok). Qed.
Lemma lch_ab_to_lab_cv : cv LCH_AB LAB lch_ab_to_lab.
Proof. exact (cv_leaf _ _ _ lch_ab_to_lab_ok). Qed.
Lemma lch_uv_to_cieluv_cv : cv LCH_UV CIELUV lch_uv_to_cieluv.
Proof. exact (cv_leaf _ _ _ lch_uv_to_cieluv_ok). Qed.
Lemma rgb_deep_to_xyz_cv : cv RGB_DEEP XYZ rgb_deep_to_xyz.
Proof. eapply conv_weaken; [exact rgb_deep_to_xyz_conv|reflexivity || discriminate|reflexivity || discriminate]. Qed.
Lemma rgb_true_to_grey_deep_cv : cv RGB_TRUE GREY_DEEP rgb_true_to_grey_deep.
Proof. eapply conv_weaken; [exact rgb_true_to_grey_deep_conv|reflexivity || discriminate|reflexivity || discriminate]. Qed.
Lemma xyz_to_rgb_deep_cv : cv XYZ RGB_DEEP xyz_to_rgb_deep.
Proof. eapply conv_weaken; [exact xyz_to_rgb_deep_conv|reflexivity || discriminate|reflexivity || discriminate]. Qed.
Lemma xyz_to_xyy_cv : cv XYZ XYY xyz_to_xyy.
Proof. eapply conv_weaken; [exact xyz_to_xyy_conv|reflexivity || discriminate|reflexivity || discriminate]. Qed.

(** ** Composed conversions *)

Lemma rgb_true_to_cmyk_cv : cv RGB_TRUE CMYK rgb_true_to_cmyk.
Proof. exact (cv_compose _ _ _ _ _ rgb_true_to_rgb_deep_cv rgb_deep_to_cmyk_cv eq_refl eq_refl eq_refl). Qed.
Lemma rgb_true_to_hsi_cv : cv RGB_TRUE HSI rgb_true_to_hsi.
Proof. exact (cv_compose _ _ _ _ _ rgb_true_to_rgb_deep_cv rgb_deep_to_hsi_cv eq_refl eq_refl eq_refl). Qed.
Lemma rgb_true_to_hsv_cv : cv RGB_TRUE HSV rgb_true_to_hsv.
Proof. exact (cv_compose _ _ _ _ _ rgb_true_to_rgb_deep_cv rgb_deep_to_hsv_cv eq_refl eq_refl eq_refl). Qed.
Lemma rgb_true_to_hsl_cv : cv RGB_TRUE HSL rgb_true_to_hsl.
Proof. exact (cv_compose _ _ _ _ _ rgb_true_to_rgb_deep_cv rgb_deep_to_hsl_cv eq_refl eq_refl eq_refl). Qed.
Lemma rgb_true_to_hcy_cv : cv RGB_TRUE HCY rgb_true_to_hcy.
Proof. exact (cv_compose _ _ _ _ _ rgb_true_to_rgb_deep_cv rgb_deep_to_hcy_cv eq_refl eq_refl eq_refl). Qed.
Lemma rgb_true_to_xyz_cv : cv RGB_TRUE XYZ rgb_true_to_xyz.
Proof. exact (cv_compose _ _ _ _ _ rgb_true_to_rgb_deep_cv rgb_deep_to_xyz_cv eq_refl eq_refl eq_refl). Qed.
Lemma rgb_true_to_xyy_cv : cv RGB_TRUE XYY rgb_true_to_xyy.
Proof. exact (cv_compose _ _ _ _ _ rgb_true_to_xyz_cv xyz_to_xyy_cv eq_refl eq_refl eq_refl). Qed.
Lemma rgb_true_to_cieluv_cv : cv RGB_TRUE CIELUV rgb_true_to_cieluv.
Proof. exact (cv_compose _ _ _ _ _ rgb_true_to_xyz_cv xyz_to_cieluv_cv eq_refl eq_refl eq_refl). Qed.
Lemma rgb_true_to_lch_uv_cv : cv RGB_TRUE LCH_UV rgb_true_to_lch_uv.
Proof. exact (cv_compose _ _ _ _ _ rgb_true_to_cieluv_cv cieluv_to_lch_uv_cv eq_refl eq_refl eq_refl). Qed.
Lemma rgb_deep_to_grey_true_cv : cv RGB_DEEP GREY_TRUE rgb_deep_to_grey_true.
Proof. exact (cv_compose _ _ _ _ _ rgb_deep_to_rgb_true_cv rgb_true_to_grey_true_cv eq_refl eq_refl eq_refl). Qed.
Lemma rgb_deep_to_xyy_cv : cv RGB_DEEP XYY rgb_deep_to_xyy.
Proof. exact (cv_compose _ _ _ _ _ rgb_deep_to_xyz_cv xyz_to_xyy_cv eq_refl eq_refl eq_refl). Qed.
Lemma rgb_deep_to_cieluv_cv : cv RGB_DEEP CIELUV rgb_deep_to_cieluv.
Proof. exact (cv_compose _ _ _ _ _ rgb_deep_to_xyz_cv xyz_to_cieluv_cv eq_refl eq_refl eq_refl). Qed.
Lemma rgb_deep_to_lab_cv : cv RGB_DEEP LAB rgb_deep_to_lab.
Proof. exact (cv_compose _ _ _ _ _ rgb_deep_to_xyz_cv xyz_to_lab_cv eq_refl eq_refl eq_refl). Qed.
Lemma rgb_deep_to_lch_ab_cv : cv RGB_DEEP LCH_AB rgb_deep_to_lch_ab.
Proof. exact (cv_compose _ _ _ _ _ rgb_deep_to_lab_cv lab_to_lch_ab_cv eq_refl eq_refl eq_refl). Qed.
Lemma rgb_deep_to_lch_uv_cv : cv RGB_DEEP LCH_UV rgb_deep_to_lch_uv.
Proof. exact (cv_compose _ _ _ _ _ rgb_deep_to_cieluv_cv cieluv_to_lch_uv_cv eq_refl eq_refl eq_refl). Qed.
Lemma grey_true_to_cmyk_cv : cv GREY_TRUE CMYK grey_true_to_cmyk.
Proof. exact (cv_compose _ _ _ _ _ grey_true_to_rgb_deep_cv rgb_deep_to_cmyk_cv eq_refl eq_refl eq_refl). Qed.
Lemma grey_true_to_hsi_cv : cv GREY_TRUE HSI grey_true_to_hsi.
Proof. exact (cv_compose _ _ _ _ _ grey_true_to_rgb_deep_cv rgb_deep_to_hsi_cv eq_refl eq_refl eq_refl). Qed.
Lemma grey_true_to_hsv_cv : cv GREY_TRUE HSV grey_true_to_hsv.
Proof. exact (cv_compose _ _ _ _ _ grey_true_to_rgb_deep_cv rgb_deep_to_hsv_cv eq_refl eq_refl eq_refl). Qed.
Lemma grey_true_to_hsl_cv : cv GREY_TRUE HSL grey_true_to_hsl.
Proof. exact (cv_compose _ _ _ _ _ grey_true_to_rgb_deep_cv rgb_deep_to_hsl_cv eq_refl eq_refl eq_refl). Qed.
Lemma grey_true_to_hcy_cv : cv GREY_TRUE HCY grey_true_to_hcy.
Proof. exact (cv_compose _ _ _ _ _ grey_true_to_rgb_deep_cv rgb_deep_to_hcy_cv eq_refl eq_refl eq_refl). Qed.
Lemma grey_true_to_xyz_cv : cv GREY_TRUE XYZ grey_true_to_xyz.
Proof. exact (cv_compose _ _ _ _ _ grey_true_to_rgb_deep_cv rgb_deep_to_xyz_cv eq_refl eq_refl eq_refl). Qed.
Lemma grey_true_to_xyy_cv : cv GREY_TRUE XYY grey_true_to_xyy.
Proof. exact (cv_compose _ _ _ _ _ grey_true_to_xyz_cv xyz_to_xyy_cv eq_refl eq_refl eq_refl). Qed.
Lemma grey_true_to_cieluv_cv : cv GREY_TRUE CIELUV grey_true_to_cieluv.
Proof. exact (cv_compose _ _ _ _ _ grey_true_to_xyz_cv xyz_to_cieluv_cv eq_refl eq_refl eq_refl). Qed.
Lemma grey_true_to_lab_cv : cv GREY_TRUE LAB grey_true_to_lab.
Proof. exact (cv_compose _ _ _ _ _ grey_true_to_rgb_deep_cv rgb_deep_to_lab_cv eq_refl eq_refl eq_refl). Qed.
Lemma grey_true_to_lch_ab_cv : cv GREY_TRUE LCH_AB grey_true_to_lch_ab.
Proof. exact (cv_compose _ _ _ _ _ grey_true_to_lab_cv lab_to_lch_ab_cv eq_refl eq_refl eq_refl). Qed.
Lemma grey_true_to_lch_uv_cv : cv GREY_TRUE LCH_UV grey_true_to_lch_uv.
Proof. exact (cv_compose _ _ _ _ _ grey_true_to_cieluv_cv cieluv_to_lch_uv_cv eq_refl eq_refl eq_refl). Qed.
Lemma grey_deep_to_cmyk_cv : cv GREY_DEEP CMYK grey_deep_to_cmyk.
Proof. exact (cv_compose _ _ _ _ _ grey_deep_to_rgb_deep_cv rgb_deep_to_cmyk_cv eq_refl eq_refl eq_refl). Qed.
Lemma grey_deep_to_hsi_cv : cv GREY_DEEP HSI grey_deep_to_hsi.
Proof. exact (cv_compose _ _ _ _ _ grey_deep_to_rgb_deep_cv rgb_deep_to_hsi_cv eq_refl eq_refl eq_refl). Qed.
Lemma grey_deep_to_hsv_cv : cv GREY_DEEP HSV grey_deep_to_hsv.
Proof. exact (cv_compose _ _ _ _ _ grey_deep_to_rgb_deep_cv rgb_deep_to_hsv_cv eq_refl eq_refl eq_refl). Qed.
Lemma grey_deep_to_hsl_cv : cv GREY_DEEP HSL grey_deep_to_hsl.
Proof. exact (cv_compose _ _ _ _ _ grey_deep_to_rgb_deep_cv rgb_deep_to_hsl_cv eq_refl eq_refl eq_refl). Qed.
Lemma grey_deep_to_hcy_cv : cv GREY_DEEP HCY grey_deep_to_hcy.
Proof. exact (cv_compose _ _ _ _ _ grey_deep_to_rgb_deep_cv rgb_deep_to_hcy_cv eq_refl eq_refl eq_refl). Qed.
Lemma grey_deep_to_xyz_cv : cv GREY_DEEP XYZ grey_deep_to_xyz.
Proof. exact (cv_compose _ _ _ _ _ grey_deep_to_rgb_deep_cv rgb_deep_to_xyz_cv eq_refl eq_refl eq_refl). Qed.
Lemma grey_deep_to_xyy_cv : cv GREY_DEEP XYY grey_deep_to_xyy.
Proof. exact (cv_compose _ _ _ _ _ grey_deep_to_xyz_cv xyz_to_xyy_cv eq_refl eq_refl eq_refl). Qed.
Lemma grey_deep_to_cieluv_cv : cv GREY_DEEP CIELUV grey_deep_to_cieluv.
Proof. exact (cv_compose _ _ _ _ _ grey_deep_to_xyz_cv xyz_to_cieluv_cv eq_refl eq_refl eq_refl). Qed.
Lemma grey_deep_to_lab_cv : cv GREY_DEEP LAB grey_deep_to_lab.
Proof. exact (cv_compose _ _ _ _ _ grey_deep_to_rgb_deep_cv rgb_deep_to_lab_cv eq_refl eq_refl eq_refl). Qed.
Lemma grey_deep_to_lch_ab_cv : cv GREY_DEEP LCH_AB grey_deep_to_lch_ab.
Proof. exact (cv_compose _ _ _ _ _ grey_deep_to_lab_cv lab_to_lch_ab_cv eq_refl eq_refl eq_refl). Qed.
Lemma grey_deep_to_lch_uv_cv : cv GREY_DEEP LCH_UV grey_deep_to_lch_uv.
Proof. exact (cv_compose _ _ _ _ _ grey_deep_to_cieluv_cv cieluv_to_lch_uv_cv eq_refl eq_refl eq_refl). Qed.
Lemma cmyk_to_rgb_true_cv : cv CMYK RGB_TRUE cmyk_to_rgb_true.
Proof. exact (cv_compose _ _ _ _ _ cmyk_to_rgb_deep_cv rgb_deep_to_rgb_true_cv eq_refl eq_refl eq_refl). Qed.
Lemma cmyk_to_grey_true_cv : cv CMYK GREY_TRUE cmyk_to_grey_true.
Proof. exact (cv_compose _ _ _ _ _ cmyk_to_rgb_deep_cv rgb_deep_to_grey_true_cv eq_refl eq_refl eq_refl). Qed.
Lemma cmyk_to_grey_deep_cv : cv CMYK GREY_DEEP cmyk_to_grey_deep.
Proof. exact (cv_compose _ _ _ _ _ cmyk_to_rgb_deep_cv rgb_deep_to_grey_deep_cv eq_refl eq_refl eq_refl). Qed.
Lemma cmyk_to_hsi_cv : cv CMYK HSI cmyk_to_hsi.
Proof. exact (cv_compose _ _ _ _ _ cmyk_to_rgb_deep_cv rgb_deep_to_hsi_cv eq_refl eq_refl eq_refl). Qed.
Lemma cmyk_to_hsv_cv : cv CMYK HSV cmyk_to_hsv.
Proof. exact (cv_compose _ _ _ _ _ cmyk_to_rgb_deep_cv rgb_deep_to_hsv_cv eq_refl eq_refl eq_refl). Qed.
Lemma cmyk_to_hsl_cv : cv CMYK HSL cmyk_to_hsl.
Proof. exact (cv_compose _ _ _ _ _ cmyk_to_rgb_deep_cv rgb_deep_to_hsl_cv eq_refl eq_refl eq_refl). Qed.
Lemma cmyk_to_hcy_cv : cv CMYK HCY cmyk_to_hcy.
Proof. exact (cv_compose _ _ _ _ _ cmyk_to_rgb_deep_cv rgb_deep_to_hcy_cv eq_refl eq_refl eq_refl). Qed.
Lemma cmyk_to_xyz_cv : cv CMYK XYZ cmyk_to_xyz.
Proof. exact (cv_compose _ _ _ _ _ cmyk_to_rgb_deep_cv rgb_deep_to_xyz_cv eq_refl eq_refl eq_refl). Qed.
Lemma cmyk_to_xyy_cv : cv CMYK XYY cmyk_to_xyy.
Proof. exact (cv_compose _ _ _ _ _ cmyk_to_xyz_cv xyz_to_xyy_cv eq_refl eq_refl eq_refl). Qed.
Lemma cmyk_to_cieluv_cv : cv CMYK CIELUV cmyk_to_cieluv.
Proof. exact (cv_compose _ _ _ _ _ cmyk_to_xyz_cv xyz_to_cieluv_cv eq_refl eq_refl eq_refl). Qed.
Lemma cmyk_to_lab_cv : cv CMYK LAB cmyk_to_lab.
Proof. exact (cv_compose _ _ _ _ _ cmyk_to_rgb_deep_cv rgb_deep_to_lab_cv eq_refl eq_refl eq_refl). Qed.
Lemma cmyk_to_lch_ab_cv : cv CMYK LCH_AB cmyk_to_lch_ab.
Proof. exact (cv_compose _ _ _ _ _ cmyk_to_lab_cv lab_to_lch_ab_cv eq_refl eq_refl eq_refl). Qed.
Lemma cmyk_to_lch_uv_cv : cv CMYK LCH_UV cmyk_to_lch_uv.
Proof. exact (cv_compose _ _ _ _ _ cmyk_to_cieluv_cv cieluv_to_lch_uv_cv eq_refl eq_refl eq_refl). Qed.
Lemma hsi_to_rgb_true_cv : cv HSI RGB_TRUE hsi_to_rgb_true.
Proof. exact (cv_compose _ _ _ _ _ hsi_to_rgb_deep_cv rgb_deep_to_rgb_true_cv eq_refl eq_refl eq_refl). Qed.
Lemma hsi_to_grey_true_cv : cv HSI GREY_TRUE hsi_to_grey_true.
Proof. exact (cv_compose _ _ _ _ _ hsi_to_rgb_deep_cv rgb_deep_to_grey_true_cv eq_refl eq_refl eq_refl). Qed.
Lemma hsi_to_grey_deep_cv : cv HSI GREY_DEEP hsi_to_grey_deep.
Proof. exact (cv_compose _ _ _ _ _ hsi_to_rgb_deep_cv rgb_deep_to_grey_deep_cv eq_refl eq_refl eq_refl). Qed.
Lemma hsi_to_cmyk_cv : cv HSI CMYK hsi_to_cmyk.
Proof. exact (cv_compose _ _ _ _ _ hsi_to_rgb_deep_cv rgb_deep_to_cmyk_cv eq_refl eq_refl eq_refl). Qed.
Lemma hsi_to_hsv_cv : cv HSI HSV hsi_to_hsv.
Proof. exact (cv_compose _ _ _ _ _ hsi_to_rgb_deep_cv rgb_deep_to_hsv_cv eq_refl eq_refl eq_refl). Qed.
Lemma hsi_to_hsl_cv : cv HSI HSL hsi_to_hsl.
Proof. exact (cv_compose _ _ _ _ _ hsi_to_rgb_deep_cv rgb_deep_to_hsl_cv eq_refl eq_refl eq_refl). Qed.
Lemma hsi_to_hcy_cv : cv HSI HCY hsi_to_hcy.
Proof. exact (cv_compose _ _ _ _ _ hsi_to_rgb_deep_cv rgb_deep_to_hcy_cv eq_refl eq_refl eq_refl). Qed.
Lemma hsi_to_xyz_cv : cv HSI XYZ hsi_to_xyz.
Proof. exact (cv_compose _ _ _ _ _ hsi_to_rgb_deep_cv rgb_deep_to_xyz_cv eq_refl eq_refl eq_refl). Qed.
Lemma hsi_to_xyy_cv : cv HSI XYY hsi_to_xyy.
Proof. exact (cv_compose _ _ _ _ _ hsi_to_rgb_deep_cv rgb_deep_to_xyy_cv eq_refl eq_refl eq_refl). Qed.
Lemma hsi_to_cieluv_cv : cv HSI CIELUV hsi_to_cieluv.
Proof. exact (cv_compose _ _ _ _ _ hsi_to_rgb_deep_cv rgb_deep_to_cieluv_cv eq_refl eq_refl eq_refl). Qed.
Lemma hsi_to_lab_cv : cv HSI LAB hsi_to_lab.
Proof. exact (cv_compose _ _ _ _ _ hsi_to_rgb_deep_cv rgb_deep_to_lab_cv eq_refl eq_refl eq_refl). Qed.
Lemma hsi_to_lch_ab_cv : cv HSI LCH_AB hsi_to_lch_ab.
Proof. exact (cv_compose _ _ _ _ _ hsi_to_rgb_deep_cv rgb_deep_to_lch_ab_cv eq_refl eq_refl eq_refl). Qed.
Lemma hsi_to_lch_uv_cv : cv HSI LCH_UV hsi_to_lch_uv.
Proof. exact (cv_compose _ _ _ _ _ hsi_to_rgb_deep_cv rgb_deep_to_lch_uv_cv eq_refl eq_refl eq_refl). Qed.
Lemma hsv_to_rgb_true_cv : cv HSV RGB_TRUE hsv_to_rgb_true.
Proof. exact (cv_compose _ _ _ _ _ hsv_to_rgb_deep_cv rgb_deep_to_rgb_true_cv eq_refl eq_refl eq_refl). Qed.
Lemma hsv_to_grey_true_cv : cv HSV GREY_TRUE hsv_to_grey_true.
Proof. exact (cv_compose _ _ _ _ _ hsv_to_rgb_deep_cv rgb_deep_to_grey_true_cv eq_refl eq_refl eq_refl). Qed.
Lemma hsv_to_grey_deep_cv : cv HSV GREY_DEEP hsv_to_grey_deep.
Proof. exact (cv_compose _ _ _ _ _ hsv_to_rgb_deep_cv rgb_deep_to_grey_deep_cv eq_refl eq_refl eq_refl). Qed.
Lemma hsv_to_cmyk_cv : cv HSV CMYK hsv_to_cmyk.
Proof. exact (cv_compose _ _ _ _ _ hsv_to_rgb_deep_cv rgb_deep_to_cmyk_cv eq_refl eq_refl eq_refl). Qed.
Lemma hsv_to_hsi_cv : cv HSV HSI hsv_to_hsi.
Proof. exact (cv_compose _ _ _ _ _ hsv_to_rgb_deep_cv rgb_deep_to_hsi_cv eq_refl eq_refl eq_refl). Qed.
Lemma hsv_to_hcy_cv : cv HSV HCY hsv_to_hcy.
Proof. exact (cv_compose _ _ _ _ _ hsv_to_rgb_deep_cv rgb_deep_to_hcy_cv eq_refl eq_refl eq_refl). Qed.
Lemma hsv_to_xyz_cv : cv HSV XYZ hsv_to_xyz.
Proof. exact (cv_compose _ _ _ _ _ hsv_to_rgb_deep_cv rgb_deep_to_xyz_cv eq_refl eq_refl eq_refl). Qed.
Lemma hsv_to_xyy_cv : cv HSV XYY hsv_to_xyy.
Proof. exact (cv_compose _ _ _ _ _ hsv_to_xyz_cv xyz_to_xyy_cv eq_refl eq_refl eq_refl). Qed.
Lemma hsv_to_cieluv_cv : cv HSV CIELUV hsv_to_cieluv.
Proof. exact (cv_compose _ _ _ _ _ hsv_to_xyz_cv xyz_to_cieluv_cv eq_refl eq_refl eq_refl). Qed.
Lemma hsv_to_lab_cv : cv HSV LAB hsv_to_lab.
Proof. exact (cv_compose _ _ _ _ _ hsv_to_rgb_deep_cv rgb_deep_to_lab_cv eq_refl eq_refl eq_refl). Qed.
Lemma hsv_to_lch_ab_cv : cv HSV LCH_AB hsv_to_lch_ab.
Proof. exact (cv_compose _ _ _ _ _ hsv_to_lab_cv lab_to_lch_ab_cv eq_refl eq_refl eq_refl). Qed.
Lemma hsv_to_lch_uv_cv : cv HSV LCH_UV hsv_to_lch_uv.
Proof. exact (cv_compose _ _ _ _ _ hsv_to_cieluv_cv cieluv_to_lch_uv_cv eq_refl eq_refl eq_refl). Qed.
Lemma hsl_to_rgb_true_cv : cv HSL RGB_TRUE hsl_to_rgb_true.
Proof. exact (cv_compose _ _ _ _ _ hsl_to_rgb_deep_cv rgb_deep_to_rgb_true_cv eq_refl eq_refl eq_refl). Qed.
Lemma hsl_to_grey_true_cv : cv HSL GREY_TRUE hsl_to_grey_true.
Proof. exact (cv_compose _ _ _ _ _ hsl_to_rgb_deep_cv rgb_deep_to_grey_true_cv eq_refl eq_refl eq_refl). Qed.
Lemma hsl_to_grey_deep_cv : cv HSL GREY_DEEP hsl_to_grey_deep.
Proof. exact (cv_compose _ _ _ _ _ hsl_to_rgb_deep_cv rgb_deep_to_grey_deep_cv eq_refl eq_refl eq_refl). Qed.
Lemma hsl_to_cmyk_cv : cv HSL CMYK hsl_to_cmyk.
Proof. exact (cv_compose _ _ _ _ _ hsl_to_rgb_deep_cv rgb_deep_to_cmyk_cv eq_refl eq_refl eq_refl). Qed.
Lemma hsl_to_hsi_cv : cv HSL HSI hsl_to_hsi.
Proof. exact (cv_compose _ _ _ _ _ hsl_to_rgb_deep_cv rgb_deep_to_hsi_cv eq_refl eq_refl eq_refl). Qed.
Lemma hsl_to_hcy_cv : cv HSL HCY hsl_to_hcy.
Proof. exact (cv_compose _ _ _ _ _ hsl_to_rgb_deep_cv rgb_deep_to_hcy_cv eq_refl eq_refl eq_refl). Qed.
Lemma hsl_to_xyz_cv : cv HSL XYZ hsl_to_xyz.
Proof. exact (cv_compose _ _ _ _ _ hsl_to_rgb_deep_cv rgb_deep_to_xyz_cv eq_refl eq_refl eq_refl). Qed.
Lemma hsl_to_xyy_cv : cv HSL XYY hsl_to_xyy.
Proof. exact (cv_compose _ _ _ _ _ hsl_to_xyz_cv xyz_to_xyy_cv eq_refl eq_refl eq_refl). Qed.
Lemma hsl_to_cieluv_cv : cv HSL CIELUV hsl_to_cieluv.
Proof. exact (cv_compose _ _ _ _ _ hsl_to_xyz_cv xyz_to_cieluv_cv eq_refl eq_refl eq_refl). Qed.
Lemma hsl_to_lab_cv : cv HSL LAB hsl_to_lab.
Proof. exact (cv_compose _ _ _ _ _ hsl_to_rgb_deep_cv rgb_deep_to_lab_cv eq_refl eq_refl eq_refl). Qed.
Lemma hsl_to_lch_ab_cv : cv HSL LCH_AB hsl_to_lch_ab.
Proof. exact (cv_compose _ _ _ _ _ hsl_to_lab_cv lab_to_lch_ab_cv eq_refl eq_refl eq_refl). Qed.
Lemma hsl_to_lch_uv_cv : cv HSL LCH_UV hsl_to_lch_uv.
Proof. exact (cv_compose _ _ _ _ _ hsl_to_cieluv_cv cieluv_to_lch_uv_cv eq_refl eq_refl eq_refl). Qed.
Lemma hcy_to_rgb_true_cv : cv HCY RGB_TRUE hcy_to_rgb_true.
Proof. exact (cv_compose _ _ _ _ _ hcy_to_rgb_deep_cv rgb_deep_to_rgb_true_cv eq_refl eq_refl eq_refl). Qed.
Lemma hcy_to_grey_true_cv : cv HCY GREY_TRUE hcy_to_grey_true.
Proof. exact (cv_compose _ _ _ _ _ hcy_to_rgb_deep_cv rgb_deep_to_grey_true_cv eq_refl eq_refl eq_refl). Qed.
Lemma hcy_to_grey_deep_cv : cv HCY GREY_DEEP hcy_to_grey_deep.
Proof. exact (cv_compose _ _ _ _ _ hcy_to_rgb_deep_cv rgb_deep_to_grey_deep_cv eq_refl eq_refl eq_refl). Qed.
Lemma hcy_to_cmyk_cv : cv HCY CMYK hcy_to_cmyk.
Proof. exact (cv_compose _ _ _ _ _ hcy_to_rgb_deep_cv rgb_deep_to_cmyk_cv eq_refl eq_refl eq_refl). Qed.
Lemma hcy_to_hsi_cv : cv HCY HSI hcy_to_hsi.
Proof. exact (cv_compose _ _ _ _ _ hcy_to_rgb_deep_cv rgb_deep_to_hsi_cv eq_refl eq_refl eq_refl). Qed.
Lemma hcy_to_hsv_cv : cv HCY HSV hcy_to_hsv.
Proof. exact (cv_compose _ _ _ _ _ hcy_to_rgb_deep_cv rgb_deep_to_hsv_cv eq_refl eq_refl eq_refl). Qed.
Lemma hcy_to_hsl_cv : cv HCY HSL hcy_to_hsl.
Proof. exact (cv_compose _ _ _ _ _ hcy_to_rgb_deep_cv rgb_deep_to_hsl_cv eq_refl eq_refl eq_refl). Qed.
Lemma hcy_to_xyz_cv : cv HCY XYZ hcy_to_xyz.
Proof. exact (cv_compose _ _ _ _ _ hcy_to_rgb_deep_cv rgb_deep_to_xyz_cv eq_refl eq_refl eq_refl). Qed.
Lemma hcy_to_xyy_cv : cv HCY XYY hcy_to_xyy.
Proof. exact (cv_compose _ _ _ _ _ hcy_to_rgb_deep_cv rgb_deep_to_xyy_cv eq_refl eq_refl eq_refl). Qed.
Lemma hcy_to_cieluv_cv : cv HCY CIELUV hcy_to_cieluv.
Proof. exact (cv_compose _ _ _ _ _ hcy_to_rgb_deep_cv rgb_deep_to_cieluv_cv eq_refl eq_refl eq_refl). Qed.
Lemma hcy_to_lab_cv : cv HCY LAB hcy_to_lab.
Proof. exact (cv_compose _ _ _ _ _ hcy_to_rgb_deep_cv rgb_deep_to_lab_cv eq_refl eq_refl eq_refl). Qed.
Lemma hcy_to_lch_ab_cv : cv HCY LCH_AB hcy_to_lch_ab.
Proof. exact (cv_compose _ _ _ _ _ hcy_to_rgb_deep_cv rgb_deep_to_lch_ab_cv eq_refl eq_refl eq_refl). Qed.
Lemma hcy_to_lch_uv_cv : cv HCY LCH_UV hcy_to_lch_uv.
Proof. exact (cv_compose _ _ _ _ _ hcy_to_rgb_deep_cv rgb_deep_to_lch_uv_cv eq_refl eq_refl eq_refl). Qed.
Lemma xyz_to_rgb_true_cv : cv XYZ RGB_TRUE xyz_to_rgb_true.
Proof. exact (cv_compose _ _ _ _ _ xyz_to_rgb_deep_cv rgb_deep_to_rgb_true_cv eq_refl eq_refl eq_refl). Qed.
Lemma xyz_to_grey_true_cv : cv XYZ GREY_TRUE xyz_to_grey_true.
Proof. exact (cv_compose _ _ _ _ _ xyz_to_rgb_deep_cv rgb_deep_to_grey_true_cv eq_refl eq_refl eq_refl). Qed.
Lemma xyz_to_grey_deep_cv : cv XYZ GREY_DEEP xyz_to_grey_deep.
Proof. exact (cv_compose _ _ _ _ _ xyz_to_rgb_deep_cv rgb_deep_to_grey_deep_cv eq_refl eq_refl eq_refl). Qed.
Lemma xyz_to_cmyk_cv : cv XYZ CMYK xyz_to_cmyk.
Proof. exact (cv_compose _ _ _ _ _ xyz_to_rgb_deep_cv rgb_deep_to_cmyk_cv eq_refl eq_refl eq_refl). Qed.
Lemma xyz_to_hsi_cv : cv XYZ HSI xyz_to_hsi.
Proof. exact (cv_compose _ _ _ _ _ xyz_to_rgb_deep_cv rgb_deep_to_hsi_cv eq_refl eq_refl eq_refl). Qed.
Lemma xyz_to_hsv_cv : cv XYZ HSV xyz_to_hsv.
Proof. exact (cv_compose _ _ _ _ _ xyz_to_rgb_deep_cv rgb_deep_to_hsv_cv eq_refl eq_refl eq_refl). Qed.
Lemma xyz_to_hsl_cv : cv XYZ HSL xyz_to_hsl.
Proof. exact (cv_compose _ _ _ _ _ xyz_to_rgb_deep_cv rgb_deep_to_hsl_cv eq_refl eq_refl eq_refl). Qed.
Lemma xyz_to_hcy_cv : cv XYZ HCY xyz_to_hcy.
Proof. exact (cv_compose _ _ _ _ _ xyz_to_rgb_deep_cv rgb_deep_to_hcy_cv eq_refl eq_refl eq_refl). Qed.
Lemma xyz_to_lch_ab_cv : cv XYZ LCH_AB xyz_to_lch_ab.
Proof. exact (cv_compose _ _ _ _ _ xyz_to_lab_cv lab_to_lch_ab_cv eq_refl eq_refl eq_refl). Qed.
Lemma xyz_to_lch_uv_cv : cv XYZ LCH_UV xyz_to_lch_uv.
Proof. exact (cv_compose _ _ _ _ _ xyz_to_cieluv_cv cieluv_to_lch_uv_cv eq_refl eq_refl eq_refl). Qed.
Lemma xyy_to_rgb_true_cv : cv XYY RGB_TRUE xyy_to_rgb_true.
Proof. exact (cv_compose _ _ _ _ _ xyy_to_xyz_cv xyz_to_rgb_true_cv eq_refl eq_refl eq_refl). Qed.
Lemma xyy_to_rgb_deep_cv : cv XYY RGB_DEEP xyy_to_rgb_deep.
Proof. exact (cv_compose _ _ _ _ _ xyy_to_xyz_cv xyz_to_rgb_deep_cv eq_refl eq_refl eq_refl). Qed.
Lemma xyy_to_grey_true_cv : cv XYY GREY_TRUE xyy_to_grey_true.
Proof. exact (cv_compose _ _ _ _ _ xyy_to_xyz_cv xyz_to_grey_true_cv eq_refl eq_refl eq_refl). Qed.
Lemma xyy_to_grey_deep_cv : cv XYY GREY_DEEP xyy_to_grey_deep.
Proof. exact (cv_compose _ _ _ _ _ xyy_to_xyz_cv xyz_to_grey_deep_cv eq_refl eq_refl eq_refl). Qed.
Lemma xyy_to_cmyk_cv : cv XYY CMYK xyy_to_cmyk.
Proof. exact (cv_compose _ _ _ _ _ xyy_to_xyz_cv xyz_to_cmyk_cv eq_refl eq_refl eq_refl). Qed.
Lemma xyy_to_hsi_cv : cv XYY HSI xyy_to_hsi.
Proof. exact (cv_compose _ _ _ _ _ xyy_to_xyz_cv xyz_to_hsi_cv eq_refl eq_refl eq_refl). Qed.
Lemma xyy_to_hsv_cv : cv XYY HSV xyy_to_hsv.
Proof. exact (cv_compose _ _ _ _ _ xyy_to_xyz_cv xyz_to_hsv_cv eq_refl eq_refl eq_refl). Qed.
Lemma xyy_to_hsl_cv : cv XYY HSL xyy_to_hsl.
Proof. exact (cv_compose _ _ _ _ _ xyy_to_xyz_cv xyz_to_hsl_cv eq_refl eq_refl eq_refl). Qed.
Lemma xyy_to_hcy_cv : cv XYY HCY xyy_to_hcy.
Proof. exact (cv_compose _ _ _ _ _ xyy_to_xyz_cv xyz_to_hcy_cv eq_refl eq_refl eq_refl). Qed.
Lemma xyy_to_cieluv_cv : cv XYY CIELUV xyy_to_cieluv.
Proof. exact (cv_compose _ _ _ _ _ xyy_to_xyz_cv xyz_to_cieluv_cv eq_refl eq_refl eq_refl). Qed.
Lemma xyy_to_lab_cv : cv XYY LAB xyy_to_lab.
Proof. exact (cv_compose _ _ _ _ _ xyy_to_xyz_cv xyz_to_lab_cv eq_refl eq_refl eq_refl). Qed.
Lemma xyy_to_lch_ab_cv : cv XYY LCH_AB xyy_to_lch_ab.
Proof. exact (cv_compose _ _ _ _ _ xyy_to_lab_cv lab_to_lch_ab_cv eq_refl eq_refl eq_refl). Qed.
Lemma xyy_to_lch_uv_cv : cv XYY LCH_UV xyy_to_lch_uv.
Proof. exact (cv_compose _ _ _ _ _ xyy_to_cieluv_cv cieluv_to_lch_uv_cv eq_refl eq_refl eq_refl). Qed.
Lemma cieluv_to_rgb_true_cv : cv CIELUV RGB_TRUE cieluv_to_rgb_true.
Proof. exact (cv_compose _ _ _ _ _ cieluv_to_xyz_cv xyz_to_rgb_true_cv eq_refl eq_refl eq_refl). Qed.
Lemma cieluv_to_rgb_deep_cv : cv CIELUV RGB_DEEP cieluv_to_rgb_deep.
Proof. exact (cv_compose _ _ _ _ _ cieluv_to_xyz_cv xyz_to_rgb_deep_cv eq_refl eq_refl eq_refl). Qed.
Lemma cieluv_to_grey_true_cv : cv CIELUV GREY_TRUE cieluv_to_grey_true.
Proof. exact (cv_compose _ _ _ _ _ cieluv_to_xyz_cv xyz_to_grey_true_cv eq_refl eq_refl eq_refl). Qed.
Lemma cieluv_to_grey_deep_cv : cv CIELUV GREY_DEEP cieluv_to_grey_deep.
Proof. exact (cv_compose _ _ _ _ _ cieluv_to_xyz_cv xyz_to_grey_deep_cv eq_refl eq_refl eq_refl). Qed.
Lemma cieluv_to_cmyk_cv : cv CIELUV CMYK cieluv_to_cmyk.
Proof. exact (cv_compose _ _ _ _ _ cieluv_to_xyz_cv xyz_to_cmyk_cv eq_refl eq_refl eq_refl). Qed.
Lemma cieluv_to_hsi_cv : cv CIELUV HSI cieluv_to_hsi.
Proof. exact (cv_compose _ _ _ _ _ cieluv_to_xyz_cv xyz_to_hsi_cv eq_refl eq_refl eq_refl). Qed.
Lemma cieluv_to_hsv_cv : cv CIELUV HSV cieluv_to_hsv.
Proof. exact (cv_compose _ _ _ _ _ cieluv_to_xyz_cv xyz_to_hsv_cv eq_refl eq_refl eq_refl). Qed.
Lemma cieluv_to_hsl_cv : cv CIELUV HSL cieluv_to_hsl.
Proof. exact (cv_compose _ _ _ _ _ cieluv_to_xyz_cv xyz_to_hsl_cv eq_refl eq_refl eq_refl). Qed.
Lemma cieluv_to_hcy_cv : cv CIELUV HCY cieluv_to_hcy.
Proof. exact (cv_compose _ _ _ _ _ cieluv_to_xyz_cv xyz_to_hcy_cv eq_refl eq_refl eq_refl). Qed.
Lemma cieluv_to_xyy_cv : cv CIELUV XYY cieluv_to_xyy.
Proof. exact (cv_compose _ _ _ _ _ cieluv_to_xyz_cv xyz_to_xyy_cv eq_refl eq_refl eq_refl). Qed.
Lemma cieluv_to_lab_cv : cv CIELUV LAB cieluv_to_lab.
Proof. exact (cv_compose _ _ _ _ _ cieluv_to_xyz_cv xyz_to_lab_cv eq_refl eq_refl eq_refl). Qed.
Lemma cieluv_to_lch_ab_cv : cv CIELUV LCH_AB cieluv_to_lch_ab.
Proof. exact (cv_compose _ _ _ _ _ cieluv_to_lab_cv lab_to_lch_ab_cv eq_refl eq_refl eq_refl). Qed.
Lemma lab_to_rgb_true_cv : cv LAB RGB_TRUE lab_to_rgb_true.
Proof. exact (cv_compose _ _ _ _ _ lab_to_xyz_cv xyz_to_rgb_true_cv eq_refl eq_refl eq_refl). Qed.
Lemma lab_to_rgb_deep_cv : cv LAB RGB_DEEP lab_to_rgb_deep.
Proof. exact (cv_compose _ _ _ _ _ lab_to_xyz_cv xyz_to_rgb_deep_cv eq_refl eq_refl eq_refl). Qed.
Lemma lab_to_grey_true_cv : cv LAB GREY_TRUE lab_to_grey_true.
Proof. exact (cv_compose _ _ _ _ _ lab_to_xyz_cv xyz_to_grey_true_cv eq_refl eq_refl eq_refl). Qed.
Lemma lab_to_grey_deep_cv : cv LAB GREY_DEEP lab_to_grey_deep.
Proof. exact (cv_compose _ _ _ _ _ lab_to_xyz_cv xyz_to_grey_deep_cv eq_refl eq_refl eq_refl). Qed.
Lemma lab_to_cmyk_cv : cv LAB CMYK lab_to_cmyk.
Proof. exact (cv_compose _ _ _ _ _ lab_to_xyz_cv xyz_to_cmyk_cv eq_refl eq_refl eq_refl). Qed.
Lemma lab_to_hsi_cv : cv LAB HSI lab_to_hsi.
Proof. exact (cv_compose _ _ _ _ _ lab_to_xyz_cv xyz_to_hsi_cv eq_refl eq_refl eq_refl). Qed.
Lemma lab_to_hsv_cv : cv LAB HSV lab_to_hsv.
Proof. exact (cv_compose _ _ _ _ _ lab_to_xyz_cv xyz_to_hsv_cv eq_refl eq_refl eq_refl). Qed.
Lemma lab_to_hsl_cv : cv LAB HSL lab_to_hsl.
Proof. exact (cv_compose _ _ _ _ _ lab_to_xyz_cv xyz_to_hsl_cv eq_refl eq_refl eq_refl). Qed.
Lemma lab_to_hcy_cv : cv LAB HCY lab_to_hcy.
Proof. exact (cv_compose _ _ _ _ _ lab_to_xyz_cv xyz_to_hcy_cv eq_refl eq_refl eq_refl). Qed.
Lemma lab_to_cieluv_cv : cv LAB CIELUV lab_to_cieluv.
Proof. exact (cv_compose _ _ _ _ _ lab_to_xyz_cv xyz_to_cieluv_cv eq_refl eq_refl eq_refl). Qed.
Lemma lab_to_xyy_cv : cv LAB XYY lab_to_xyy.
Proof. exact (cv_compose _ _ _ _ _ lab_to_xyz_cv xyz_to_xyy_cv eq_refl eq_refl eq_refl). Qed.
Lemma lab_to_lch_uv_cv : cv LAB LCH_UV lab_to_lch_uv.
Proof. exact (cv_compose _ _ _ _ _ lab_to_cieluv_cv cieluv_to_lch_uv_cv eq_refl eq_refl eq_refl). Qed.
Lemma lch_ab_to_rgb_true_cv : cv LCH_AB RGB_TRUE lch_ab_to_rgb_true.
Proof. exact (cv_compose _ _ _ _ _ lch_ab_to_lab_cv lab_to_rgb_true_cv eq_refl eq_refl eq_refl). Qed.
Lemma lch_ab_to_rgb_deep_cv : cv LCH_AB RGB_DEEP lch_ab_to_rgb_deep.
Proof. exact (cv_compose _ _ _ _ _ lch_ab_to_lab_cv lab_to_rgb_deep_cv eq_refl eq_refl eq_refl). Qed.
Lemma lch_ab_to_grey_true_cv : cv LCH_AB GREY_TRUE lch_ab_to_grey_true.
Proof. exact (cv_compose _ _ _ _ _ lch_ab_to_lab_cv lab_to_grey_true_cv eq_refl eq_refl eq_refl). Qed.
Lemma lch_ab_to_grey_deep_cv : cv LCH_AB GREY_DEEP lch_ab_to_grey_deep.
Proof. exact (cv_compose _ _ _ _ _ lch_ab_to_lab_cv lab_to_grey_deep_cv eq_refl eq_refl eq_refl). Qed.
Lemma lch_ab_to_cmyk_cv : cv LCH_AB CMYK lch_ab_to_cmyk.
Proof. exact (cv_compose _ _ _ _ _ lch_ab_to_lab_cv lab_to_cmyk_cv eq_refl eq_refl eq_refl). Qed.
Lemma lch_ab_to_hsi_cv : cv LCH_AB HSI lch_ab_to_hsi.
Proof. exact (cv_compose _ _ _ _ _ lch_ab_to_lab_cv lab_to_hsi_cv eq_refl eq_refl eq_refl). Qed.
Lemma lch_ab_to_hsv_cv : cv LCH_AB HSV lch_ab_to_hsv.
Proof. exact (cv_compose _ _ _ _ _ lch_ab_to_lab_cv lab_to_hsv_cv eq_refl eq_refl eq_refl). Qed.
Lemma lch_ab_to_hsl_cv : cv LCH_AB HSL lch_ab_to_hsl.
Proof. exact (cv_compose _ _ _ _ _ lch_ab_to_lab_cv lab_to_hsl_cv eq_refl eq_refl eq_refl). Qed.
Lemma lch_ab_to_hcy_cv : cv LCH_AB HCY lch_ab_to_hcy.
Proof. exact (cv_compose _ _ _ _ _ lch_ab_to_lab_cv lab_to_hcy_cv eq_refl eq_refl eq_refl). Qed.
Lemma lch_ab_to_xyz_cv : cv LCH_AB XYZ lch_ab_to_xyz.
Proof. exact (cv_compose _ _ _ _ _ lch_ab_to_lab_cv lab_to_xyz_cv eq_refl eq_refl eq_refl). Qed.
Lemma lch_ab_to_xyy_cv : cv LCH_AB XYY lch_ab_to_xyy.
Proof. exact (cv_compose _ _ _ _ _ lch_ab_to_lab_cv lab_to_xyy_cv eq_refl eq_refl eq_refl). Qed.
Lemma lch_ab_to_cieluv_cv : cv LCH_AB CIELUV lch_ab_to_cieluv.
Proof. exact (cv_compose _ _ _ _ _ lch_ab_to_lab_cv lab_to_cieluv_cv eq_refl eq_refl eq_refl). Qed.
Lemma lch_ab_to_lch_uv_cv : cv LCH_AB LCH_UV lch_ab_to_lch_uv.
Proof. exact (cv_compose _ _ _ _ _ lch_ab_to_cieluv_cv cieluv_to_lch_uv_cv eq_refl eq_refl eq_refl). Qed.
Lemma lch_uv_to_rgb_true_cv : cv LCH_UV RGB_TRUE lch_uv_to_rgb_true.
Proof. exact (cv_compose _ _ _ _ _ lch_uv_to_cieluv_cv cieluv_to_rgb_true_cv eq_refl eq_refl eq_refl). Qed.
Lemma lch_uv_to_rgb_deep_cv : cv LCH_UV RGB_DEEP lch_uv_to_rgb_deep.
Proof. exact (cv_compose _ _ _ _ _ lch_uv_to_cieluv_cv cieluv_to_rgb_deep_cv eq_refl eq_refl eq_refl). Qed.
Lemma lch_uv_to_grey_true_cv : cv LCH_UV GREY_TRUE lch_uv_to_grey_true.
Proof. exact (cv_compose _ _ _ _ _ lch_uv_to_cieluv_cv cieluv_to_grey_true_cv eq_refl eq_refl eq_refl). Qed.
Lemma lch_uv_to_grey_deep_cv : cv LCH_UV GREY_DEEP lch_uv_to_grey_deep.
Proof. exact (cv_compose _ _ _ _ _ lch_uv_to_cieluv_cv cieluv_to_grey_deep_cv eq_refl eq_refl eq_refl). Qed.
Lemma lch_uv_to_cmyk_cv : cv LCH_UV CMYK lch_uv_to_cmyk.
Proof. exact (cv_compose _ _ _ _ _ lch_uv_to_cieluv_cv cieluv_to_cmyk_cv eq_refl eq_refl eq_refl). Qed.
Lemma lch_uv_to_hsi_cv : cv LCH_UV HSI lch_uv_to_hsi.
Proof. exact (cv_compose _ _ _ _ _ lch_uv_to_cieluv_cv cieluv_to_hsi_cv eq_refl eq_refl eq_refl). Qed.
Lemma lch_uv_to_hsv_cv : cv LCH_UV HSV lch_uv_to_hsv.
Proof. exact (cv_compose _ _ _ _ _ lch_uv_to_cieluv_cv cieluv_to_hsv_cv eq_refl eq_refl eq_refl). Qed.
Lemma lch_uv_to_hsl_cv : cv LCH_UV HSL lch_uv_to_hsl.
Proof. exact (cv_compose _ _ _ _ _ lch_uv_to_cieluv_cv cieluv_to_hsl_cv eq_refl eq_refl eq_refl). Qed.
Lemma lch_uv_to_hcy_cv : cv LCH_UV HCY lch_uv_to_hcy.
Proof. exact (cv_compose _ _ _ _ _ lch_uv_to_cieluv_cv cieluv_to_hcy_cv eq_refl eq_refl eq_refl). Qed.
Lemma lch_uv_to_xyz_cv : cv LCH_UV XYZ lch_uv_to_xyz.
Proof. exact (cv_compose _ _ _ _ _ lch_uv_to_cieluv_cv cieluv_to_xyz_cv eq_refl eq_refl eq_refl). Qed.
Lemma lch_uv_to_xyy_cv : cv LCH_UV XYY lch_uv_to_xyy.
Proof. exact (cv_compose _ _ _ _ _ lch_uv_to_cieluv_cv cieluv_to_xyy_cv eq_refl eq_refl eq_refl). Qed.
Lemma lch_uv_to_lab_cv : cv LCH_UV LAB lch_uv_to_lab.
Proof. exact (cv_compose _ _ _ _ _ lch_uv_to_cieluv_cv cieluv_to_lab_cv eq_refl eq_refl eq_refl). Qed.
Lemma lch_uv_to_lch_ab_cv : cv LCH_UV LCH_AB lch_uv_to_lch_ab.
Proof. exact (cv_compose _ _ _ _ _ lch_uv_to_cieluv_cv cieluv_to_lch_ab_cv eq_refl eq_refl eq_refl). Qed.
Lemma rgb_true_to_lab_cv : cv RGB_TRUE LAB rgb_true_to_lab.
Proof. exact (cv_compose _ _ _ _ _ rgb_true_to_rgb_deep_cv rgb_deep_to_lab_cv eq_refl eq_refl eq_refl). Qed.
Lemma rgb_true_to_lch_ab_cv : cv RGB_TRUE LCH_AB rgb_true_to_lch_ab.
Proof. exact (cv_compose _ _ _ _ _ rgb_true_to_lab_cv lab_to_lch_ab_cv eq_refl eq_refl eq_refl). Qed.

(** ** Dispatchers *)

Lemma dispatch (f : ctype -> ptr -> M ptr) (g : ptr -> M ptr) X Y :
  (forall p, g p = bind (load p) (fun c => f (ty c) p)) -> cv X Y (f X) -> cv X Y g.
Proof.
  intros E C h p c Hp W N. destruct (C h p c Hp W N) as [q [r [h' [c' [R H]]]]].
  exists q, r, h', c'. split; [|exact H]. rewrite E. unfold bind, load. rewrite Hp.
  rewrite (wf_ty _ _ W). exact R.
Qed.

Lemma to_rgb_true_cv X : X <> UNDEFINED -> X <> RGB_TRUE -> cv X RGB_TRUE to_rgb_true.
Proof.
  intros U N. refine (dispatch (fun t p => match t with
    | RGB_TRUE => cast RGB_TRUE p
    | RGB_DEEP => rgb_deep_to_rgb_true p
    | GREY_TRUE => grey_true_to_rgb_true p
    | GREY_DEEP => grey_deep_to_rgb_true p
    | CMYK => cmyk_to_rgb_true p
    | HSI => hsi_to_rgb_true p
    | HSV => hsv_to_rgb_true p
    | HSL => hsl_to_rgb_true p
    | HCY => hcy_to_rgb_true p
    | XYZ => xyz_to_rgb_true p
    | XYY => xyy_to_rgb_true p
    | CIELUV => cieluv_to_rgb_true p
    | LAB => lab_to_rgb_true p
    | LCH_AB => lch_ab_to_rgb_true p
    | LCH_UV => lch_uv_to_rgb_true p
    | UNDEFINED => ret None end) _ X _ (fun p => eq_refl) _).
  destruct X; try contradiction.
  - exact rgb_deep_to_rgb_true_cv.
  - exact grey_true_to_rgb_true_cv.
  - exact grey_deep_to_rgb_true_cv.
  - exact cmyk_to_rgb_true_cv.
  - exact hsi_to_rgb_true_cv.
  - exact hsv_to_rgb_true_cv.
  - exact hsl_to_rgb_true_cv.
  - exact hcy_to_rgb_true_cv.
  - exact xyz_to_rgb_true_cv.
  - exact xyy_to_rgb_true_cv.
  - exact cieluv_to_rgb_true_cv.
  - exact lab_to_rgb_true_cv.
  - exact lch_ab_to_rgb_true_cv.
  - exact lch_uv_to_rgb_true_cv.
Qed.
Lemma to_rgb_deep_cv X : X <> UNDEFINED -> X <> RGB_DEEP -> cv X RGB_DEEP to_rgb_deep.
Proof.
  intros U N. refine (dispatch (fun t p => match t with
    | RGB_TRUE => rgb_true_to_rgb_deep p
    | RGB_DEEP => cast RGB_DEEP p
    | GREY_TRUE => grey_true_to_rgb_deep p
    | GREY_DEEP => grey_deep_to_rgb_deep p
    | CMYK => cmyk_to_rgb_deep p
    | HSI => hsi_to_rgb_deep p
    | HSV => hsv_to_rgb_deep p
    | HSL => hsl_to_rgb_deep p
    | HCY => hcy_to_rgb_deep p
    | XYZ => xyz_to_rgb_deep p
    | XYY => xyy_to_rgb_deep p
    | CIELUV => cieluv_to_rgb_deep p
    | LAB => lab_to_rgb_deep p
    | LCH_AB => lch_ab_to_rgb_deep p
    | LCH_UV => lch_uv_to_rgb_deep p
    | UNDEFINED => ret None end) _ X _ (fun p => eq_refl) _).
  destruct X; try contradiction.
  - exact rgb_true_to_rgb_deep_cv.
  - exact grey_true_to_rgb_deep_cv.
  - exact grey_deep_to_rgb_deep_cv.
  - exact cmyk_to_rgb_deep_cv.
  - exact hsi_to_rgb_deep_cv.
  - exact hsv_to_rgb_deep_cv.
  - exact hsl_to_rgb_deep_cv.
  - exact hcy_to_rgb_deep_cv.
  - exact xyz_to_rgb_deep_cv.
  - exact xyy_to_rgb_deep_cv.
  - exact cieluv_to_rgb_deep_cv.
  - exact lab_to_rgb_deep_cv.
  - exact lch_ab_to_rgb_deep_cv.
  - exact lch_uv_to_rgb_deep_cv.
Qed.
Lemma to_grey_true_cv X : X <> UNDEFINED -> X <> GREY_TRUE -> cv X GREY_TRUE to_grey_true.
Proof.
  intros U N. refine (dispatch (fun t p => match t with
    | RGB_TRUE => rgb_true_to_grey_true p
    | RGB_DEEP => rgb_deep_to_grey_true p
    | GREY_TRUE => cast GREY_TRUE p
    | GREY_DEEP => grey_deep_to_grey_true p
    | CMYK => cmyk_to_grey_true p
    | HSI => hsi_to_grey_true p
    | HSV => hsv_to_grey_true p
    | HSL => hsl_to_grey_true p
    | HCY => hcy_to_grey_true p
    | XYZ => xyz_to_grey_true p
    | XYY => xyy_to_grey_true p
    | CIELUV => cieluv_to_grey_true p
    | LAB => lab_to_grey_true p
    | LCH_AB => lch_ab_to_grey_true p
    | LCH_UV => lch_uv_to_grey_true p
    | UNDEFINED => ret None end) _ X _ (fun p => eq_refl) _).
  destruct X; try contradiction.
  - exact rgb_true_to_grey_true_cv.
  - exact rgb_deep_to_grey_true_cv.
  - exact grey_deep_to_grey_true_cv.
  - exact cmyk_to_grey_true_cv.
  - exact hsi_to_grey_true_cv.
  - exact hsv_to_grey_true_cv.
  - exact hsl_to_grey_true_cv.
  - exact hcy_to_grey_true_cv.
  - exact xyz_to_grey_true_cv.
  - exact xyy_to_grey_true_cv.
  - exact cieluv_to_grey_true_cv.
  - exact lab_to_grey_true_cv.
  - exact lch_ab_to_grey_true_cv.
  - exact lch_uv_to_grey_true_cv.
Qed.
Lemma to_grey_deep_cv X : X <> UNDEFINED -> X <> GREY_DEEP -> cv X GREY_DEEP to_grey_deep.
Proof.
  intros U N. refine (dispatch (fun t p => match t with
    | RGB_TRUE => rgb_true_to_grey_deep p
    | RGB_DEEP => rgb_deep_to_grey_deep p
    | GREY_TRUE => grey_true_to_grey_deep p
    | GREY_DEEP => cast GREY_DEEP p
    | CMYK => cmyk_to_grey_deep p
    | HSI => hsi_to_grey_deep p
    | HSV => hsv_to_grey_deep p
    | HSL => hsl_to_grey_deep p
    | HCY => hcy_to_grey_deep p
    | XYZ => xyz_to_grey_deep p
    | XYY => xyy_to_grey_deep p
    | CIELUV => cieluv_to_grey_deep p
    | LAB => lab_to_grey_deep p
    | LCH_AB => lch_ab_to_grey_deep p
    | LCH_UV => lch_uv_to_grey_deep p
    | UNDEFINED => ret None end) _ X _ (fun p => eq_refl) _).
  destruct X; try contradiction.
  - exact rgb_true_to_grey_deep_cv.
  - exact rgb_deep_to_grey_deep_cv.
  - exact grey_true_to_grey_deep_cv.
  - exact cmyk_to_grey_deep_cv.
  - exact hsi_to_grey_deep_cv.
  - exact hsv_to_grey_deep_cv.
  - exact hsl_to_grey_deep_cv.
  - exact hcy_to_grey_deep_cv.
  - exact xyz_to_grey_deep_cv.
  - exact xyy_to_grey_deep_cv.
  - exact cieluv_to_grey_deep_cv.
  - exact lab_to_grey_deep_cv.
  - exact lch_ab_to_grey_deep_cv.
  - exact lch_uv_to_grey_deep_cv.
Qed.
Lemma to_cmyk_cv X : X <> UNDEFINED -> X <> CMYK -> cv X CMYK to_cmyk.
Proof.
  intros U N. refine (dispatch (fun t p => match t with
    | RGB_TRUE => rgb_true_to_cmyk p
    | RGB_DEEP => rgb_deep_to_cmyk p
    | GREY_TRUE => grey_true_to_cmyk p
    | GREY_DEEP => grey_deep_to_cmyk p
    | CMYK => cast CMYK p
    | HSI => hsi_to_cmyk p
    | HSV => hsv_to_cmyk p
    | HSL => hsl_to_cmyk p
    | HCY => hcy_to_cmyk p
    | XYZ => xyz_to_cmyk p
    | XYY => xyy_to_cmyk p
    | CIELUV => cieluv_to_cmyk p
    | LAB => lab_to_cmyk p
    | LCH_AB => lch_ab_to_cmyk p
    | LCH_UV => lch_uv_to_cmyk p
    | UNDEFINED => ret None end) _ X _ (fun p => eq_refl) _).
  destruct X; try contradiction.
  - exact rgb_true_to_cmyk_cv.
  - exact rgb_deep_to_cmyk_cv.
  - exact grey_true_to_cmyk_cv.
  - exact grey_deep_to_cmyk_cv.
  - exact hsi_to_cmyk_cv.
  - exact hsv_to_cmyk_cv.
  - exact hsl_to_cmyk_cv.
  - exact hcy_to_cmyk_cv.
  - exact xyz_to_cmyk_cv.
  - exact xyy_to_cmyk_cv.
  - exact cieluv_to_cmyk_cv.
  - exact lab_to_cmyk_cv.
  - exact lch_ab_to_cmyk_cv.
  - exact lch_uv_to_cmyk_cv.
Qed.
Lemma to_hsi_cv X : X <> UNDEFINED -> X <> HSI -> cv X HSI to_hsi.
Proof.
  intros U N. refine (dispatch (fun t p => match t with
    | RGB_TRUE => rgb_true_to_hsi p
    | RGB_DEEP => rgb_deep_to_hsi p
    | GREY_TRUE => grey_true_to_hsi p
    | GREY_DEEP => grey_deep_to_hsi p
    | CMYK => cmyk_to_hsi p
    | HSI => cast HSI p
    | HSV => hsv_to_hsi p
    | HSL => hsl_to_hsi p
    | HCY => hcy_to_hsi p
    | XYZ => xyz_to_hsi p
    | XYY => xyy_to_hsi p
    | CIELUV => cieluv_to_hsi p
    | LAB => lab_to_hsi p
    | LCH_AB => lch_ab_to_hsi p
    | LCH_UV => lch_uv_to_hsi p
    | UNDEFINED => ret None end) _ X _ (fun p => eq_refl) _).
  destruct X; try contradiction.
  - exact rgb_true_to_hsi_cv.
  - exact rgb_deep_to_hsi_cv.
  - exact grey_true_to_hsi_cv.
  - exact grey_deep_to_hsi_cv.
  - exact cmyk_to_hsi_cv.
  - exact hsv_to_hsi_cv.
  - exact hsl_to_hsi_cv.
  - exact hcy_to_hsi_cv.
  - exact xyz_to_hsi_cv.
  - exact xyy_to_hsi_cv.
  - exact cieluv_to_hsi_cv.
  - exact lab_to_hsi_cv.
  - exact lch_ab_to_hsi_cv.
  - exact lch_uv_to_hsi_cv.
Qed.
Lemma to_hsv_cv X : X <> UNDEFINED -> X <> HSV -> cv X HSV to_hsv.
Proof.
  intros U N. refine (dispatch (fun t p => match t with
    | RGB_TRUE => rgb_true_to_hsv p
    | RGB_DEEP => rgb_deep_to_hsv p
    | GREY_TRUE => grey_true_to_hsv p
    | GREY_DEEP => grey_deep_to_hsv p
    | CMYK => cmyk_to_hsv p
    | HSI => hsi_to_hsv p
    | HSV => cast HSV p
    | HSL => hsl_to_hsv p
    | HCY => hcy_to_hsv p
    | XYZ => xyz_to_hsv p
    | XYY => xyy_to_hsv p
    | CIELUV => cieluv_to_hsv p
    | LAB => lab_to_hsv p
    | LCH_AB => lch_ab_to_hsv p
    | LCH_UV => lch_uv_to_hsv p
    | UNDEFINED => ret None end) _ X _ (fun p => eq_refl) _).
  destruct X; try contradiction.
  - exact rgb_true_to_hsv_cv.
  - exact rgb_deep_to_hsv_cv.
  - exact grey_true_to_hsv_cv.
  - exact grey_deep_to_hsv_cv.
  - exact cmyk_to_hsv_cv.
  - exact hsi_to_hsv_cv.
  - exact hsl_to_hsv_cv.
  - exact hcy_to_hsv_cv.
  - exact xyz_to_hsv_cv.
  - exact xyy_to_hsv_cv.
  - exact cieluv_to_hsv_cv.
  - exact lab_to_hsv_cv.
  - exact lch_ab_to_hsv_cv.
  - exact lch_uv_to_hsv_cv.
Qed.
Lemma to_hsl_cv X : X <> UNDEFINED -> X <> HSL -> cv X HSL to_hsl.
Proof.
  intros U N. refine (dispatch (fun t p => match t with
    | RGB_TRUE => rgb_true_to_hsl p
    | RGB_DEEP => rgb_deep_to_hsl p
    | GREY_TRUE => grey_true_to_hsl p
    | GREY_DEEP => grey_deep_to_hsl p
    | CMYK => cmyk_to_hsl p
    | HSI => hsi_to_hsl p
    | HSV => hsv_to_hsl p
    | HSL => cast HSL p
    | HCY => hcy_to_hsl p
    | XYZ => xyz_to_hsl p
    | XYY => xyy_to_hsl p
    | CIELUV => cieluv_to_hsl p
    | LAB => lab_to_hsl p
    | LCH_AB => lch_ab_to_hsl p
    | LCH_UV => lch_uv_to_hsl p
    | UNDEFINED => ret None end) _ X _ (fun p => eq_refl) _).
  destruct X; try contradiction.
  - exact rgb_true_to_hsl_cv.
  - exact rgb_deep_to_hsl_cv.
  - exact grey_true_to_hsl_cv.
  - exact grey_deep_to_hsl_cv.
  - exact cmyk_to_hsl_cv.
  - exact hsi_to_hsl_cv.
  - exact hsv_to_hsl_cv.
  - exact hcy_to_hsl_cv.
  - exact xyz_to_hsl_cv.
  - exact xyy_to_hsl_cv.
  - exact cieluv_to_hsl_cv.
  - exact lab_to_hsl_cv.
  - exact lch_ab_to_hsl_cv.
  - exact lch_uv_to_hsl_cv.
Qed.
Lemma to_hcy_cv X : X <> UNDEFINED -> X <> HCY -> cv X HCY to_hcy.
Proof.
  intros U N. refine (dispatch (fun t p => match t with
    | RGB_TRUE => rgb_true_to_hcy p
    | RGB_DEEP => rgb_deep_to_hcy p
    | GREY_TRUE => grey_true_to_hcy p
    | GREY_DEEP => grey_deep_to_hcy p
    | CMYK => cmyk_to_hcy p
    | HSI => hsi_to_hcy p
    | HSV => hsv_to_hcy p
    | HSL => hsl_to_hcy p
    | HCY => cast HCY p
    | XYZ => xyz_to_hcy p
    | XYY => xyy_to_hcy p
    | CIELUV => cieluv_to_hcy p
    | LAB => lab_to_hcy p
    | LCH_AB => lch_ab_to_hcy p
    | LCH_UV => lch_uv_to_hcy p
    | UNDEFINED => ret None end) _ X _ (fun p => eq_refl) _).
  destruct X; try contradiction.
  - exact rgb_true_to_hcy_cv.
  - exact rgb_deep_to_hcy_cv.
  - exact grey_true_to_hcy_cv.
  - exact grey_deep_to_hcy_cv.
  - exact cmyk_to_hcy_cv.
  - exact hsi_to_hcy_cv.
  - exact hsv_to_hcy_cv.
  - exact hsl_to_hcy_cv.
  - exact xyz_to_hcy_cv.
  - exact xyy_to_hcy_cv.
  - exact cieluv_to_hcy_cv.
  - exact lab_to_hcy_cv.
  - exact lch_ab_to_hcy_cv.
  - exact lch_uv_to_hcy_cv.
Qed.
Lemma to_xyz_cv X : X <> UNDEFINED -> X <> XYZ -> cv X XYZ to_xyz.
Proof.
  intros U N. refine (dispatch (fun t p => match t with
    | RGB_TRUE => rgb_true_to_xyz p
    | RGB_DEEP => rgb_deep_to_xyz p
    | GREY_TRUE => grey_true_to_xyz p
    | GREY_DEEP => grey_deep_to_xyz p
    | CMYK => cmyk_to_xyz p
    | HSI => hsi_to_xyz p
    | HSV => hsv_to_xyz p
    | HSL => hsl_to_xyz p
    | HCY => hcy_to_xyz p
    | XYZ => cast XYZ p
    | XYY => xyy_to_xyz p
    | CIELUV => cieluv_to_xyz p
    | LAB => lab_to_xyz p
    | LCH_AB => lch_ab_to_xyz p
    | LCH_UV => lch_uv_to_xyz p
    | UNDEFINED => ret None end) _ X _ (fun p => eq_refl) _).
  destruct X; try contradiction.
  - exact rgb_true_to_xyz_cv.
  - exact rgb_deep_to_xyz_cv.
  - exact grey_true_to_xyz_cv.
  - exact grey_deep_to_xyz_cv.
  - exact cmyk_to_xyz_cv.
  - exact hsi_to_xyz_cv.
  - exact hsv_to_xyz_cv.
  - exact hsl_to_xyz_cv.
  - exact hcy_to_xyz_cv.
  - exact xyy_to_xyz_cv.
  - exact cieluv_to_xyz_cv.
  - exact lab_to_xyz_cv.
  - exact lch_ab_to_xyz_cv.
  - exact lch_uv_to_xyz_cv.
Qed.
Lemma to_xyy_cv X : X <> UNDEFINED -> X <> XYY -> cv X XYY to_xyy.
Proof.
  intros U N. refine (dispatch (fun t p => match t with
    | RGB_TRUE => rgb_true_to_xyy p
    | RGB_DEEP => rgb_deep_to_xyy p
    | GREY_TRUE => grey_true_to_xyy p
    | GREY_DEEP => grey_deep_to_xyy p
    | CMYK => cmyk_to_xyy p
    | HSI => hsi_to_xyy p
    | HSV => hsv_to_xyy p
    | HSL => hsl_to_xyy p
    | HCY => hcy_to_xyy p
    | XYZ => xyz_to_xyy p
    | XYY => cast XYY p
    | CIELUV => cieluv_to_xyy p
    | LAB => lab_to_xyy p
    | LCH_AB => lch_ab_to_xyy p
    | LCH_UV => lch_uv_to_xyy p
    | UNDEFINED => ret None end) _ X _ (fun p => eq_refl) _).
  destruct X; try contradiction.
  - exact rgb_true_to_xyy_cv.
  - exact rgb_deep_to_xyy_cv.
  - exact grey_true_to_xyy_cv.
  - exact grey_deep_to_xyy_cv.
  - exact cmyk_to_xyy_cv.
  - exact hsi_to_xyy_cv.
  - exact hsv_to_xyy_cv.
  - exact hsl_to_xyy_cv.
  - exact hcy_to_xyy_cv.
  - exact xyz_to_xyy_cv.
  - exact cieluv_to_xyy_cv.
  - exact lab_to_xyy_cv.
  - exact lch_ab_to_xyy_cv.
  - exact lch_uv_to_xyy_cv.
Qed.
Lemma to_cieluv_cv X : X <> UNDEFINED -> X <> CIELUV -> cv X CIELUV to_cieluv.
Proof.
  intros U N. refine (dispatch (fun t p => match t with
    | RGB_TRUE => rgb_true_to_cieluv p
    | RGB_DEEP => rgb_deep_to_cieluv p
    | GREY_TRUE => grey_true_to_cieluv p
    | GREY_DEEP => grey_deep_to_cieluv p
    | CMYK => cmyk_to_cieluv p
    | HSI => hsi_to_cieluv p
    | HSV => hsv_to_cieluv p
    | HSL => hsl_to_cieluv p
    | HCY => hcy_to_cieluv p
    | XYZ => xyz_to_cieluv p
    | XYY => xyy_to_cieluv p
    | CIELUV => cast CIELUV p
    | LAB => lab_to_cieluv p
    | LCH_AB => lch_ab_to_cieluv p
    | LCH_UV => lch_uv_to_cieluv p
    | UNDEFINED => ret None end) _ X _ (fun p => eq_refl) _).
  destruct X; try contradiction.
  - exact rgb_true_to_cieluv_cv.
  - exact rgb_deep_to_cieluv_cv.
  - exact grey_true_to_cieluv_cv.
  - exact grey_deep_to_cieluv_cv.
  - exact cmyk_to_cieluv_cv.
  - exact hsi_to_cieluv_cv.
  - exact hsv_to_cieluv_cv.
  - exact hsl_to_cieluv_cv.
  - exact hcy_to_cieluv_cv.
  - exact xyz_to_cieluv_cv.
  - exact xyy_to_cieluv_cv.
  - exact lab_to_cieluv_cv.
  - exact lch_ab_to_cieluv_cv.
  - exact lch_uv_to_cieluv_cv.
Qed.
Lemma to_lab_cv X : X <> UNDEFINED -> X <> LAB -> cv X LAB to_lab.
Proof.
  intros U N. refine (dispatch (fun t p => match t with
    | RGB_TRUE => rgb_true_to_lab p
    | RGB_DEEP => rgb_deep_to_lab p
    | GREY_TRUE => grey_true_to_lab p
    | GREY_DEEP => grey_deep_to_lab p
    | CMYK => cmyk_to_lab p
    | HSI => hsi_to_lab p
    | HSV => hsv_to_lab p
    | HSL => hsl_to_lab p
    | HCY => hcy_to_lab p
    | XYZ => xyz_to_lab p
    | XYY => xyy_to_lab p
    | CIELUV => cieluv_to_lab p
    | LAB => cast LAB p
    | LCH_AB => lch_ab_to_lab p
    | LCH_UV => lch_uv_to_lab p
    | UNDEFINED => ret None end) _ X _ (fun p => eq_refl) _).
  destruct X; try contradiction.
  - exact rgb_true_to_lab_cv.
  - exact rgb_deep_to_lab_cv.
  - exact grey_true_to_lab_cv.
  - exact grey_deep_to_lab_cv.
  - exact cmyk_to_lab_cv.
  - exact hsi_to_lab_cv.
  - exact hsv_to_lab_cv.
  - exact hsl_to_lab_cv.
  - exact hcy_to_lab_cv.
  - exact xyz_to_lab_cv.
  - exact xyy_to_lab_cv.
  - exact cieluv_to_lab_cv.
  - exact lch_ab_to_lab_cv.
  - exact lch_uv_to_lab_cv.
Qed.
Lemma to_lch_ab_cv X : X <> UNDEFINED -> X <> LCH_AB -> cv X LCH_AB to_lch_ab.
Proof.
  intros U N. refine (dispatch (fun t p => match t with
    | RGB_TRUE => rgb_true_to_lch_ab p
    | RGB_DEEP => rgb_deep_to_lch_ab p
    | GREY_TRUE => grey_true_to_lch_ab p
    | GREY_DEEP => grey_deep_to_lch_ab p
    | CMYK => cmyk_to_lch_ab p
    | HSI => hsi_to_lch_ab p
    | HSV => hsv_to_lch_ab p
    | HSL => hsl_to_lch_ab p
    | HCY => hcy_to_lch_ab p
    | XYZ => xyz_to_lch_ab p
    | XYY => xyy_to_lch_ab p
    | CIELUV => cieluv_to_lch_ab p
    | LAB => lab_to_lch_ab p
    | LCH_AB => cast LCH_AB p
    | LCH_UV => lch_uv_to_lch_ab p
    | UNDEFINED => ret None end) _ X _ (fun p => eq_refl) _).
  destruct X; try contradiction.
  - exact rgb_true_to_lch_ab_cv.
  - exact rgb_deep_to_lch_ab_cv.
  - exact grey_true_to_lch_ab_cv.
  - exact grey_deep_to_lch_ab_cv.
  - exact cmyk_to_lch_ab_cv.
  - exact hsi_to_lch_ab_cv.
  - exact hsv_to_lch_ab_cv.
  - exact hsl_to_lch_ab_cv.
  - exact hcy_to_lch_ab_cv.
  - exact xyz_to_lch_ab_cv.
  - exact xyy_to_lch_ab_cv.
  - exact cieluv_to_lch_ab_cv.
  - exact lab_to_lch_ab_cv.
  - exact lch_uv_to_lch_ab_cv.
Qed.
Lemma to_lch_uv_cv X : X <> UNDEFINED -> X <> LCH_UV -> cv X LCH_UV to_lch_uv.
Proof.
  intros U N. refine (dispatch (fun t p => match t with
    | RGB_TRUE => rgb_true_to_lch_uv p
    | RGB_DEEP => rgb_deep_to_lch_uv p
    | GREY_TRUE => grey_true_to_lch_uv p
    | GREY_DEEP => grey_deep_to_lch_uv p
    | CMYK => cmyk_to_lch_uv p
    | HSI => hsi_to_lch_uv p
    | HSV => hsv_to_lch_uv p
    | HSL => hsl_to_lch_uv p
    | HCY => hcy_to_lch_uv p
    | XYZ => xyz_to_lch_uv p
    | XYY => xyy_to_lch_uv p
    | CIELUV => cieluv_to_lch_uv p
    | LAB => lab_to_lch_uv p
    | LCH_AB => lch_ab_to_lch_uv p
    | LCH_UV => cast LCH_UV p
    | UNDEFINED => ret None end) _ X _ (fun p => eq_refl) _).
  destruct X; try contradiction.
  - exact rgb_true_to_lch_uv_cv.
  - exact rgb_deep_to_lch_uv_cv.
  - exact grey_true_to_lch_uv_cv.
  - exact grey_deep_to_lch_uv_cv.
  - exact cmyk_to_lch_uv_cv.
  - exact hsi_to_lch_uv_cv.
  - exact hsv_to_lch_uv_cv.
  - exact hsl_to_lch_uv_cv.
  - exact hcy_to_lch_uv_cv.
  - exact xyz_to_lch_uv_cv.
  - exact xyy_to_lch_uv_cv.
  - exact cieluv_to_lch_uv_cv.
  - exact lab_to_lch_uv_cv.
  - exact lch_ab_to_lch_uv_cv.
Qed.

Lemma to_type_cv X Y : X <> UNDEFINED -> Y <> UNDEFINED -> X <> Y -> cv X Y (to_type Y).
Proof.
  intros UX UY N. destruct Y; cbn [to_type]; try contradiction.
  - apply to_rgb_true_cv; assumption.
  - apply to_rgb_deep_cv; assumption.
  - apply to_grey_true_cv; assumption.
  - apply to_grey_deep_cv; assumption.
  - apply to_cmyk_cv; assumption.
  - apply to_hsi_cv; assumption.
  - apply to_hsv_cv; assumption.
  - apply to_hsl_cv; assumption.
  - apply to_hcy_cv; assumption.
  - apply to_xyz_cv; assumption.
  - apply to_xyy_cv; assumption.
  - apply to_cieluv_cv; assumption.
  - apply to_lab_cv; assumption.
  - apply to_lch_ab_cv; assumption.
  - apply to_lch_uv_cv; assumption.
Qed.

Lemma to_type_same X (h : heap F) p c : at_addr h p c -> wf_color X c ->
  to_type X (Some p) h = (Ok (Some p), h).
Proof.
  intros Hp W. pose proof (wf_real _ _ W) as U.
  assert (K : cast X (Some p) h = (Ok (Some p), h)).
  { unfold cast, bind. rewrite (load_as_ok h p c X Hp W). reflexivity. }
  destruct X; try contradiction; cbn [to_type];
  unfold to_rgb_true, to_rgb_deep, to_grey_true, to_grey_deep, to_cmyk, to_hsi, to_hsv, to_hsl, to_hcy,
    to_xyz, to_xyy, to_cieluv, to_lab, to_lch_ab, to_lch_uv, bind at 1, load; rewrite Hp, (wf_ty _ _ W); exact K.
Qed.

Lemma convertTo_to_type Y : Y <> LCH_AB -> Y <> LCH_UV -> forall p, convertTo (F := F) p Y = to_type Y p.
Proof. intros N1 N2 p. destruct Y; try contradiction; reflexivity. Qed.

End Conv.
