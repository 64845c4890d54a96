(** * Properties C183, C184: presets against published values *)
From Coq Require Import ZArith QArith Reals List.
From Verif Require Import Arith Outcome ColorModel GammaModel SpaceModel RArith Spec_Space Spec_Preset Gamma2_Proofs Preset_Proofs.
Import ListNotations.
Local Open Scope R_scope.

(** C183 *)
Theorem C183_whites : Forall2 (fun (w : white_point R) t => within 0.0005 (cx w) (fst t) /\ within 0.0005 (cy w) (snd t))
  [wp_D50_2Degree; wp_D55_2Degree; wp_D65_2Degree; wp_D75_2Degree; wp_A_2Degree; wp_B_2Degree; wp_C_2Degree; wp_E_2Degree;
   wp_F1_2Degree; wp_F2_2Degree; wp_F3_2Degree; wp_F4_2Degree; wp_F5_2Degree; wp_F6_2Degree; wp_F7_2Degree; wp_F8_2Degree;
   wp_F9_2Degree; wp_F10_2Degree; wp_F11_2Degree; wp_F12_2Degree;
   wp_D50_10Degree; wp_D55_10Degree; wp_D65_10Degree; wp_D75_10Degree; wp_A_10Degree; wp_B_10Degree; wp_C_10Degree; wp_E_10Degree;
   wp_F1_10Degree; wp_F2_10Degree; wp_F3_10Degree; wp_F4_10Degree; wp_F5_10Degree; wp_F6_10Degree; wp_F7_10Degree; wp_F8_10Degree;
   wp_F9_10Degree; wp_F10_10Degree; wp_F11_10Degree; wp_F12_10Degree]
  (illuminants_2 ++ illuminants_10).
Proof. exact whites_published. Qed.
Print Assumptions C183_whites.
Theorem C183_spaces : forall addr, Forall2 published
  [space_sRGB addr; space_adobeRGB addr; space_pal_secam addr; space_americaNTSC addr; space_oldNTSC addr; space_appleRGB addr;
   space_dci_p3 addr; space_uhdtv addr; space_adobeWideGammutRGB addr; space_rommRGB addr; space_bestRGB addr; space_betaRGB addr;
   space_bruceRGB addr; space_colorMatchRGB addr; space_donRGB4 addr; space_ektaSpacePS5 addr; space_ProPhotoRGB addr;
   space_SMPTE_C_RGB addr; space_cieRGB addr; space_cieXYZ addr]
  rgb_tables.
Proof. exact spaces_published. Qed.
Print Assumptions C183_spaces.
Example C183_example : nth_error rgb_tables 0 = Some (Table (0.64, 0.33) (0.30, 0.60) (0.15, 0.06) (0.31271, 0.32902) (Some srgb_decode)) /\
  length illuminants_2 = 20%nat /\ length illuminants_10 = 20%nat /\ length rgb_tables = 20%nat.
Proof. repeat split. Qed.

(** C184 *)
Theorem C184_srgb : forall x, 0 <= x <= 1 ->
  gamma_correction gamma_sRGB x = srgb_encode x /\ inverse_gamma_correction gamma_sRGB x = srgb_decode x.
Proof. exact srgb_published. Qed.
Print Assumptions C184_srgb.
Theorem C184_power : forall x, 0 <= x <= 1 ->
  Forall (fun ge => gamma_correction (fst ge) x = rpow x (1 / snd ge) /\ inverse_gamma_correction (fst ge) x = rpow x (snd ge))
    [(gamma1_8, 1.8); (gamma2_2, 2.2); (gamma2_6, 2.6); (gamma2_8, 2.8); (gammaAdobe, 563 / 256)].
Proof. exact powers_published. Qed.
Print Assumptions C184_power.
(** UHDTV: the linear part is divided by 4.5 where it should be multiplied, and conversely *)
Theorem C184_uhdtv_refuted : forall x, 0 < x < 0.018 ->
  gamma_correction gammaUHDTV x < rec2020_encode x / 20 /\ 20 * rec2020_decode x < inverse_gamma_correction gammaUHDTV x.
Proof. exact uhdtv_refuted. Qed.
Print Assumptions C184_uhdtv_refuted.
(** The two functions are the published ones, exchanged *)
Theorem C184_uhdtv_deviation : forall x, 0 <= x <= 1 ->
  (x <> 0.081 -> gamma_correction gammaUHDTV x = rec2020_decode x) /\
  (x < 0.018 \/ 0.018054 < x -> inverse_gamma_correction gammaUHDTV x = rec2020_encode x).
Proof. exact uhdtv_swapped. Qed.
Print Assumptions C184_uhdtv_deviation.
Theorem C184_romm_encode : forall x, 0 <= x <= 1 -> x <= 0.001953 \/ 1 / 512 <= x -> gamma_correction gammaRomm x = romm_encode x.
Proof. exact romm_encode_published. Qed.
Print Assumptions C184_romm_encode.
Theorem C184_romm_decode_partial : forall x, 0 <= x <= 1 -> x <= 0.001953 \/ 1 / 32 <= x -> inverse_gamma_correction gammaRomm x = romm_decode x.
Proof. exact romm_decode_partial. Qed.
Print Assumptions C184_romm_decode_partial.
Theorem C184_romm_decode_refuted : (forall x, 0.001953 < x < 1 / 32 -> inverse_gamma_correction gammaRomm x < romm_decode x) /\
  inverse_gamma_correction gammaRomm 0.002 * 8 < romm_decode 0.002.
Proof. exact (conj romm_decode_refuted romm_dark_eighth). Qed.
Print Assumptions C184_romm_decode_refuted.
Example C184_example : srgb_encode 0.001 = 0.01292 /\ rec2020_encode 0.01 = 0.045 /\ romm_decode 0.002 = 0.000125.
Proof. exact curves_example. Qed.
