(** * Properties C185, C186: RGB, XYZ and xyY by their formulas; greys have no colour *)
From Coq Require Import ZArith Reals List.
From Verif Require Import Arith Outcome ColorModel GammaModel MatrixModel SpaceModel Heap Converter RArith
  Spec Spec_Space Spec_Conv Spec_Round Spec_Formula Neutral_Proofs.
Import ListNotations.
Local Open Scope R_scope.

(** C185 *)
Theorem C185_rgb_xyz : forall (h : heap R) p c i s gam, at_addr h p c ->
  rgb_space c = Some i -> nth_error (spaces h) i = Some s -> s_gamma s = Some gam ->
  forall r g b m11 m12 m13 m21 m22 m23 m31 m32 m33 lr lg lb, wf_color RGB_DEEP c -> comps c = [r; g; b] ->
  s_matrix s = Mat 3 3 [[m11; m12; m13]; [m21; m22; m23]; [m31; m32; m33]] ->
  lr = cut 0 1 (inverse_gamma_correction gam r) -> lg = cut 0 1 (inverse_gamma_correction gam g) -> lb = cut 0 1 (inverse_gamma_correction gam b) ->
  yields to_xyz h p (fun m => ty m = XYZ /\
    comps m = [cut 0 100 (m11 * lr + m12 * lg + m13 * lb); cut 0 100 (m21 * lr + m22 * lg + m23 * lb); cut 0 100 (m31 * lr + m32 * lg + m33 * lb)] /\
    m_alpha m = m_alpha c /\ rgb_space m = rgb_space c).
Proof. exact rgb_xyz_formula. Qed.
Print Assumptions C185_rgb_xyz.
Theorem C185_xyz_rgb : forall (h : heap R) p c i s gam, at_addr h p c ->
  rgb_space c = Some i -> nth_error (spaces h) i = Some s -> s_gamma s = Some gam ->
  forall x y z m11 m12 m13 m21 m22 m23 m31 m32 m33, wf_color XYZ c -> comps c = [x; y; z] ->
  s_inverse s = Mat 3 3 [[m11; m12; m13]; [m21; m22; m23]; [m31; m32; m33]] ->
  yields to_rgb_deep h p (fun m => ty m = RGB_DEEP /\
    comps m = map (fun l => cut 0 1 (gamma_correction gam (cut 0 1 l)))
      [m11 * x + m12 * y + m13 * z; m21 * x + m22 * y + m23 * z; m31 * x + m32 * y + m33 * z] /\
    m_alpha m = m_alpha c /\ rgb_space m = rgb_space c).
Proof. exact xyz_rgb_formula. Qed.
Print Assumptions C185_xyz_rgb.
Theorem C185_xyy_xyz : forall (h : heap R) p c x y Y, at_addr h p c -> wf_color XYY c -> comps c = [x; y; Y] ->
  yields to_xyz h p (fun m => ty m = XYZ /\
    comps m = (if Req_EM_T y 0 then [0; 0; 0] else [cut 0 100 (x * Y / y); Y; cut 0 100 ((1 - x - y) * Y / y)]) /\
    m_alpha m = m_alpha c /\ rgb_space m = rgb_space c).
Proof. exact xyy_xyz_formula. Qed.
Print Assumptions C185_xyy_xyz.
Example C185_example : exists (h : heap R) c, at_addr h 0%nat c /\ wf_color XYY c /\ comps c = [0.3; 0.6; 0.5].
Proof. exact xyy_example. Qed.

(** C186; [l] is the linear value of the grey *)
Theorem C186_xyz : forall (h : heap R) p c i s gam, at_addr h p c ->
  rgb_space c = Some i -> nth_error (spaces h) i = Some s -> s_gamma s = Some gam -> proper s ->
  forall a w v l, s_white s = Some (a, w) -> wf_color RGB_DEEP c -> comps c = [v; v; v] -> l = cut 0 1 (inverse_gamma_correction gam v) ->
  yields to_xyz h p (fun m => ty m = XYZ /\ comps m = map (cut 0 100) [l * tx w; l * ty_ w; l * tz w] /\
    m_alpha m = m_alpha c /\ rgb_space m = rgb_space c).
Proof. exact grey_to_xyz. Qed.
Print Assumptions C186_xyz.
Theorem C186_lab : forall (h : heap R) p c i s gam, at_addr h p c ->
  rgb_space c = Some i -> nth_error (spaces h) i = Some s -> s_gamma s = Some gam -> proper s ->
  forall a w v l, s_white s = Some (a, w) -> wf_color RGB_DEEP c -> comps c = [v; v; v] -> l = cut 0 1 (inverse_gamma_correction gam v) ->
  0 < tx w <= 100 -> 0 < ty_ w <= 100 -> 0 < tz w <= 100 ->
  yields to_lab h p (fun m => ty m = LAB /\ comps m = [cut 0 100 (116 * cie_f l - 16); 0; 0] /\
    m_alpha m = cut 0 1 (m_alpha c) /\ rgb_space m = rgb_space c).
Proof. exact grey_to_lab. Qed.
Print Assumptions C186_lab.
Theorem C186_hsv : forall (h : heap R) p c v, at_addr h p c -> wf_color RGB_DEEP c -> comps c = [v; v; v] ->
  yields to_hsv h p (fun m => ty m = HSV /\ comps m = [0; 0; v] /\ m_alpha m = m_alpha c /\ rgb_space m = rgb_space c).
Proof. exact grey_to_hsv. Qed.
Print Assumptions C186_hsv.
Theorem C186_hsl : forall (h : heap R) p c v, at_addr h p c -> wf_color RGB_DEEP c -> comps c = [v; v; v] ->
  yields to_hsl h p (fun m => ty m = HSL /\ comps m = [0; 0; v] /\ m_alpha m = m_alpha c /\ rgb_space m = rgb_space c).
Proof. exact grey_to_hsl. Qed.
Print Assumptions C186_hsl.
Theorem C186_hsi : forall (h : heap R) p c v, at_addr h p c -> wf_color RGB_DEEP c -> comps c = [v; v; v] ->
  yields to_hsi h p (fun m => ty m = HSI /\ comps m = [0; 0; v] /\ m_alpha m = m_alpha c /\ rgb_space m = rgb_space c).
Proof. exact grey_to_hsi. Qed.
Print Assumptions C186_hsi.
Theorem C186_hcy : forall (h : heap R) p c v, at_addr h p c -> wf_color RGB_DEEP c -> comps c = [v; v; v] ->
  yields to_hcy h p (fun m => ty m = HCY /\ comps m = [0; 0; v] /\ m_alpha m = m_alpha c /\ rgb_space m = rgb_space c).
Proof. exact grey_to_hcy. Qed.
Print Assumptions C186_hcy.
Theorem C186_cmyk : forall (h : heap R) p c v, at_addr h p c -> wf_color RGB_DEEP c -> comps c = [v; v; v] -> v <> 0 ->
  yields to_cmyk h p (fun m => ty m = CMYK /\ comps m = [0; 0; 0; 1 - v] /\ m_alpha m = m_alpha c /\ rgb_space m = rgb_space c).
Proof. exact grey_to_cmyk. Qed.
Print Assumptions C186_cmyk.
(** CIELUV: v should be 0 *)
Theorem C186_luv_refuted : forall (h : heap R) p c i s gam, at_addr h p c ->
  rgb_space c = Some i -> nth_error (spaces h) i = Some s -> s_gamma s = Some gam -> proper s ->
  forall a w v l, s_white s = Some (a, w) -> wf_color RGB_DEEP c -> comps c = [v; v; v] -> l = cut 0 1 (inverse_gamma_correction gam v) ->
  0 < tx w <= 100 -> 0 < ty_ w <= 100 -> 0 < tz w <= 100 -> 0 < l ->
  yields to_cieluv h p (fun m => exists lu u v', comps m = [lu; u; v'] /\ u = 0 /\ 0 < v').
Proof. exact grey_to_luv. Qed.
Print Assumptions C186_luv_refuted.
Example C186_example : forall v, 0 <= v <= 1 -> exists (h : heap R) c s gam a w, at_addr h 0%nat c /\ wf_color RGB_DEEP c /\ comps c = [v; v; v] /\
  rgb_space c = Some 0%nat /\ nth_error (spaces h) 0 = Some s /\ space_sRGB 0%nat = Ok s /\ proper s /\ s_gamma s = Some gam /\ s_white s = Some (a, w) /\
  0 < tx w <= 100 /\ 0 < ty_ w <= 100 /\ 0 < tz w <= 100.
Proof. exact grey_example. Qed.
