(** * Properties: conversions between RGB and the hue models and CMYK in binary32 *)
From Coq Require Import ZArith Reals List.
From Flocq Require Import Core IEEE754.BinarySingleNaN.
From Verif Require Import Arith Outcome ColorModel SpaceModel Heap Converter F32 Spec Spec32 Spec_Conv Spec_Round Spec_Error Spec_Formula Spec_Channels
  Error8_Proofs Oneway_Proofs Oneway2_Proofs.
Import ListNotations.
Local Open Scope R_scope.

(** C208 *)
Theorem C208_hsv : forall o (h : heap f32) p c r g b, at_addr h p c -> @wf_color f32 (F32 o) RGB_DEEP c -> comps c = [r; g; b] ->
  forall R G B, R = B2R r -> G = B2R g -> B = B2R b ->
  yields (@to_hsv f32 (F32 o)) h p (fun m => ty m = HSV /\ comp_sat m 0 (approx (Rmin (hexagon_hue R G B) 359) (/ 16384)) /\
    comp_sat m 1 (approx (if Req_EM_T (largest R G B) 0 then 0 else (largest R G B - smallest R G B) / largest R G B) (/ 4194304)) /\
    comp_sat m 2 (fun x => is_value x (largest R G B)) /\ m_alpha m = m_alpha c /\ rgb_space m = rgb_space c).
Proof. exact oneway_hsv. Qed.
Print Assumptions C208_hsv.
(** The saturation of HSL is a quotient by [1 - |max + min - 1|], which multiplies the error. *)
Theorem C208_hsl : forall o (h : heap f32) p c r g b, at_addr h p c -> @wf_color f32 (F32 o) RGB_DEEP c -> comps c = [r; g; b] ->
  forall R G B, R = B2R r -> G = B2R g -> B = B2R b ->
  yields (@to_hsl f32 (F32 o)) h p (fun m => ty m = HSL /\ comp_sat m 0 (approx (Rmin (hexagon_hue R G B) 359) (/ 16384)) /\
    comp_sat m 1 (fun x => is_finite x = true /\ forall S, S = (if Req_EM_T (largest R G B) (smallest R G B) then 0 else (largest R G B - smallest R G B) / (1 - Rabs (largest R G B + smallest R G B - 1))) ->
      Rabs (B2R x - S) * (1 - Rabs (largest R G B + smallest R G B - 1)) <= / 262144) /\
    comp_sat m 2 (approx ((largest R G B + smallest R G B) / 2) (/ 4194304)) /\ m_alpha m = m_alpha c /\ rgb_space m = rgb_space c).
Proof. exact oneway_hsl. Qed.
Print Assumptions C208_hsl.
Theorem C208_hsi : forall o (h : heap f32) p c r g b, at_addr h p c -> @wf_color f32 (F32 o) RGB_DEEP c -> comps c = [r; g; b] ->
  forall R G B, R = B2R r -> G = B2R g -> B = B2R b ->
  yields (@to_hsi f32 (F32 o)) h p (fun m => ty m = HSI /\ comp_sat m 0 (approx (Rmin (hexagon_hue R G B) 359) (/ 16384)) /\
    comp_sat m 1 (fun x => is_finite x = true /\ (/ 1073741824 <= largest R G B -> Rabs (B2R x - (1 - smallest R G B / ((R + G + B) / 3))) <= / 2097152)) /\
    comp_sat m 2 (approx ((R + G + B) / 3) (/ 4194304)) /\ m_alpha m = m_alpha c /\ rgb_space m = rgb_space c).
Proof. exact oneway_hsi. Qed.
Print Assumptions C208_hsi.
Theorem C208_hcy : forall o (h : heap f32) p c r g b, at_addr h p c -> @wf_color f32 (F32 o) RGB_DEEP c -> comps c = [r; g; b] ->
  forall R G B, R = B2R r -> G = B2R g -> B = B2R b ->
  yields (@to_hcy f32 (F32 o)) h p (fun m => ty m = HCY /\ comp_sat m 0 (approx (Rmin (hexagon_hue R G B) 359) (/ 16384)) /\
    comp_sat m 1 (approx (largest R G B - smallest R G B) (/ 8388608)) /\ comp_sat m 2 (approx (luma709 R G B) (/ 2097152)) /\ m_alpha m = m_alpha c /\ rgb_space m = rgb_space c).
Proof. exact oneway_hcy. Qed.
Print Assumptions C208_hcy.
(** The inks are quotients by the largest channel. *)
Theorem C208_cmyk : forall o (h : heap f32) p c r g b, at_addr h p c -> @wf_color f32 (F32 o) RGB_DEEP c -> comps c = [r; g; b] ->
  forall R G B, R = B2R r -> G = B2R g -> B = B2R b ->
  0 < largest R G B -> yields (@to_cmyk f32 (F32 o)) h p (fun m => ty m = CMYK /\
    (forall i x, In (i, x) [(0%nat, R); (1%nat, G); (2%nat, B)] -> comp_sat m i (fun y => is_finite y = true /\ Rabs (B2R y - (largest R G B - x) / largest R G B) * largest R G B <= / 524288)) /\
    comp_sat m 3 (approx (1 - largest R G B) (/ 8388608)) /\ m_alpha m = m_alpha c /\ rgb_space m = rgb_space c).
Proof. exact oneway_cmyk. Qed.
Print Assumptions C208_cmyk.
Example C208_example : forall o, exists (h : heap f32) c r g b, at_addr h 0%nat c /\ @wf_color f32 (F32 o) RGB_DEEP c /\
  comps c = [r; g; b] /\ B2R r = 1 /\ B2R g = 0 /\ B2R b = 1.
Proof. exact deep_exist. Qed.

(** C209 *)
Theorem C209_hsv : forall o (h : heap f32) p c, at_addr h p c -> forall x s v, comps c = [x; s; v] -> @wf_color f32 (F32 o) HSV c ->
  yields (@to_rgb_deep f32 (F32 o)) h p (fun d => ty d = RGB_DEEP /\
    channels (lifted (hexagon_rgb (B2R x) (B2R v * B2R s)) (B2R v - B2R v * B2R s)) (/ 131072) d /\ m_alpha d = m_alpha c /\ rgb_space d = rgb_space c).
Proof. exact hsv_back. Qed.
Print Assumptions C209_hsv.
Theorem C209_hsl : forall o (h : heap f32) p c, at_addr h p c -> forall x s l, comps c = [x; s; l] -> @wf_color f32 (F32 o) HSL c ->
  forall C, C = (1 - Rabs (2 * B2R l - 1)) * B2R s ->
  yields (@to_rgb_deep f32 (F32 o)) h p (fun d => ty d = RGB_DEEP /\ channels (lifted (hexagon_rgb (B2R x) C) (B2R l - C / 2)) (/ 131072) d /\
    (B2R l <> 0 -> m_alpha d = m_alpha c) /\ rgb_space d = rgb_space c).
Proof. exact hsl_back. Qed.
Print Assumptions C209_hsl.
Theorem C209_hcy : forall o (h : heap f32) p c, at_addr h p c -> forall x s y, comps c = [x; s; y] -> @wf_color f32 (F32 o) HCY c ->
  yields (@to_rgb_deep f32 (F32 o)) h p (fun d => ty d = RGB_DEEP /\
    (forall r g b, hexagon_rgb (B2R x) (B2R s) = (r, g, b) -> channels (map (cut 0 1) (lifted (r, g, b) (B2R y - luma709 r g b))) (/ 131072) d) /\
    m_alpha d = m_alpha c /\ rgb_space d = rgb_space c).
Proof. exact hcy_back. Qed.
Print Assumptions C209_hcy.
Theorem C209_cmyk : forall o (h : heap f32) p c, at_addr h p c -> forall cy m y k, @wf_color f32 (F32 o) CMYK c -> comps c = [cy; m; y; k] ->
  yields (@to_rgb_deep f32 (F32 o)) h p (fun d => ty d = RGB_DEEP /\
    channels [(1 - B2R cy) * (1 - B2R k); (1 - B2R m) * (1 - B2R k); (1 - B2R y) * (1 - B2R k)] (/ 4194304) d /\ m_alpha d = m_alpha c /\ rgb_space d = rgb_space c).
Proof. exact cmyk_back. Qed.
Print Assumptions C209_cmyk.
Example C209_hue : forall o k, (k = HSV \/ k = HSL \/ k = HCY) -> exists (h : heap f32) c x s v, at_addr h 0%nat c /\ @wf_color f32 (F32 o) k c /\
  comps c = [x; s; v] /\ B2R x = 200 /\ B2R s = 1 /\ B2R v = 1.
Proof. exact hue_exist. Qed.
Example C209_ink : forall o, exists (h : heap f32) c x y z k, at_addr h 0%nat c /\ @wf_color f32 (F32 o) CMYK c /\
  comps c = [x; y; z; k] /\ B2R x = 1 /\ B2R y = 0 /\ B2R z = 0 /\ B2R k = 0.
Proof. exact cmyk_exist. Qed.
