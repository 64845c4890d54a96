(** * Properties: conversions are the published formulas (exact arithmetic) *)
From Coq Require Import ZArith Reals List.
From Verif Require Import Arith Outcome ColorModel SpaceModel Heap Converter RArith
  Spec Core2_Proofs Spec_Conv Spec_Round Spec_Formula RoundEx_Proofs Formula_Proofs Formula2_Proofs Formula3_Proofs FormulaEx_Proofs Grey_Proofs.
Import ListNotations.
Local Open Scope R_scope.

(** C136: the hue is cut at 359 degrees, see C42 *)
Theorem C136_hsv : forall (h : heap R) p c r g b, at_addr h p c -> wf_color RGB_DEEP c -> comps c = [r; g; b] ->
  yields to_hsv h p (fun m => ty m = HSV /\
    comps m = [Rmin (hexagon_hue r g b) 359;
               (if Req_EM_T (largest r g b) 0 then 0 else (largest r g b - smallest r g b) / largest r g b);
               largest r g b] /\ m_alpha m = m_alpha c /\ rgb_space m = rgb_space c).
Proof. exact hsv_published. Qed.
Print Assumptions C136_hsv.
Theorem C136_hsl : forall (h : heap R) p c r g b, at_addr h p c -> wf_color RGB_DEEP c -> comps c = [r; g; b] ->
  yields to_hsl h p (fun m => ty m = HSL /\
    comps m = [Rmin (hexagon_hue r g b) 359;
               (if Req_EM_T (largest r g b) (smallest r g b) then 0
                else (largest r g b - smallest r g b) / (1 - Rabs (largest r g b + smallest r g b - 1)));
               (largest r g b + smallest r g b) / 2] /\ m_alpha m = m_alpha c /\ rgb_space m = rgb_space c).
Proof. exact hsl_published. Qed.
Print Assumptions C136_hsl.
Theorem C136_hsi : forall (h : heap R) p c r g b, at_addr h p c -> wf_color RGB_DEEP c -> comps c = [r; g; b] ->
  yields to_hsi h p (fun m => ty m = HSI /\
    comps m = [Rmin (hexagon_hue r g b) 359;
               (if Req_EM_T (r + g + b) 0 then 0 else 1 - smallest r g b / ((r + g + b) / 3));
               (r + g + b) / 3] /\ m_alpha m = m_alpha c /\ rgb_space m = rgb_space c).
Proof. exact hsi_published. Qed.
Print Assumptions C136_hsi.
Theorem C136_hcy : forall (h : heap R) p c r g b, at_addr h p c -> wf_color RGB_DEEP c -> comps c = [r; g; b] ->
  yields to_hcy h p (fun m => ty m = HCY /\
    comps m = [Rmin (hexagon_hue r g b) 359; largest r g b - smallest r g b; luma709 r g b] /\ m_alpha m = m_alpha c /\ rgb_space m = rgb_space c).
Proof. exact hcy_published. Qed.
Print Assumptions C136_hcy.
Theorem C136_cmyk : forall (h : heap R) p c r g b, at_addr h p c -> wf_color RGB_DEEP c -> comps c = [r; g; b] ->
  (r <> 0 \/ g <> 0 \/ b <> 0) -> yields to_cmyk h p (fun m => ty m = CMYK /\
    (forall k, k = 1 - largest r g b -> comps m = [(1 - r - k) / (1 - k); (1 - g - k) / (1 - k); (1 - b - k) / (1 - k); k]) /\
    m_alpha m = m_alpha c /\ rgb_space m = rgb_space c).
Proof. exact cmyk_published. Qed.
Print Assumptions C136_cmyk.
Example C136_example : exists (h : heap R) c, at_addr h 0%nat c /\ wf_color RGB_DEEP c /\ comps c = [1 / 2; 1 / 4; 3 / 4] /\
  ~ near_360 (1 / 2) (1 / 4) (3 / 4).
Proof. exact rgb_example. Qed.

(** C137 *)
Theorem C137_hsv : forall (h : heap R) p c x s v, at_addr h p c -> comps c = [x; s; v] -> wf_color HSV c ->
  yields to_rgb_deep h p (fun d => ty d = RGB_DEEP /\ comps d = lifted (hexagon_rgb x (v * s)) (v - v * s) /\ m_alpha d = m_alpha c /\ rgb_space d = rgb_space c).
Proof. exact from_hsv. Qed.
Print Assumptions C137_hsv.
Theorem C137_hsl : forall (h : heap R) p c x s l, at_addr h p c -> comps c = [x; s; l] -> wf_color HSL c ->
  forall C, C = (1 - Rabs (2 * l - 1)) * s ->
  yields to_rgb_deep h p (fun d => ty d = RGB_DEEP /\ comps d = lifted (hexagon_rgb x C) (l - C / 2) /\
    (l <> 0 -> m_alpha d = m_alpha c) /\ rgb_space d = rgb_space c).
Proof. exact from_hsl. Qed.
Print Assumptions C137_hsl.
Theorem C137_hcy : forall (h : heap R) p c x s y, at_addr h p c -> comps c = [x; s; y] -> wf_color HCY c ->
  yields to_rgb_deep h p (fun d => ty d = RGB_DEEP /\
    (forall r g b, hexagon_rgb x s = (r, g, b) -> comps d = map (cut 0 1) (lifted (r, g, b) (y - luma709 r g b))) /\ m_alpha d = m_alpha c /\ rgb_space d = rgb_space c).
Proof. exact from_hcy. Qed.
Print Assumptions C137_hcy.
Theorem C137_cmyk : forall (h : heap R) p c cy m y k, at_addr h p c -> wf_color CMYK c -> comps c = [cy; m; y; k] ->
  yields to_rgb_deep h p (fun d => ty d = RGB_DEEP /\
    comps d = [(1 - cy) * (1 - k); (1 - m) * (1 - k); (1 - y) * (1 - k)] /\ m_alpha d = m_alpha c /\ rgb_space d = rgb_space c).
Proof. exact from_cmyk. Qed.
Print Assumptions C137_cmyk.
Example C137_example : forall X, has_hue X = true ->
  exists (h : heap R) c, at_addr h 0%nat c /\ wf_color X c /\ comps c = [200; 1 / 2; 3 / 4] /\ 0 <= m_alpha c <= 1.
Proof. exact hue_example. Qed.
Example C137_example_cmyk : exists (h : heap R) c, at_addr h 0%nat c /\ wf_color CMYK c /\
  comps c = [1 / 5; 2 / 5; 3 / 5; 1 / 10] /\ 0 <= m_alpha c <= 1.
Proof. exact cmyk_example. Qed.

(** C138: the term i (1 - s) of the published formula is missing in every channel; see C137_example for a colour *)
Theorem C138_hsi_refuted : forall (h : heap R) p c x s i, at_addr h p c -> comps c = [x; s; i] -> wf_color HSI c -> s <> 0 ->
  yields to_rgb_deep h p (fun d => ty d = RGB_DEEP /\
    comps d = map (fun y => cut 0 1 (y - i * (1 - s))) (hsi_rgb x s i) /\
    (s < 1 -> 0 < i -> comps d <> map (cut 0 1) (hsi_rgb x s i)) /\ m_alpha d = m_alpha c /\ rgb_space d = rgb_space c).
Proof. exact from_hsi_refuted. Qed.
Print Assumptions C138_hsi_refuted.
Theorem C138_hsi_partial : forall (h : heap R) p c x s i, at_addr h p c -> comps c = [x; s; i] -> wf_color HSI c ->
  s = 0 \/ s = 1 \/ i = 0 ->
  yields to_rgb_deep h p (fun d => ty d = RGB_DEEP /\ comps d = map (cut 0 1) (hsi_rgb x s i) /\ m_alpha d = m_alpha c /\ rgb_space d = rgb_space c).
Proof. exact from_hsi_ok. Qed.
Print Assumptions C138_hsi_partial.

(** C139 *)
Theorem C139_grey_deep : forall (h : heap R) p c r g b, at_addr h p c -> wf_color RGB_DEEP c -> comps c = [r; g; b] ->
  yields to_grey_deep h p (fun m => ty m = GREY_DEEP /\ comps m = [(r + g + b) / 3] /\
    m_alpha m = m_alpha c /\ rgb_space m = rgb_space c).
Proof. exact grey_published. Qed.
Print Assumptions C139_grey_deep.
Theorem C139_grey_true : forall (h : heap R) p c r g b, at_addr h p c -> wf_color RGB_TRUE c -> comps c = [r; g; b] -> 0 <= m_alpha c <= 1 ->
  yields to_grey_true h p (fun m => ty m = GREY_TRUE /\ comps m = [(r + g + b) / 3] /\ m_alpha m = m_alpha c /\ rgb_space m = rgb_space c).
Proof. exact grey_true_published. Qed.
Print Assumptions C139_grey_true.
Theorem C139_true_deep : forall (h : heap R) p c r g b, at_addr h p c -> wf_color RGB_TRUE c -> comps c = [r; g; b] -> 
  yields to_rgb_deep h p (fun d => ty d = RGB_DEEP /\ comps d = [r / 255; g / 255; b / 255] /\ m_alpha d = m_alpha c /\ rgb_space d = rgb_space c).
Proof. exact from_true. Qed.
Print Assumptions C139_true_deep.
Theorem C139_deep_true : forall (h : heap R) p c r g b, at_addr h p c -> wf_color RGB_DEEP c -> comps c = [r; g; b] ->
  0 <= m_alpha c <= 1 ->
  yields to_rgb_true h p (fun d => ty d = RGB_TRUE /\
    (exists r' g' b', comps d = [r'; g'; b'] /\ nearest_byte r r' /\ nearest_byte g g' /\ nearest_byte b b') /\
    nearest_byte (m_alpha c) (alpha d) /\ rgb_space d = rgb_space c).
Proof. exact from_deep. Qed.
Print Assumptions C139_deep_true.
Theorem C139_grey_true_rgb_true : forall (h : heap R) p c v, at_addr h p c -> comps c = [v] -> wf_color GREY_TRUE c -> 0 <= m_alpha c <= 1 ->
  yields to_rgb_true h p (fun d => ty d = RGB_TRUE /\ comps d = [v; v; v] /\ m_alpha d = m_alpha c /\
    rgb_space d = rgb_space c).
Proof. exact grey_true_rgb_true. Qed.
Print Assumptions C139_grey_true_rgb_true.
Theorem C139_grey_true_rgb_deep : forall (h : heap R) p c v, at_addr h p c -> comps c = [v] -> wf_color GREY_TRUE c ->
  yields to_rgb_deep h p (fun d => ty d = RGB_DEEP /\ comps d = [v / 255; v / 255; v / 255] /\ m_alpha d = m_alpha c /\
    rgb_space d = rgb_space c).
Proof. exact grey_true_rgb_deep. Qed.
Print Assumptions C139_grey_true_rgb_deep.
Theorem C139_grey_true_grey_deep : forall (h : heap R) p c v, at_addr h p c -> comps c = [v] -> wf_color GREY_TRUE c ->
  yields to_grey_deep h p (fun d => ty d = GREY_DEEP /\ comps d = [v / 255] /\ m_alpha d = m_alpha c /\
    rgb_space d = rgb_space c).
Proof. exact grey_true_grey_deep. Qed.
Print Assumptions C139_grey_true_grey_deep.
Theorem C139_grey_deep_rgb_deep : forall (h : heap R) p c v, at_addr h p c -> comps c = [v] -> wf_color GREY_DEEP c ->
  yields to_rgb_deep h p (fun d => ty d = RGB_DEEP /\ comps d = [v; v; v] /\ m_alpha d = m_alpha c /\
    rgb_space d = rgb_space c).
Proof. exact grey_deep_rgb_deep. Qed.
Print Assumptions C139_grey_deep_rgb_deep.
Theorem C139_grey_deep_rgb_true : forall (h : heap R) p c v, at_addr h p c -> comps c = [v] -> wf_color GREY_DEEP c -> 0 <= m_alpha c <= 1 ->
  yields to_rgb_true h p (fun d => ty d = RGB_TRUE /\ (exists n, comps d = [n; n; n] /\ nearest_byte v n) /\ nearest_byte (m_alpha c) (alpha d) /\
    rgb_space d = rgb_space c).
Proof. exact grey_deep_rgb_true. Qed.
Print Assumptions C139_grey_deep_rgb_true.
Theorem C139_grey_deep_grey_true : forall (h : heap R) p c v, at_addr h p c -> comps c = [v] -> wf_color GREY_DEEP c -> 0 <= m_alpha c <= 1 ->
  yields to_grey_true h p (fun d => ty d = GREY_TRUE /\ (exists n, comps d = [n] /\ nearest_byte v n) /\ nearest_byte (m_alpha c) (alpha d) /\
    rgb_space d = rgb_space c).
Proof. exact grey_deep_grey_true. Qed.
Print Assumptions C139_grey_deep_grey_true.
Theorem C139_rgb_true_grey_deep : forall (h : heap R) p c r g b, at_addr h p c -> comps c = [r; g; b] -> 0 <= m_alpha c <= 1 -> wf_color RGB_TRUE c ->
  yields to_grey_deep h p (fun d => ty d = GREY_DEEP /\ comps d = [(r + g + b) / 3 / 255] /\ m_alpha d = m_alpha c /\
    rgb_space d = rgb_space c).
Proof. exact rgb_true_grey_deep. Qed.
Print Assumptions C139_rgb_true_grey_deep.
Theorem C139_rgb_deep_grey_true : forall (h : heap R) p c r g b, at_addr h p c -> comps c = [r; g; b] -> 0 <= m_alpha c <= 1 -> wf_color RGB_DEEP c ->
  yields to_grey_true h p (fun d => ty d = GREY_TRUE /\ (exists r' g' b', comps d = [(r' + g' + b') / 3] /\ nearest_byte r r' /\ nearest_byte g g' /\ nearest_byte b b') /\
    nearest_byte (m_alpha c) (alpha d) /\
    rgb_space d = rgb_space c).
Proof. exact rgb_deep_grey_true. Qed.
Print Assumptions C139_rgb_deep_grey_true.
Example C139_grey_deep_example : exists (h : heap R) c, at_addr h 0%nat c /\ wf_color GREY_DEEP c /\ comps c = [1 / 4] /\ 0 <= m_alpha c <= 1.
Proof. exact grey_deep_example. Qed.
Example C139_grey_true_example : exists (h : heap R) c, at_addr h 0%nat c /\ wf_color GREY_TRUE c /\ comps c = [100] /\ 0 <= m_alpha c <= 1.
Proof. exact grey_true_example. Qed.
Example C139_example : exists (h : heap R) c, at_addr h 0%nat c /\ wf_color RGB_TRUE c /\ comps c = [100; 100; 100] /\ 0 <= m_alpha c <= 1.
Proof. exact grey_example. Qed.

(** C140: for Lab (50, 0, 20) the chroma is 20 and the hue 90 degrees, but the result
    has chroma 57.8 and hue 1.57 *)
Theorem C140_lab_refuted : forall (h : heap R) p c l a b, at_addr h p c -> wf_color LAB c -> comps c = [l; a; b] ->
  yields to_lch_ab h p (fun m => exists ch hue, comps m = [l; ch; hue] /\ 50 <= ch /\ (hue <= PI \/ 360 - PI <= hue) /\
    (a * a + b * b < 2500 -> ~ polar a b ch hue)).
Proof. exact lch_ab_hues. Qed.
Print Assumptions C140_lab_refuted.
Theorem C140_lab_deviation : forall (h : heap R) p c l a b, at_addr h p c -> wf_color LAB c -> comps c = [l; a; b] ->
  yields to_lch_ab h p (fun m => ty m = LCH_AB /\ (exists r t, 0 <= r /\ - PI < t <= PI /\ a = r * cos t /\ b = r * sin t /\
      comps m = [l; cut 0 100 ((r + 128) * (100 / 256)); cut 0 359 (if Rlt_dec t 0 then t + 360 else t)]) /\
    m_alpha m = cut 0 1 (m_alpha c) /\ rgb_space m = rgb_space c).
Proof. exact lch_ab_exact. Qed.
Print Assumptions C140_lab_deviation.
Theorem C140_luv_refuted : forall (h : heap R) p c l a b, at_addr h p c -> wf_color CIELUV c -> comps c = [l; a; b] ->
  yields to_lch_uv h p (fun m => exists ch hue, comps m = [l; ch; hue] /\ 50 <= ch /\ (hue <= PI \/ 360 - PI <= hue) /\
    (a * a + b * b < 2500 -> ~ polar a b ch hue)).
Proof. exact lch_uv_hues. Qed.
Print Assumptions C140_luv_refuted.
Theorem C140_luv_deviation : forall (h : heap R) p c l a b, at_addr h p c -> wf_color CIELUV c -> comps c = [l; a; b] ->
  yields to_lch_uv h p (fun m => ty m = LCH_UV /\ (exists r t, 0 <= r /\ - PI < t <= PI /\ a = r * cos t /\ b = r * sin t /\
      comps m = [l; cut 0 100 ((r + 100) * (100 / 200)); cut 0 359 (if Rlt_dec t 0 then t + 360 else t)]) /\
    m_alpha m = cut 0 1 (m_alpha c) /\ rgb_space m = rgb_space c).
Proof. exact lch_uv_exact. Qed.
Print Assumptions C140_luv_deviation.
Example C140_example : exists (h : heap R) c, at_addr h 0%nat c /\ wf_color LAB c /\ comps c = [50; 0; 20] /\ 0 <= m_alpha c <= 1.
Proof. exact lab20_example. Qed.
Example C140_example_luv : exists (h : heap R) c, at_addr h 0%nat c /\ wf_color CIELUV c /\ comps c = [50; 0; 20] /\ 0 <= m_alpha c <= 1.
Proof. exact luv20_example. Qed.

(** C141 *)
Theorem C141_lab : forall (h : heap R) p c l ch hue, at_addr h p c -> wf_color LCH_AB c -> comps c = [l; ch; hue] ->
  yields to_lab h p (fun m => ty m = LAB /\ (exists a b, comps m = [l; a; b] /\ polar a b ch hue) /\
    m_alpha m = cut 0 1 (m_alpha c) /\ rgb_space m = rgb_space c).
Proof. exact from_lch_ab. Qed.
Print Assumptions C141_lab.
Theorem C141_luv : forall (h : heap R) p c l ch hue, at_addr h p c -> wf_color LCH_UV c -> comps c = [l; ch; hue] ->
  yields to_cieluv h p (fun m => ty m = CIELUV /\ (exists a b, comps m = [l; a; b] /\ polar a b ch hue) /\
    m_alpha m = cut 0 1 (m_alpha c) /\ rgb_space m = rgb_space c).
Proof. exact from_lch_uv. Qed.
Print Assumptions C141_luv.
Example C141_example : exists (h : heap R) c, at_addr h 0%nat c /\ wf_color LCH_AB c /\ comps c = [50; 40; 90] /\ 0 <= m_alpha c <= 1.
Proof. exact lch_example. Qed.

(** C142 *)
Theorem C142_to_lab : forall (h : heap R) p c w x y z, at_addr h p c -> wf_color XYZ c -> comps c = [x; y; z] -> white_of h c w ->
  0 < tx w -> 0 < ty_ w -> 0 < tz w ->
  yields to_lab h p (fun m => ty m = LAB /\
    comps m = [cut 0 100 (cie_L w y); cut (-128) 128 (cie_a w x y); cut (-128) 128 (cie_b w y z)] /\ m_alpha m = cut 0 1 (m_alpha c) /\ rgb_space m = rgb_space c).
Proof. exact to_lab_cut. Qed.
Print Assumptions C142_to_lab.
Theorem C142_from_lab : forall (h : heap R) p c w l a b, at_addr h p c -> wf_color LAB c -> comps c = [l; a; b] -> white_of h c w ->
  yields to_xyz h p (fun m => ty m = XYZ /\ (forall f, f = (l + 16) / 116 -> comps m =
    [cut 0 100 (tx w * cie_f_inverse (f + a / 500)); cut 0 100 (ty_ w * cie_f_inverse f);
     cut 0 100 (tz w * cie_f_inverse (f - b / 200))]) /\ m_alpha m = cut 0 1 (m_alpha c) /\ rgb_space m = rgb_space c).
Proof. exact from_lab. Qed.
Print Assumptions C142_from_lab.
Example C142_example : exists (h : heap R) c w, at_addr h 0%nat c /\ wf_color XYZ c /\ comps c = [tx w; ty_ w; tz w] /\ white_of h c w /\
  0 < tx w /\ 0 < ty_ w /\ 0 < tz w.
Proof. exact white_example. Qed.
Example C142_example_lab : exists (h : heap R) c w, at_addr h 0%nat c /\ wf_color LAB c /\ comps c = [50; 0; 20] /\ white_of h c w.
Proof. exact lab_white_example. Qed.

(** C143: the colour of the white point should be (100, 0, 0); C142_example gives one *)
Theorem C143_luv_refuted : forall (h : heap R) p c w, at_addr h p c -> wf_color XYZ c -> comps c = [tx w; ty_ w; tz w] -> white_of h c w ->
  0 < tx w -> 0 < ty_ w -> 0 < tz w ->
  yields to_cieluv h p (fun m => exists l u v, comps m = [l; u; v] /\ u = 0 /\ 0 < v) /\
  luv_of w (tx w) (ty_ w) (tz w) = [100; 0; 0].
Proof. exact luv_white. Qed.
Print Assumptions C143_luv_refuted.
Theorem C143_luv_deviation : forall (h : heap R) p c w x y z, at_addr h p c -> wf_color XYZ c -> comps c = [x; y; z] -> white_of h c w -> 0 < ty_ w ->
  yields to_cieluv h p (fun m => ty m = CIELUV /\ (forall l, l = lightness (x / ty_ w) -> comps m =
    [cut 0 100 l; cut (-100) 100 (13 * l * (ucs_u x y z - ucs_u (tx w) (ty_ w) (tz w)));
     cut (-100) 100 (13 * l * (ucs_v x y z - 4 / 9 * ucs_v (tx w) (ty_ w) (tz w)))]) /\
    m_alpha m = m_alpha c /\ rgb_space m = rgb_space c).
Proof. exact luv_code. Qed.
Print Assumptions C143_luv_deviation.

(** C144 *)
Theorem C144_luv : forall (h : heap R) p c w l u v u' v', at_addr h p c -> wf_color CIELUV c -> comps c = [l; u; v] -> white_of h c w -> 0 < l ->
  u' = u / (13 * l) + ucs_u (tx w) (ty_ w) (tz w) -> v' = v / (13 * l) + ucs_v (tx w) (ty_ w) (tz w) -> u' <> 0 -> v' <> 0 ->
  yields to_xyz h p (fun m => ty m = XYZ /\ comps m = map (cut 0 100) (xyz_of_luv w l u v) /\
    m_alpha m = m_alpha c /\ rgb_space m = rgb_space c).
Proof. exact from_luv. Qed.
Print Assumptions C144_luv.
Example C144_example : exists (h : heap R) c w u' v', at_addr h 0%nat c /\ wf_color CIELUV c /\ comps c = [50; 0; 0] /\ white_of h c w /\
  u' = 0 / (13 * 50) + ucs_u (tx w) (ty_ w) (tz w) /\ v' = 0 / (13 * 50) + ucs_v (tx w) (ty_ w) (tz w) /\ u' <> 0 /\ v' <> 0.
Proof. exact luv_example. Qed.

