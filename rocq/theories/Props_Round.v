(** * Properties C36 - C50: round trips between colour types *)
From Coq Require Import ZArith QArith Qreals Reals Lra Lia List Bool.
From Flocq Require Import Core IEEE754.BinarySingleNaN.
From Verif Require Import Arith Outcome ColorModel GammaModel MatrixModel SpaceModel Heap Converter F32 RArith
  Spec Spec32 Spec_Matrix Spec_Space Spec_Conv Spec_Round.
From Verif Require Import Core2_Proofs NormalForms HueR_Proofs Round_Proofs Round2_Proofs Round3_Proofs RoundEx_Proofs.
Import ListNotations.
Local Open Scope R_scope.

(** [via go back h p P]: the two calls succeed and [P] holds of the two colours returned;
    [same_colour]: same type, components, alpha and RGB space. *)

(** C36 *)
Theorem C36_rgb : forall o (h : heap f32) p c r g b a, at_addr h p c -> @wf_color f32 (F32 o) RGB_TRUE c ->
  (0 <= r <= 255)%Z -> (0 <= g <= 255)%Z -> (0 <= b <= 255)%Z -> (0 <= a <= 255)%Z ->
  comp_sat c 0 (fun x => is_value x (IZR r)) -> comp_sat c 1 (fun x => is_value x (IZR g)) ->
  comp_sat c 2 (fun x => is_value x (IZR b)) -> is_value (@alpha f32 (F32 o) c) (IZR a) ->
  via (@to_rgb_deep f32 (F32 o)) (@to_rgb_true f32 (F32 o)) h p (fun m d => ty m = RGB_DEEP /\ ty d = RGB_TRUE /\
    comp_sat d 0 (fun x => is_value x (IZR r)) /\ comp_sat d 1 (fun x => is_value x (IZR g)) /\
    comp_sat d 2 (fun x => is_value x (IZR b)) /\ is_value (@alpha f32 (F32 o) d) (IZR a) /\ rgb_space d = rgb_space c).
Proof. exact true_deep_true. Qed.
Print Assumptions C36_rgb.
Theorem C36_grey : forall o (h : heap f32) p c g a, at_addr h p c -> @wf_color f32 (F32 o) GREY_TRUE c ->
  (0 <= g <= 255)%Z -> (0 <= a <= 255)%Z ->
  comp_sat c 0 (fun x => is_value x (IZR g)) -> is_value (@alpha f32 (F32 o) c) (IZR a) ->
  via (@to_grey_deep f32 (F32 o)) (@to_grey_true f32 (F32 o)) h p (fun m d => ty m = GREY_DEEP /\ ty d = GREY_TRUE /\
    comp_sat d 0 (fun x => is_value x (IZR g)) /\ is_value (@alpha f32 (F32 o) d) (IZR a) /\ rgb_space d = rgb_space c).
Proof. exact grey_true_deep_true. Qed.
Print Assumptions C36_grey.
Example C36_example : forall o, exists (h : heap f32) c, at_addr h 0%nat c /\ @wf_color f32 (F32 o) RGB_TRUE c /\
  comp_sat c 0 (fun x => is_value x 17) /\ comp_sat c 1 (fun x => is_value x 254) /\ comp_sat c 2 (fun x => is_value x 3) /\
  is_value (@alpha f32 (F32 o) c) 77.
Proof. exact true_example. Qed.

(** C37 *)
Theorem C37_cmyk : forall (h : heap R) p c r g b, at_addr h p c -> wf_color RGB_DEEP c -> comps c = [r; g; b] ->
  (r <> 0 \/ g <> 0 \/ b <> 0) -> via to_cmyk to_rgb_deep h p (fun m d => ty m = CMYK /\ same_colour c d).
Proof. exact cmyk_round. Qed.
Print Assumptions C37_cmyk.
Theorem C37_black : forall o (h : heap f32) p c, at_addr h p c -> @wf_color f32 (F32 o) RGB_DEEP c ->
  comp_sat c 0 (fun x => is_value x 0) -> comp_sat c 1 (fun x => is_value x 0) -> comp_sat c 2 (fun x => is_value x 0) ->
  via (@to_cmyk f32 (F32 o)) (@to_rgb_deep f32 (F32 o)) h p (fun m d => ty m = CMYK /\ comp_sat m 3 (fun x => is_value x 1) /\
    ty d = RGB_DEEP /\ comp_sat d 0 (fun x => is_value x 0) /\ comp_sat d 1 (fun x => is_value x 0) /\
    comp_sat d 2 (fun x => is_value x 0) /\ m_alpha d = m_alpha c /\ rgb_space d = rgb_space c).
Proof. exact cmyk_black. Qed.
Print Assumptions C37_black.
(** A colour for C37 - C40: (1/2, 1/4, 3/4) *)
Example C37_example : exists (h : heap R) c, at_addr h 0%nat c /\ wf_color RGB_DEEP c /\ comps c = [1 / 2; 1 / 4; 3 / 4] /\
  ~ near_360 (1 / 2) (1 / 4) (3 / 4).
Proof. exact rgb_example. Qed.

(** C38 *)
Theorem C38_hsv : forall (h : heap R) p c r g b, at_addr h p c -> wf_color RGB_DEEP c -> comps c = [r; g; b] ->
  ~ near_360 r g b -> via to_hsv to_rgb_deep h p (fun m d => ty m = HSV /\ same_colour c d).
Proof. exact hsv_round. Qed.
Print Assumptions C38_hsv.

(** C39: black comes back black, but with alpha 0 (see C34) *)
Theorem C39_hsl : forall (h : heap R) p c r g b, at_addr h p c -> wf_color RGB_DEEP c -> comps c = [r; g; b] ->
  ~ near_360 r g b -> via to_hsl to_rgb_deep h p
    (fun m d => ty m = HSL /\ comps d = comps c /\ ((r <> 0 \/ g <> 0 \/ b <> 0) -> same_colour c d)).
Proof. exact hsl_round. Qed.
Print Assumptions C39_hsl.

(** C40 *)
Theorem C40_hcy : forall (h : heap R) p c r g b, at_addr h p c -> wf_color RGB_DEEP c -> comps c = [r; g; b] ->
  ~ near_360 r g b -> via to_hcy to_rgb_deep h p (fun m d => ty m = HCY /\ same_colour c d).
Proof. exact hcy_round. Qed.
Print Assumptions C40_hcy.

(** C41: every colour with three positive channels that is not grey comes back with a
    channel equal to 0 *)
Theorem C41_hsi_refuted : forall (h : heap R) p c r g b, at_addr h p c -> wf_color RGB_DEEP c -> comps c = [r; g; b] ->
  0 < r -> 0 < g -> 0 < b -> ~ (r = g /\ g = b) ->
  via to_hsi to_rgb_deep h p (fun m d => exists i, nth_error (comps d) i = Some 0).
Proof. exact hsi_fails. Qed.
Print Assumptions C41_hsi_refuted.
Theorem C41_hsi_partial : forall (h : heap R) p c r g b, at_addr h p c -> wf_color RGB_DEEP c -> comps c = [r; g; b] ->
  ~ near_360 r g b -> (r = 0 \/ g = 0 \/ b = 0 \/ (r = g /\ g = b)) ->
  via to_hsi to_rgb_deep h p (fun m d => ty m = HSI /\ same_colour c d).
Proof. exact hsi_round. Qed.
Print Assumptions C41_hsi_partial.
Example C41_example : exists (h : heap R) c, at_addr h 0%nat c /\ wf_color RGB_DEEP c /\ comps c = [1 / 2; 0; 3 / 4] /\
  ~ near_360 (1 / 2) 0 (3 / 4).
Proof. exact hsi_example. Qed.

(** C42: none of these colours survives *)
Theorem C42_near_360_refuted : forall (h : heap R) p c r g b, at_addr h p c -> wf_color RGB_DEEP c -> comps c = [r; g; b] ->
  near_360 r g b -> g + (r - g) / 60 <> b /\
  via to_hsv to_rgb_deep h p (fun m d => comps d = [r; g; g + (r - g) / 60]).
Proof. exact hsv_near. Qed.
Print Assumptions C42_near_360_refuted.
Example C42_example : exists (h : heap R) c, at_addr h 0%nat c /\ wf_color RGB_DEEP c /\ comps c = [1; 0; 1 / 120] /\ near_360 1 0 (1 / 120).
Proof. exact near_example. Qed.

(** C43 *)
Theorem C43_hsv_hsl : forall (h : heap R) p c x s v, at_addr h p c -> wf_color HSV c -> comps c = [x; s; v] -> v <> 0 ->
  exists rgb, yields to_rgb_deep h p (fun d => comps d = rgb) /\
    via to_hsl to_rgb_deep h p (fun m d => ty m = HSL /\ comps d = rgb).
Proof. exact hsv_hsl_agree. Qed.
Print Assumptions C43_hsv_hsl.
Example C43_example : exists (h : heap R) c, at_addr h 0%nat c /\ wf_color HSV c /\ comps c = [200; 1 / 2; 3 / 4].
Proof. exact hsv_example. Qed.

(** C44: HSL (0, 1/2, 1/4) *)
Theorem C44_hsl_hsv_refuted : exists (h : heap R) p c, at_addr h p c /\ wf_color HSL c /\ comps c = [0; 1 / 2; 1 / 4] /\
  yields to_rgb_deep h p (fun d => comps d = [3 / 8; 1 / 8; 1 / 8]) /\
  via to_hsv to_rgb_deep h p (fun m d => comps d = [1 / 2; 0; 0]).
Proof. exact hsl_hsv_disagree. Qed.
Print Assumptions C44_hsl_hsv_refuted.

(** C45 *)
Theorem C45_xyy : forall (h : heap R) p c x y z, at_addr h p c -> wf_color XYZ c -> comps c = [x; y; z] -> 0 < y ->
  via to_xyy to_xyz h p (fun m d => ty m = XYY /\ comps m = [x / (x + y + z); y / (x + y + z); y] /\ same_colour c d).
Proof. exact xyy_round. Qed.
Print Assumptions C45_xyy.
Theorem C45_black : forall (h : heap R) p c w, at_addr h p c -> wf_color XYZ c -> comps c = [0; 0; 0] ->
  white_of h c w -> 0 <= cx w <= 1 -> 0 <= cy w <= 1 ->
  via to_xyy to_xyz h p (fun m d => ty m = XYY /\ comps m = [cx w; cy w; 0] /\ same_colour c d).
Proof. exact xyy_black. Qed.
Print Assumptions C45_black.

(** C46 *)
Theorem C46_lab : forall (h : heap R) p c w x y z, at_addr h p c -> wf_color XYZ c -> comps c = [x; y; z] -> white_of h c w ->
  0 < tx w -> 0 < ty_ w -> 0 < tz w -> 0 <= m_alpha c <= 1 ->
  cie_L w y <= 100 -> -128 <= cie_a w x y <= 128 -> -128 <= cie_b w y z <= 128 ->
  via to_lab to_xyz h p (fun m d => ty m = LAB /\ comps m = [cie_L w y; cie_a w x y; cie_b w y z] /\ same_colour c d).
Proof. exact lab_round. Qed.
Print Assumptions C46_lab.
(** A colour for C45 - C47, with the D65 white point; its relative X is 1/500 and its Y is
    1/1000, so that C47's conclusion contradicts the identity. *)
Example C46_example : exists (h : heap R) c w x y z, at_addr h 0%nat c /\ wf_color XYZ c /\ comps c = [x; y; z] /\ white_of h c w /\
  0 < y /\ 0 < tx w /\ 0 < ty_ w /\ 0 < tz w /\ 0 <= m_alpha c <= 1 /\
  cie_L w y <= 100 /\ -128 <= cie_a w x y <= 128 /\ -128 <= cie_b w y z <= 128 /\ x / ty_ w <= 0.008856 /\ x / ty_ w <> y /\
  0 <= cx w <= 1 /\ 0 <= cy w <= 1.
Proof. exact xyz_example. Qed.

(** C47: the Y that comes back is X divided by the white point's Y *)
Theorem C47_luv_refuted : forall (h : heap R) p c w x y z, at_addr h p c -> wf_color XYZ c -> comps c = [x; y; z] -> white_of h c w ->
  0 < ty_ w -> (x / ty_ w <= 0.008856 \/ 0.0089 <= x / ty_ w <= 1) ->
  via to_cieluv to_xyz h p (fun m d => ty m = CIELUV /\ nth_error (comps d) 1 = Some (x / ty_ w)).
Proof. exact luv_round. Qed.
Print Assumptions C47_luv_refuted.

(** C48: e.g. Lab (50, 0, 0) comes back as (50, 50, 0) *)
Theorem C48_lch_refuted : forall (h : heap R) p c l a, at_addr h p c -> wf_color LAB c -> comps c = [l; a; 0] -> 0 <= a ->
  via to_lch_ab to_lab h p (fun m d => ty m = LCH_AB /\ comps d = [l; (a + 128) * 100 / 256; 0]).
Proof. exact lch_round. Qed.
Print Assumptions C48_lch_refuted.
Example C48_example : exists (h : heap R) c, at_addr h 0%nat c /\ wf_color LAB c /\ comps c = [50; 0; 0].
Proof. exact lab_example. Qed.

(** C49 *)
Theorem C49_grey_deep : forall (h : heap R) p c, at_addr h p c -> wf_color GREY_DEEP c ->
  via to_rgb_deep to_grey_deep h p (fun m d => ty m = RGB_DEEP /\ same_colour c d).
Proof. exact grey_rgb_deep. Qed.
Print Assumptions C49_grey_deep.
Theorem C49_grey_true : forall (h : heap R) p c, at_addr h p c -> wf_color GREY_TRUE c -> 0 <= m_alpha c <= 1 ->
  via to_rgb_true to_grey_true h p (fun m d => ty m = RGB_TRUE /\ same_colour c d).
Proof. exact grey_rgb_true. Qed.
Print Assumptions C49_grey_true.
Theorem C49_rgb_deep : forall (h : heap R) p c v, at_addr h p c -> wf_color RGB_DEEP c -> comps c = [v; v; v] ->
  via to_grey_deep to_rgb_deep h p (fun m d => ty m = GREY_DEEP /\ same_colour c d).
Proof. exact rgb_grey_deep. Qed.
Print Assumptions C49_rgb_deep.
Theorem C49_rgb_true : forall (h : heap R) p c v, at_addr h p c -> wf_color RGB_TRUE c -> comps c = [v; v; v] -> 0 <= m_alpha c <= 1 ->
  via to_grey_true to_rgb_true h p (fun m d => ty m = GREY_TRUE /\ same_colour c d).
Proof. exact rgb_grey_true. Qed.
Print Assumptions C49_rgb_true.
Theorem C49_once : forall (h : heap R) p c, at_addr h p c -> wf_color RGB_DEEP c ->
  exists q g h1, to_grey_deep (Some p) h = (Ok (Some q), h1) /\ at_addr h1 q g /\ ty g = GREY_DEEP /\
    via to_rgb_deep to_grey_deep h1 q (fun m d => same_colour g d).
Proof. exact grey_once. Qed.
Print Assumptions C49_once.
Example C49_example : exists (h : heap R) c, at_addr h 0%nat c /\ wf_color RGB_TRUE c /\ comps c = [100; 100; 100] /\ 0 <= m_alpha c <= 1.
Proof. exact grey_example. Qed.

(** C50 *)
Theorem C50_xyz : forall (h : heap R) p c i s gam r g b lr lg lb x y z, at_addr h p c -> wf_color RGB_DEEP c -> comps c = [r; g; b] ->
  rgb_space c = Some i -> nth_error (spaces h) i = Some s -> proper s -> s_gamma s = Some gam ->
  [lr; lg; lb] = map (inverse_gamma_correction gam) [r; g; b] ->
  0 <= lr <= 1 -> 0 <= lg <= 1 -> 0 <= lb <= 1 ->
  map (gamma_correction gam) [lr; lg; lb] = [r; g; b] ->
  mulvec (s_matrix s) [lr; lg; lb] = Ok [x; y; z] -> 0 <= x <= 100 -> 0 <= y <= 100 -> 0 <= z <= 100 ->
  via to_xyz to_rgb_deep h p (fun m d => ty m = XYZ /\ comps m = [x; y; z] /\ same_colour c d).
Proof. exact xyz_round. Qed.
Print Assumptions C50_xyz.
(** White in the Adobe RGB space satisfies the hypotheses. *)
Example C50_example : exists (h : heap R) c s x y z, at_addr h 0%nat c /\ wf_color RGB_DEEP c /\ comps c = [1; 1; 1] /\
  rgb_space c = Some 0%nat /\ nth_error (spaces h) 0 = Some s /\ proper s /\ s_gamma s = Some gammaAdobe /\
  [1; 1; 1] = map (inverse_gamma_correction gammaAdobe) [1; 1; 1] /\
  map (gamma_correction gammaAdobe) [1; 1; 1] = [1; 1; 1] /\
  mulvec (s_matrix s) [1; 1; 1] = Ok [x; y; z] /\ 0 <= x <= 100 /\ 0 <= y <= 100 /\ 0 <= z <= 100.
Proof. exact rgb_xyz_example. Qed.
