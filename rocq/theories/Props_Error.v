(** * Properties C149 - C152: round trips in binary32, with the rounding errors *)
From Coq Require Import ZArith QArith Reals Lra Lia List Bool.
From Flocq Require Import Core IEEE754.BinarySingleNaN.
From Verif Require Import Arith Outcome ColorModel GammaModel MatrixModel SpaceModel Heap Converter F32 RArith
  Spec Spec32 Spec_Matrix Spec_Conv Spec_Round Spec_Error.
From Verif Require Import Error7_Proofs Error8_Proofs.
Import ListNotations.
Local Open Scope R_scope.

(** C149: [approx v e x]: the float x is within e of v; [blue_back]: the blue channel of
    the exact round trip. The results hold for every implementation of the libm functions. *)
Theorem C149_hsv : forall o (h : heap f32) p c r g b, at_addr h p c -> @wf_color f32 (F32 o) RGB_DEEP c -> comps c = [r; g; b] ->
  via (@to_hsv f32 (F32 o)) (@to_rgb_deep f32 (F32 o)) h p (fun m d => ty m = HSV /\ ty d = RGB_DEEP /\
    comp_sat d 0 (approx (B2R r) (/ 262144)) /\ comp_sat d 1 (approx (B2R g) (/ 262144)) /\
    comp_sat d 2 (approx (blue_back (B2R r) (B2R g) (B2R b)) (/ 262144)) /\ m_alpha d = m_alpha c /\ rgb_space d = rgb_space c).
Proof. exact deep_hsv'. Qed.
Print Assumptions C149_hsv.
(** HSL loses the alpha of black (C34), also in floats of colours that are almost black *)
Theorem C149_hsl : forall o (h : heap f32) p c r g b, at_addr h p c -> @wf_color f32 (F32 o) RGB_DEEP c -> comps c = [r; g; b] ->
  via (@to_hsl f32 (F32 o)) (@to_rgb_deep f32 (F32 o)) h p (fun m d => ty m = HSL /\ ty d = RGB_DEEP /\
    comp_sat d 0 (approx (B2R r) (/ 131072)) /\ comp_sat d 1 (approx (B2R g) (/ 131072)) /\
    comp_sat d 2 (approx (blue_back (B2R r) (B2R g) (B2R b)) (/ 131072)) /\
    (/ 2097152 <= B2R r \/ / 2097152 <= B2R g \/ / 2097152 <= B2R b -> m_alpha d = m_alpha c) /\ rgb_space d = rgb_space c).
Proof. exact deep_hsl. Qed.
Print Assumptions C149_hsl.
(** HCY keeps the luma, so when the hue is cut the channels move by the luma of the change *)
Theorem C149_hcy : forall o (h : heap f32) p c r g b, at_addr h p c -> @wf_color f32 (F32 o) RGB_DEEP c -> comps c = [r; g; b] ->
  via (@to_hcy f32 (F32 o)) (@to_rgb_deep f32 (F32 o)) h p (fun m d =>
    let B := blue_back (B2R r) (B2R g) (B2R b) in let s := 722 / 10000 * (B - B2R b) in ty m = HCY /\ ty d = RGB_DEEP /\
    comp_sat d 0 (approx (Rmax 0 (B2R r - s)) (/ 131072)) /\ comp_sat d 1 (approx (Rmax 0 (B2R g - s)) (/ 131072)) /\
    comp_sat d 2 (approx (Rmax 0 (B - s)) (/ 131072)) /\ m_alpha d = m_alpha c /\ rgb_space d = rgb_space c).
Proof. exact deep_hcy'. Qed.
Print Assumptions C149_hcy.
Theorem C149_cmyk : forall o (h : heap f32) p c r g b, at_addr h p c -> @wf_color f32 (F32 o) RGB_DEEP c -> comps c = [r; g; b] ->
  via (@to_cmyk f32 (F32 o)) (@to_rgb_deep f32 (F32 o)) h p (fun m d => ty m = CMYK /\ ty d = RGB_DEEP /\
    comp_sat d 0 (approx (B2R r) (/ 262144)) /\ comp_sat d 1 (approx (B2R g) (/ 262144)) /\
    comp_sat d 2 (approx (B2R b) (/ 262144)) /\ m_alpha d = m_alpha c /\ rgb_space d = rgb_space c).
Proof. exact deep_cmyk'. Qed.
Print Assumptions C149_cmyk.
Example C149_example : forall o, exists (h : heap f32) c r g b, at_addr h 0%nat c /\ @wf_color f32 (F32 o) RGB_DEEP c /\
  comps c = [r; g; b] /\ B2R r = 1 /\ B2R g = 0 /\ B2R b = 1.
Proof. exact deep_exist. Qed.
(** The blue channel is unchanged unless the hue lies in (359, 360) degrees *)
Theorem C149_blue : forall r g b, ~ near_360 r g b -> blue_back r g b = b.
Proof. exact Error4_Proofs.blue_far. Qed.
Print Assumptions C149_blue.

(** C150: all 8-bit colours *)
Theorem C150_cmyk : forall o (h : heap f32) p c r g b a, at_addr h p c -> @wf_color f32 (F32 o) RGB_TRUE c ->
  is_byte r -> is_byte g -> is_byte b -> is_byte a -> has_bytes r g b c -> is_value (@alpha f32 (F32 o) c) (IZR a) ->
  via (@to_cmyk f32 (F32 o)) (@to_rgb_true f32 (F32 o)) h p (fun m d => ty m = CMYK /\ has_bytes r g b d /\
    is_value (@alpha f32 (F32 o) d) (IZR a) /\ rgb_space d = rgb_space c).
Proof. exact keep8_cmyk'. Qed.
Print Assumptions C150_cmyk.
Example C150_example : forall o r g b a, is_byte r -> is_byte g -> is_byte b -> is_byte a ->
  exists (h : heap f32) c, at_addr h 0%nat c /\ @wf_color f32 (F32 o) RGB_TRUE c /\ has_bytes r g b c /\ is_value (@alpha f32 (F32 o) c) (IZR a).
Proof. exact bytes_exist. Qed.

(** C151: all 8-bit colours outside a thin wedge next to red *)
Theorem C151_hsv : forall o (h : heap f32) p c r g b a, at_addr h p c -> @wf_color f32 (F32 o) RGB_TRUE c ->
  is_byte r -> is_byte g -> is_byte b -> is_byte a -> has_bytes r g b c -> is_value (@alpha f32 (F32 o) c) (IZR a) ->
  ~ ((g < b <= r)%Z /\ (60 * (b - g) + 30 <= r - g)%Z) ->
  via (@to_hsv f32 (F32 o)) (@to_rgb_true f32 (F32 o)) h p (fun m d => ty m = HSV /\ has_bytes r g b d /\
    is_value (@alpha f32 (F32 o) d) (IZR a) /\ rgb_space d = rgb_space c).
Proof. exact keep8_hsv'. Qed.
Print Assumptions C151_hsv.
(** black loses its alpha *)
Theorem C151_hsl : forall o (h : heap f32) p c r g b a, at_addr h p c -> @wf_color f32 (F32 o) RGB_TRUE c ->
  is_byte r -> is_byte g -> is_byte b -> is_byte a -> has_bytes r g b c -> is_value (@alpha f32 (F32 o) c) (IZR a) ->
  ~ ((g < b <= r)%Z /\ (60 * (b - g) + 30 <= r - g)%Z) ->
  via (@to_hsl f32 (F32 o)) (@to_rgb_true f32 (F32 o)) h p (fun m d => ty m = HSL /\ has_bytes r g b d /\
    ((r <> 0 \/ g <> 0 \/ b <> 0)%Z -> is_value (@alpha f32 (F32 o) d) (IZR a)) /\ rgb_space d = rgb_space c).
Proof. exact keep8_hsl. Qed.
Print Assumptions C151_hsl.
Theorem C151_hcy : forall o (h : heap f32) p c r g b a, at_addr h p c -> @wf_color f32 (F32 o) RGB_TRUE c ->
  is_byte r -> is_byte g -> is_byte b -> is_byte a -> has_bytes r g b c -> is_value (@alpha f32 (F32 o) c) (IZR a) ->
  ~ ((g < b <= r)%Z /\ (60 * (b - g) + 30 <= r - g)%Z) ->
  via (@to_hcy f32 (F32 o)) (@to_rgb_true f32 (F32 o)) h p (fun m d => ty m = HCY /\ has_bytes r g b d /\
    is_value (@alpha f32 (F32 o) d) (IZR a) /\ rgb_space d = rgb_space c).
Proof. exact keep8_hcy'. Qed.
Print Assumptions C151_hcy.
(** The colour (17, 254, 3) exists (C150) and is outside the wedge *)
Example C151_example : is_byte 17 /\ is_byte 254 /\ is_byte 3 /\ ~ ((254 < 3 <= 17)%Z /\ (60 * (3 - 254) + 30 <= 17 - 254)%Z).
Proof. unfold is_byte. lia. Qed.

(** C152: inside the wedge the blue byte that comes back is a different one *)
Theorem C152_hsv_refuted : forall o (h : heap f32) p c r g b a, at_addr h p c -> @wf_color f32 (F32 o) RGB_TRUE c ->
  is_byte r -> is_byte g -> is_byte b -> is_byte a -> has_bytes r g b c -> is_value (@alpha f32 (F32 o) c) (IZR a) ->
  (g < b <= r)%Z -> (60 * (b - g) + 31 <= r - g)%Z ->
  via (@to_hsv f32 (F32 o)) (@to_rgb_true f32 (F32 o)) h p (fun m d =>
    exists z, has_bytes r g z d /\ z <> b /\ Rabs (IZR z - (IZR g + (IZR r - IZR g) / 60)) <= / 2 + / 500).
Proof. exact lose8_hsv. Qed.
Print Assumptions C152_hsv_refuted.
Theorem C152_hsl_refuted : forall o (h : heap f32) p c r g b a, at_addr h p c -> @wf_color f32 (F32 o) RGB_TRUE c ->
  is_byte r -> is_byte g -> is_byte b -> is_byte a -> has_bytes r g b c -> is_value (@alpha f32 (F32 o) c) (IZR a) ->
  (g < b <= r)%Z -> (60 * (b - g) + 31 <= r - g)%Z ->
  via (@to_hsl f32 (F32 o)) (@to_rgb_true f32 (F32 o)) h p (fun m d =>
    exists z, has_bytes r g z d /\ z <> b /\ Rabs (IZR z - (IZR g + (IZR r - IZR g) / 60)) <= / 2 + / 500).
Proof. exact lose8_hsl. Qed.
Print Assumptions C152_hsl_refuted.
(** (255, 0, 1), which comes back as (255, 0, 4) *)
Example C152_example : is_byte 255 /\ is_byte 0 /\ is_byte 1 /\ (0 < 1 <= 255)%Z /\ (60 * (1 - 0) + 31 <= 255 - 0)%Z.
Proof. unfold is_byte. lia. Qed.
