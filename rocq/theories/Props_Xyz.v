(** * Properties C153 - C155: RGB colours to XYZ and back in binary32 *)
From Coq Require Import ZArith QArith Reals Lra Lia List Bool.
From Flocq Require Import Core IEEE754.BinarySingleNaN.
From Verif Require Import Arith Outcome ColorModel GammaModel MatrixModel SpaceModel Heap Converter F32 RArith
  Spec Spec32 Spec_Matrix Spec_Conv Spec_Round Spec_Error.
From Verif Require Import Xyz8_Proofs CieRgb_Proofs PowRef_Proofs.
Import ListNotations.
Local Open Scope R_scope.

(** C153: the matrices alone, for every preset but CIE RGB with the gamma curve replaced by
    the identity, and for every implementation of the libm functions *)
Theorem C153_linear : forall o (h : heap f32) p c i s addr r g b, In (Ok s) (@space_presets f32 (F32 o) addr) -> Ok s <> @space_cieRGB f32 (F32 o) addr ->
  at_addr h p c -> @wf_color f32 (F32 o) RGB_DEEP c -> rgb_space c = Some i -> nth_error (spaces h) i = Some (set_gamma_curve s (Some (Gamma [] []))) -> comps c = [r; g; b] ->
  via (@to_xyz f32 (F32 o)) (@to_rgb_deep f32 (F32 o)) h p (fun m d => ty m = XYZ /\ ty d = RGB_DEEP /\
    comp_sat d 0 (approx (B2R r) (26 / 16777216)) /\ comp_sat d 1 (approx (B2R g) (26 / 16777216)) /\ comp_sat d 2 (approx (B2R b) (26 / 16777216)) /\
    m_alpha d = m_alpha c /\ rgb_space d = rgb_space c).
Proof. exact xyz_linear. Qed.
Print Assumptions C153_linear.
Example C153_example : forall o addr, exists s, In (Ok s) (@space_presets f32 (F32 o) addr) /\ Ok s <> @space_cieRGB f32 (F32 o) addr.
Proof. exact linear_example. Qed.

(** C154: with a powf that is accurate to 8 units in the last place *)
Theorem C154_bytes : forall o (h : heap f32) p c i s addr r g b a, accurate_pow o -> In (Ok s) (faithful_presets o addr) ->
  at_addr h p c -> @wf_color f32 (F32 o) RGB_TRUE c -> rgb_space c = Some i -> nth_error (spaces h) i = Some s ->
  is_byte r -> is_byte g -> is_byte b -> is_byte a -> has_bytes r g b c -> is_value (@alpha f32 (F32 o) c) (IZR a) ->
  via (@to_xyz f32 (F32 o)) (@to_rgb_true f32 (F32 o)) h p (fun m d => ty m = XYZ /\ has_bytes r g b d /\
    is_value (@alpha f32 (F32 o) d) (IZR a) /\ rgb_space d = rgb_space c).
Proof. exact xyz_bytes. Qed.
Print Assumptions C154_bytes.
(** floating point colours whose channels are 0 or at least 1/256 *)
Theorem C154_deep : forall o (h : heap f32) p c i s addr r g b, accurate_pow o -> In (Ok s) (faithful_presets o addr) ->
  at_addr h p c -> @wf_color f32 (F32 o) RGB_DEEP c -> rgb_space c = Some i -> nth_error (spaces h) i = Some s -> comps c = [r; g; b] ->
  (forall x, In x [r; g; b] -> B2R x = 0 \/ / 256 <= B2R x) ->
  via (@to_xyz f32 (F32 o)) (@to_rgb_deep f32 (F32 o)) h p (fun m d => ty m = XYZ /\ ty d = RGB_DEEP /\
    comp_sat d 0 (approx (B2R r) (/ 500)) /\ comp_sat d 1 (approx (B2R g) (/ 500)) /\ comp_sat d 2 (approx (B2R b) (/ 500)) /\
    m_alpha d = m_alpha c /\ rgb_space d = rgb_space c).
Proof. exact xyz_deep. Qed.
Print Assumptions C154_deep.
(** the steep curves 2.6 and 2.8: bytes from 6 *)
Theorem C154_bright : forall o (h : heap f32) p c i s addr r g b a, accurate_pow o ->
  Ok s = @space_pal_secam f32 (F32 o) addr \/ Ok s = @space_dci_p3 f32 (F32 o) addr ->
  at_addr h p c -> @wf_color f32 (F32 o) RGB_TRUE c -> rgb_space c = Some i -> nth_error (spaces h) i = Some s ->
  is_byte r -> is_byte g -> is_byte b -> is_byte a -> has_bytes r g b c -> is_value (@alpha f32 (F32 o) c) (IZR a) ->
  (6 <= r)%Z -> (6 <= g)%Z -> (6 <= b)%Z ->
  via (@to_xyz f32 (F32 o)) (@to_rgb_true f32 (F32 o)) h p (fun m d => ty m = XYZ /\ has_bytes r g b d /\
    is_value (@alpha f32 (F32 o) d) (IZR a) /\ rgb_space d = rgb_space c).
Proof. exact xyz_bright. Qed.
Print Assumptions C154_bright.
(** ROMM: bytes 0 or from 8 *)
Theorem C154_romm : forall o (h : heap f32) p c i s addr r g b a, accurate_pow o -> Ok s = @space_rommRGB f32 (F32 o) addr ->
  at_addr h p c -> @wf_color f32 (F32 o) RGB_TRUE c -> rgb_space c = Some i -> nth_error (spaces h) i = Some s ->
  is_byte r -> is_byte g -> is_byte b -> is_byte a -> has_bytes r g b c -> is_value (@alpha f32 (F32 o) c) (IZR a) ->
  (forall n, In n [r; g; b] -> n = 0%Z \/ (8 <= n)%Z) ->
  via (@to_xyz f32 (F32 o)) (@to_rgb_true f32 (F32 o)) h p (fun m d => ty m = XYZ /\ has_bytes r g b d /\
    is_value (@alpha f32 (F32 o) d) (IZR a) /\ rgb_space d = rgb_space c).
Proof. exact xyz_romm. Qed.
Print Assumptions C154_romm.
(** A correctly rounded power function meets the assumption; every listed preset is built
    without exception; every 8-bit colour exists in it *)
Example C154_pow : accurate_pow ref_oracle.
Proof. exact ref_accurate. Qed.
Example C154_presets : forall o addr x, In x (faithful_presets o addr) -> exists s, x = Ok s.
Proof. exact presets_ok. Qed.
Example C154_other_presets : forall o addr, (exists s, @space_pal_secam f32 (F32 o) addr = Ok s) /\ (exists s, @space_dci_p3 f32 (F32 o) addr = Ok s) /\
  (exists s, @space_rommRGB f32 (F32 o) addr = Ok s) /\ (exists s, @space_cieRGB f32 (F32 o) addr = Ok s).
Proof. exact others_ok. Qed.
Example C154_colours : forall o (s : space_def f32) r g b a, is_byte r -> is_byte g -> is_byte b -> is_byte a ->
  exists (h : heap f32) c, at_addr h 0%nat c /\ @wf_color f32 (F32 o) RGB_TRUE c /\
  rgb_space c = Some 0%nat /\ nth_error (spaces h) 0 = Some s /\ has_bytes r g b c /\ is_value (@alpha f32 (F32 o) c) (IZR a).
Proof. exact bytes_in. Qed.

(** C155: it is false of ROMM, where every channel from 1 to 7 comes back smaller, and of
    CIE RGB, where pure red comes back black *)
Theorem C155_romm_refuted : forall o (h : heap f32) p c i s addr r g b a, accurate_pow o -> Ok s = @space_rommRGB f32 (F32 o) addr ->
  at_addr h p c -> @wf_color f32 (F32 o) RGB_TRUE c -> rgb_space c = Some i -> nth_error (spaces h) i = Some s ->
  is_byte r -> is_byte g -> is_byte b -> is_byte a -> has_bytes r g b c -> is_value (@alpha f32 (F32 o) c) (IZR a) ->
  via (@to_xyz f32 (F32 o)) (@to_rgb_true f32 (F32 o)) h p (fun m d => ty m = XYZ /\ ty d = RGB_TRUE /\
    forall k n, nth_error [r; g; b] k = Some n -> (1 <= n <= 7)%Z -> comp_sat d k (fun x => exists z, (0 <= z < n)%Z /\ is_value x (IZR z))).
Proof. exact romm_smaller. Qed.
Print Assumptions C155_romm_refuted.
Theorem C155_cie_refuted : forall o (h : heap f32) p c i s addr a, accurate_pow o -> Ok s = @space_cieRGB f32 (F32 o) addr ->
  at_addr h p c -> @wf_color f32 (F32 o) RGB_TRUE c -> rgb_space c = Some i -> nth_error (spaces h) i = Some s ->
  is_byte a -> has_bytes 255 0 0 c -> is_value (@alpha f32 (F32 o) c) (IZR a) ->
  via (@to_xyz f32 (F32 o)) (@to_rgb_true f32 (F32 o)) h p (fun m d => ty m = XYZ /\ has_bytes 0 0 0 d).
Proof. exact red_black. Qed.
Print Assumptions C155_cie_refuted.
