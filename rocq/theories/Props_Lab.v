(** * Properties C157, C158: 8-bit sRGB colours to xyY and Lab and back in binary32 *)
From Coq Require Import ZArith Reals Lra Lia List Bool.
From Flocq Require Import Core IEEE754.BinarySingleNaN.
From Verif Require Import Arith Outcome ColorModel GammaModel MatrixModel SpaceModel Heap Converter F32 RArith
  Spec Spec32 Spec_Matrix Spec_Conv Spec_Round Spec_Error.
From Verif Require Import Xyz8_Proofs PowRef_Proofs Detour2_Proofs.
Import ListNotations.
Local Open Scope R_scope.

(** C157: with a powf that is accurate to 8 units in the last place, every 8-bit sRGB
    colour survives the way to xyY and back *)
Theorem C157_xyy : forall o (h : heap f32) p c i s addr r g b a, accurate_pow o -> Ok s = @space_sRGB f32 (F32 o) addr ->
  at_addr h p c -> @wf_color f32 (F32 o) RGB_TRUE c -> rgb_space c = Some i -> nth_error (spaces h) i = Some s ->
  is_byte r -> is_byte g -> is_byte b -> is_byte a -> has_bytes r g b c -> is_value (@alpha f32 (F32 o) c) (IZR a) ->
  via (@to_xyy f32 (F32 o)) (@to_rgb_true f32 (F32 o)) h p (fun m d => ty m = XYY /\ has_bytes r g b d /\
    is_value (@alpha f32 (F32 o) d) (IZR a) /\ rgb_space d = rgb_space c).
Proof. exact srgb_xyy. Qed.
Print Assumptions C157_xyy.

(** C158: and the way to Lab and back *)
Theorem C158_lab : forall o (h : heap f32) p c i s addr r g b a, accurate_pow o -> Ok s = @space_sRGB f32 (F32 o) addr ->
  at_addr h p c -> @wf_color f32 (F32 o) RGB_TRUE c -> rgb_space c = Some i -> nth_error (spaces h) i = Some s ->
  is_byte r -> is_byte g -> is_byte b -> is_byte a -> has_bytes r g b c -> is_value (@alpha f32 (F32 o) c) (IZR a) ->
  via (@to_lab f32 (F32 o)) (@to_rgb_true f32 (F32 o)) h p (fun m d => ty m = LAB /\ has_bytes r g b d /\
    is_value (@alpha f32 (F32 o) d) (IZR a) /\ rgb_space d = rgb_space c).
Proof. exact srgb_lab. Qed.
Print Assumptions C158_lab.

(** The assumption is met by a correctly rounded power function, sRGB is built without
    exception, and every 8-bit colour exists in it *)
Example C157_hypotheses : forall o addr, accurate_pow ref_oracle /\ exists s, Ok s = @space_sRGB f32 (F32 o) addr.
Proof. exact srgb_example. Qed.
Example C158_colours : forall o (s : space_def f32) r g b a, is_byte r -> is_byte g -> is_byte b -> is_byte a ->
  exists (h : heap f32) c, at_addr h 0%nat c /\ @wf_color f32 (F32 o) RGB_TRUE c /\
  rgb_space c = Some 0%nat /\ nth_error (spaces h) 0 = Some s /\ has_bytes r g b c /\ is_value (@alpha f32 (F32 o) c) (IZR a).
Proof. exact bytes_in. Qed.
