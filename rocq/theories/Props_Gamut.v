(** * Property C163: 8-bit colours of wide spaces to Lab and back in binary32 *)
From Coq Require Import ZArith Reals Lra Lia List Bool.
From Flocq Require Import Core IEEE754.BinarySingleNaN.
From Verif Require Import Arith Outcome ColorModel GammaModel MatrixModel SpaceModel Heap Converter F32 RArith
  Spec Spec32 Spec_Matrix Spec_Conv Spec_Round Spec_Error.
From Verif Require Import Xyz8_Proofs PowRef_Proofs Detour2_Proofs Gamut2_Proofs.
Import ListNotations.
Local Open Scope R_scope.

(** C163 is false: pure green of Adobe RGB has a Lab coordinate a of about -138, the Lab
    colour is cut off at -128, and the colour that comes back has red between 50 and 70
    instead of 0. *)
Theorem C163_green_refuted : forall o (h : heap f32) p c i s addr a, accurate_pow o -> Ok s = @space_adobeRGB f32 (F32 o) addr ->
  at_addr h p c -> @wf_color f32 (F32 o) RGB_TRUE c -> rgb_space c = Some i -> nth_error (spaces h) i = Some s ->
  is_byte a -> has_bytes 0 255 0 c -> is_value (@alpha f32 (F32 o) c) (IZR a) ->
  via (@to_lab f32 (F32 o)) (@to_rgb_true f32 (F32 o)) h p (fun m d => ty m = LAB /\ comp_sat m 1 (fun v => is_value v (-128)) /\
    ty d = RGB_TRUE /\ exists n, (50 <= n <= 70)%Z /\ comp_sat d 0 (fun v => is_value v (IZR n))).
Proof. exact green_lost. Qed.
Print Assumptions C163_green_refuted.

(** The space is built without exception, and the colour exists in it *)
Example C163_hypotheses : forall o addr, accurate_pow ref_oracle /\ exists s, Ok s = @space_adobeRGB f32 (F32 o) addr.
Proof. exact adobe_example. Qed.
Example C163_colour : forall o (s : space_def f32), exists (h : heap f32) c, at_addr h 0%nat c /\ @wf_color f32 (F32 o) RGB_TRUE c /\
  rgb_space c = Some 0%nat /\ nth_error (spaces h) 0 = Some s /\ has_bytes 0 255 0 c /\ is_value (@alpha f32 (F32 o) c) 255.
Proof. exact green_in. Qed.
