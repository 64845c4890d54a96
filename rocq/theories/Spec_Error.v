(** * Specification vocabulary for rounding errors *)
From Coq Require Import ZArith Reals List.
From Flocq Require Import Core IEEE754.BinarySingleNaN.
From Verif Require Import Arith Outcome ColorModel GammaModel SpaceModel F32 Spec Spec32.
Import ListNotations.
Local Open Scope R_scope.

(** The float is finite and within [e] of the number [v]. *)
Definition approx (v e : R) (x : f32) : Prop := is_finite x = true /\ Rabs (B2R x - v) <= e.

(** The blue channel that comes back from a hue based type. Red and green always come
    back; blue does unless the hue lies in (359, 360) degrees, where the stored hue is
    359 and so blue becomes green + (red - green) / 60 (C42). *)
Definition blue_back (r g b : R) : R :=
  if Rlt_dec g b then if Rle_dec b r then Rmax b (g + (r - g) / 60) else b else b.

(** [d] is an 8-bit RGB colour with these three bytes. *)
Definition has_bytes (r g b : Z) (d : color f32) : Prop :=
  ty d = RGB_TRUE /\ comp_sat d 0 (fun x => is_value x (IZR r)) /\ comp_sat d 1 (fun x => is_value x (IZR g)) /\ comp_sat d 2 (fun x => is_value x (IZR b)).
Definition is_byte (n : Z) : Prop := (0 <= n <= 255)%Z.

(** powf is accurate to 8 units in the last place on the arguments that gamma curves use:
    finite results, 0 for 0, relative error 2^-20 (plus the smallest denormal). Common C
    libraries stay below one unit. *)
Definition accurate_pow (o : oracle) : Prop := forall x y : f32,
  is_finite x = true -> is_finite y = true -> 0 <= B2R x <= 2 -> 0 < B2R y <= 4 ->
  is_finite (o_pow o x y) = true /\ (B2R x = 0 -> B2R (o_pow o x y) = 0) /\
  (0 < B2R x -> Rabs (B2R (o_pow o x y) - Rpower (B2R x) (B2R y)) <= Rpower (B2R x) (B2R y) / 1048576 + / 2 ^ 149).

(** The presets whose 8-bit colours survive the way to XYZ: all but PAL/SECAM, DCI P3, ROMM
    and CIE RGB. *)
Definition faithful_presets (o : oracle) (addr : nat) : list (outcome (space_def f32)) :=
  [@space_sRGB f32 (F32 o) addr; @space_adobeRGB f32 (F32 o) addr; @space_americaNTSC f32 (F32 o) addr; @space_oldNTSC f32 (F32 o) addr;
   @space_appleRGB f32 (F32 o) addr; @space_uhdtv f32 (F32 o) addr; @space_adobeWideGammutRGB f32 (F32 o) addr; @space_bestRGB f32 (F32 o) addr;
   @space_betaRGB f32 (F32 o) addr; @space_bruceRGB f32 (F32 o) addr; @space_colorMatchRGB f32 (F32 o) addr; @space_donRGB4 f32 (F32 o) addr;
   @space_ektaSpacePS5 f32 (F32 o) addr; @space_ProPhotoRGB f32 (F32 o) addr; @space_SMPTE_C_RGB f32 (F32 o) addr; @space_cieXYZ f32 (F32 o) addr].
