(** * What the constructors build, in closed form *)
From Coq Require Import ZArith QArith List Bool Lia.
From Verif Require Import Arith Outcome ColorModel Spec F32Facts Laws.
Import ListNotations.
Local Open Scope Z_scope.

Section NF.
Context {F : Type} {AF : Arith F}.

(** The value a hue setter stores. *)
Definition hue_norm (h : F) : F :=
  match wrap_negative hue_fuel (ffmod h (fz 360)) with
  | Ok h' => clamp h' (fz 359) (fz 0)
  | _ => fz 0
  end.

Definition c01 (v : F) := clamp v (fz 1) (fz 0).
Definition c255 (v : F) := clamp v (fz 255) (fz 0).
Definition c100 (v : F) := clamp v (fz 100) (fz 0).

Lemma rgb_deepcolor_nf r g b a sp : rgb_deepcolor r g b a sp =
  Ok (Color RGB_DEEP RGB_DEEP [c01 r; c01 g; c01 b] a (fz 1) (fz 0) sp).
Proof. reflexivity. Qed.
Lemma rgb_deepcolor1_nf v a sp : rgb_deepcolor1 v a sp =
  Ok (Color RGB_DEEP RGB_DEEP [c01 v; c01 v; c01 v] a (fz 1) (fz 0) sp).
Proof. reflexivity. Qed.
Lemma rgb_truecolor_nf r g b a sp : rgb_truecolor r g b a sp =
  Ok (Color RGB_TRUE RGB_TRUE [c255 r; c255 g; c255 b] (c01 (fdiv a (fz 255))) (fz 255) (fz 0) sp).
Proof. reflexivity. Qed.
Lemma grey_truecolor_nf v a sp : grey_truecolor v a sp =
  Ok (Color GREY_TRUE GREY_TRUE [c255 v] (c01 (fdiv a (fz 255))) (fz 255) (fz 0) sp).
Proof. reflexivity. Qed.
Lemma grey_deepcolor_nf v a sp : grey_deepcolor v a sp =
  Ok (Color GREY_DEEP GREY_DEEP [c01 v] a (fz 1) (fz 0) sp).
Proof. reflexivity. Qed.
Lemma cmyk_nf c m y k a sp : cmyk c m y k a sp =
  Ok (Color CMYK CMYK [c01 c; c01 m; c01 y; c01 k] a (fz 1) (fz 0) sp).
Proof. reflexivity. Qed.
Lemma xyz_nf x y z a sp : xyz x y z a sp =
  Ok (Color XYZ XYZ [c100 x; c100 y; c100 z] a (fz 100) (fz 0) sp).
Proof. reflexivity. Qed.
Lemma xyy_nf x y z a sp : xyy x y z a sp =
  Ok (Color XYY XYY [c100 x; c100 y; c100 z] a (fz 100) (fz 0) sp).
Proof. reflexivity. Qed.
Lemma cieluv_nf x y z a sp : cieluv x y z a sp =
  Ok (Color CIELUV CIELUV [c100 x; clamp y (fz 100) (fz (-100)); clamp z (fz 100) (fz (-100))] a (fz 100) (fz (-100)) sp).
Proof. reflexivity. Qed.
Lemma lab_nf x y z a sp : lab x y z a sp =
  Ok (Color LAB LAB [c100 x; clamp y (fz 128) (fz (-128)); clamp z (fz 128) (fz (-128))] a (fz 128) (fz (-128)) sp).
Proof. reflexivity. Qed.
Lemma lch_ab_nf x y z a sp : lch_ab x y z a sp =
  Ok (Color LCH_AB LCH_AB [c100 x; c100 y; clamp z (fz 359) (fz 0)] a (fz 100) (fz 0) sp).
Proof. reflexivity. Qed.
Lemma lch_uv_nf x y z a sp : lch_uv x y z a sp =
  Ok (Color LCH_UV LCH_UV [c100 x; c100 y; clamp z (fz 359) (fz 0)] a (fz 100) (fz 0) sp).
Proof. reflexivity. Qed.

Context {AL : ArithLaws F}.

Lemma hue3_nf k x y z a sp : (k = HSI \/ k = HSV \/ k = HSL \/ k = HCY) ->
  ctor3 k (fz 1) (fz 0) x y z a sp =
  Ok (Color k k [hue_norm x; c01 y; c01 z] a (fz 1) (fz 0) sp).
Proof.
  intros K. destruct (wrap_total x) as [h' E].
  unfold hue_norm. rewrite E.
  destruct K as [->|[->|[->| ->]]]; unfold ctor3, named_set, set_hue; rewrite E; reflexivity.
Qed.

Lemma hsi_nf x y z a sp : hsi x y z a sp =
  Ok (Color HSI HSI [hue_norm x; c01 y; c01 z] a (fz 1) (fz 0) sp).
Proof. apply hue3_nf. auto. Qed.
Lemma hsv_nf x y z a sp : hsv x y z a sp =
  Ok (Color HSV HSV [hue_norm x; c01 y; c01 z] a (fz 1) (fz 0) sp).
Proof. apply hue3_nf. auto. Qed.
Lemma hsl_nf x y z a sp : hsl x y z a sp =
  Ok (Color HSL HSL [hue_norm x; c01 y; c01 z] a (fz 1) (fz 0) sp).
Proof. apply hue3_nf. auto. Qed.
Lemma hcy_nf x y z a sp : hcy x y z a sp =
  Ok (Color HCY HCY [hue_norm x; c01 y; c01 z] a (fz 1) (fz 0) sp).
Proof. apply hue3_nf. auto. Qed.
End NF.
