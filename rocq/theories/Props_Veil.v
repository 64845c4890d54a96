(** * Blending translucent 8-bit colours in binary32 (C164, C165) *)
From Coq Require Import ZArith Reals List.
From Flocq Require Import Core IEEE754.BinarySingleNaN.
From Verif Require Import Arith Outcome ColorModel Heap Converter Blend F32 Spec Spec32 Spec_Conv Spec_Calc Spec_Blend Spec_Error Spec_Byte Veil4_Proofs.
Import ListNotations.
Local Open Scope R_scope.

(** C164 *)
Theorem C164_translucent : forall o m t us ud (h : heap f32) p1 c1 p2 c2 r1 g1 b1 i r2 g2 b2 j, exact_function m = Some t ->
  at_addr h p1 c1 -> at_addr h p2 c2 -> @wf_color f32 (F32 o) RGB_TRUE c1 -> @wf_color f32 (F32 o) RGB_TRUE c2 -> rgb_space c1 = rgb_space c2 ->
  is_byte r1 -> is_byte g1 -> is_byte b1 -> is_byte i -> has_bytes r1 g1 b1 c1 -> is_value (@alpha f32 (F32 o) c1) (IZR i) ->
  is_byte r2 -> is_byte g2 -> is_byte b2 -> is_byte j -> has_bytes r2 g2 b2 c2 -> is_value (@alpha f32 (F32 o) c2) (IZR j) ->
  let T s d := t (IZR s / 255) (IZR d / 255) in
  returns (@blend f32 (F32 o) m (Some p1) (Some p2) us ud) h (fun d => ty d = RGB_TRUE /\ rgb_space d = rgb_space c1 /\
    nearest_byte (255 * coverage us ud true (IZR i / 255) (IZR j / 255)) (@alpha f32 (F32 o) d) /\
    comp_sat d 0 (veiled_byte (1 / 30) us ud true i j r1 r2 (T r1 r2)) /\ comp_sat d 1 (veiled_byte (1 / 30) us ud true i j g1 g2 (T g1 g2)) /\
    comp_sat d 2 (veiled_byte (1 / 30) us ud true i j b1 b2 (T b1 b2))).
Proof. exact veil_blend. Qed.
Print Assumptions C164_translucent.
Example C164_example : forall o r1 g1 b1 i r2 g2 b2 j, is_byte r1 -> is_byte g1 -> is_byte b1 -> is_byte i -> is_byte r2 -> is_byte g2 -> is_byte b2 -> is_byte j ->
  exists (h : heap f32) c1 c2, at_addr h 0%nat c1 /\ at_addr h 1%nat c2 /\ @wf_color f32 (F32 o) RGB_TRUE c1 /\ @wf_color f32 (F32 o) RGB_TRUE c2 /\ rgb_space c1 = rgb_space c2 /\
  has_bytes r1 g1 b1 c1 /\ is_value (@alpha f32 (F32 o) c1) (IZR i) /\ has_bytes r2 g2 b2 c2 /\ is_value (@alpha f32 (F32 o) c2) (IZR j).
Proof. exact veils_exist. Qed.
(** Two half transparent colours cover 192 of 255. *)
Example C164_alpha : forall x, nearest_byte (255 * coverage true true true (128 / 255) (128 / 255)) x -> is_value x 192.
Proof. exact multiply_half. Qed.

(** C165 *)
Theorem C165_operators : forall o p (h : heap f32) p1 c1 p2 c2 r1 g1 b1 i r2 g2 b2 j,
  at_addr h p1 c1 -> at_addr h p2 c2 -> @wf_color f32 (F32 o) RGB_TRUE c1 -> @wf_color f32 (F32 o) RGB_TRUE c2 -> rgb_space c1 = rgb_space c2 ->
  is_byte r1 -> is_byte g1 -> is_byte b1 -> is_byte i -> has_bytes r1 g1 b1 c1 -> is_value (@alpha f32 (F32 o) c1) (IZR i) ->
  is_byte r2 -> is_byte g2 -> is_byte b2 -> is_byte j -> has_bytes r2 g2 b2 c2 -> is_value (@alpha f32 (F32 o) c2) (IZR j) ->
  returns (@composite f32 (F32 o) p (Some p1) (Some p2)) h (fun d => ty d = RGB_TRUE /\ rgb_space d = rgb_space c1 /\
    nearest_byte (composed_alpha p i j) (@alpha f32 (F32 o) d) /\
    comp_sat d 0 (composed_byte (1 / 100) p i j r1 r2) /\ comp_sat d 1 (composed_byte (1 / 100) p i j g1 g2) /\ comp_sat d 2 (composed_byte (1 / 100) p i j b1 b2)).
Proof. exact veil_operator. Qed.
Print Assumptions C165_operators.
(** Half transparent 200 over opaque 100 is 150. *)
Example C165_over : forall x, composed_byte (1 / 100) Over 128 255 200 100 x -> is_value x 150.
Proof. exact over_half. Qed.
