(** * Calculations with 8-bit colours in binary32 (C159-C162) *)
From Coq Require Import ZArith Reals List.
From Flocq Require Import Core IEEE754.BinarySingleNaN.
From Verif Require Import Arith Outcome ColorModel Heap Converter Blend F32 Spec Spec32 Spec_Conv Spec_Calc Spec_Blend Spec_Error Spec_Byte
  Error8_Proofs Byte2_Proofs Whole_Proofs Byte3_Proofs.
Import ListNotations.
Local Open Scope R_scope.

(** C159: nineteen of the component-wise modes. *)
Theorem C159_nearest_byte : forall o m t us ud (h : heap f32) p1 c1 p2 c2 r1 g1 b1 r2 g2 b2, exact_function m = Some t ->
  at_addr h p1 c1 -> at_addr h p2 c2 -> @wf_color f32 (F32 o) RGB_TRUE c1 -> @wf_color f32 (F32 o) RGB_TRUE c2 -> rgb_space c1 = rgb_space c2 ->
  is_byte r1 -> is_byte g1 -> is_byte b1 -> has_bytes r1 g1 b1 c1 -> is_value (@alpha f32 (F32 o) c1) 255 ->
  is_byte r2 -> is_byte g2 -> is_byte b2 -> has_bytes r2 g2 b2 c2 -> is_value (@alpha f32 (F32 o) c2) 255 ->
  returns (@blend f32 (F32 o) m (Some p1) (Some p2) us ud) h (fun d => ty d = RGB_TRUE /\ is_value (@alpha f32 (F32 o) d) 255 /\ rgb_space d = rgb_space c1 /\
    comp_sat d 0 (nearest_byte (blended_byte t r1 r2)) /\ comp_sat d 1 (nearest_byte (blended_byte t g1 g2)) /\ comp_sat d 2 (nearest_byte (blended_byte t b1 b2))).
Proof. exact blend8. Qed.
Print Assumptions C159_nearest_byte.
Example C159_example : forall o r1 g1 b1 r2 g2 b2, is_byte r1 -> is_byte g1 -> is_byte b1 -> is_byte r2 -> is_byte g2 -> is_byte b2 ->
  exists (h : heap f32) c1 c2, at_addr h 0%nat c1 /\ at_addr h 1%nat c2 /\ @wf_color f32 (F32 o) RGB_TRUE c1 /\ @wf_color f32 (F32 o) RGB_TRUE c2 /\ rgb_space c1 = rgb_space c2 /\
  has_bytes r1 g1 b1 c1 /\ is_value (@alpha f32 (F32 o) c1) 255 /\ has_bytes r2 g2 b2 c2 /\ is_value (@alpha f32 (F32 o) c2) 255.
Proof. exact two_exist. Qed.
(** 100 over 200 multiplied: 100 * 200 / 255 = 78.4... gives 78. *)
Example C159_multiply : exact_function Multiply = Some Rmult /\ forall x, nearest_byte (blended_byte Rmult 100 200) x -> is_value x 78.
Proof. exact multiply_100_200. Qed.

(** C160 *)
Theorem C160_operators : forall o p (h : heap f32) p1 c1 p2 c2 r1 g1 b1 r2 g2 b2,
  at_addr h p1 c1 -> at_addr h p2 c2 -> @wf_color f32 (F32 o) RGB_TRUE c1 -> @wf_color f32 (F32 o) RGB_TRUE c2 -> rgb_space c1 = rgb_space c2 ->
  is_byte r1 -> is_byte g1 -> is_byte b1 -> has_bytes r1 g1 b1 c1 -> is_value (@alpha f32 (F32 o) c1) 255 ->
  is_byte r2 -> is_byte g2 -> is_byte b2 -> has_bytes r2 g2 b2 c2 -> is_value (@alpha f32 (F32 o) c2) 255 ->
  (shows_source p = true -> returns (@composite f32 (F32 o) p (Some p1) (Some p2)) h (fun d => has_bytes r1 g1 b1 d /\ is_value (@alpha f32 (F32 o) d) 255 /\ rgb_space d = rgb_space c1)) /\
  (shows_destination p = true -> returns (@composite f32 (F32 o) p (Some p1) (Some p2)) h (fun d => has_bytes r2 g2 b2 d /\ is_value (@alpha f32 (F32 o) d) 255 /\ rgb_space d = rgb_space c1)).
Proof. exact over8. Qed.
Print Assumptions C160_operators.
Example C160_example : shows_source Over = true /\ shows_destination DestAtop = true.
Proof. split; reflexivity. Qed.

(** C161: the grey of an 8-bit colour is no whole number unless 3 divides the sum. *)
Theorem C161_grey_refuted : forall o (h : heap f32) p c r g b, at_addr h p c -> @wf_color f32 (F32 o) RGB_TRUE c -> is_byte r -> is_byte g -> is_byte b -> has_bytes r g b c ->
  ((r + g + b) mod 3 <> 0)%Z -> returns (@to_grey_true f32 (F32 o) (Some p)) h (fun d => ty d = GREY_TRUE /\ comp_sat d 0 broken).
Proof. exact grey_broken. Qed.
Print Assumptions C161_grey_refuted.
Example C161_example : ((0 + 0 + 1) mod 3 <> 0)%Z.
Proof. discriminate. Qed.
(** Such a grey makes the 8-bit RGB colour broken, too. *)
Theorem C161_rgb_refuted : forall o (h : heap f32) p c, at_addr h p c -> @wf_color f32 (F32 o) GREY_TRUE c -> comp_sat c 0 broken ->
  returns (@to_rgb_true f32 (F32 o) (Some p)) h (fun d => ty d = RGB_TRUE /\ comp_sat d 0 broken /\ comp_sat d 1 broken /\ comp_sat d 2 broken).
Proof. exact rgb_broken. Qed.
Print Assumptions C161_rgb_refuted.

(** C162 *)
Theorem C162_whole : forall o X, X <> UNDEFINED -> X <> RGB_TRUE -> X <> GREY_TRUE -> forall (h : heap f32) p c, at_addr h p c -> @wf_color f32 (F32 o) X c ->
  (cie X = true -> has_space h c) -> returns (@to_rgb_true f32 (F32 o) (Some p)) h whole.
Proof. exact all_whole. Qed.
Print Assumptions C162_whole.
Example C162_example : forall o, exists (h : heap f32) c r g b, at_addr h 0%nat c /\ @wf_color f32 (F32 o) RGB_DEEP c /\ comps c = [r; g; b] /\ B2R r = 1 /\ B2R g = 0 /\ B2R b = 1.
Proof. exact deep_exist. Qed.
