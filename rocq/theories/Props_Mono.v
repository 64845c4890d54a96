(** * Property C172: brighter 8-bit sRGB colours have larger tristimulus values and lightness, in binary32 *)
From Coq Require Import ZArith Reals Lra Lia List.
From Flocq Require Import Core IEEE754.BinarySingleNaN.
From Verif Require Import Arith Outcome ColorModel SpaceModel Heap Converter F32 Spec Spec32 Spec_Conv Spec_Round Spec_Error Spec_Rank Sep_Proofs Mono_Proofs.
Import ListNotations.
Local Open Scope R_scope.

Theorem C172_xyz : forall o, accurate_pow o -> forall addr s, Ok s = @space_sRGB f32 (F32 o) addr ->
  forall (h1 h2 : heap f32) p1 c1 t1 i1 p2 c2 t2 i2, at_addr h1 p1 c1 -> at_addr h2 p2 c2 -> @wf_color f32 (F32 o) RGB_TRUE c1 -> @wf_color f32 (F32 o) RGB_TRUE c2 ->
  rgb_space c1 = Some i1 -> nth_error (spaces h1) i1 = Some s -> rgb_space c2 = Some i2 -> nth_error (spaces h2) i2 = Some s ->
  is_bytes t1 -> is_bytes t2 -> holds_bytes t1 c1 -> holds_bytes t2 c2 -> bytes_le t1 t2 -> t1 <> t2 ->
  yields (@to_xyz f32 (F32 o)) h1 p1 (fun m1 => yields (@to_xyz f32 (F32 o)) h2 p2 (fun m2 =>
    exists x1 y1 z1 x2 y2 z2, comps m1 = [x1; y1; z1] /\ comps m2 = [x2; y2; z2] /\ rising x1 x2 /\ rising y1 y2 /\ rising z1 z2)).
Proof. exact srgb_xyz_rises. Qed.
Print Assumptions C172_xyz.

Theorem C172_lightness : forall o, accurate_pow o -> forall addr s, Ok s = @space_sRGB f32 (F32 o) addr ->
  forall (h1 h2 : heap f32) p1 c1 t1 i1 p2 c2 t2 i2, at_addr h1 p1 c1 -> at_addr h2 p2 c2 -> @wf_color f32 (F32 o) RGB_TRUE c1 -> @wf_color f32 (F32 o) RGB_TRUE c2 ->
  rgb_space c1 = Some i1 -> nth_error (spaces h1) i1 = Some s -> rgb_space c2 = Some i2 -> nth_error (spaces h2) i2 = Some s ->
  is_bytes t1 -> is_bytes t2 -> holds_bytes t1 c1 -> holds_bytes t2 c2 -> bytes_le t1 t2 -> t1 <> t2 ->
  yields (@to_lab f32 (F32 o)) h1 p1 (fun m1 => yields (@to_lab f32 (F32 o)) h2 p2 (fun m2 =>
    exists l1 l2, nth_error (comps m1) 0 = Some l1 /\ nth_error (comps m2) 0 = Some l2 /\ rising l1 l2)).
Proof. exact srgb_lab_rises. Qed.
Print Assumptions C172_lightness.

(** The assumption on pow is satisfiable, and every two byte triples are held by two sRGB colours. *)
Example C172_oracle : exists o, accurate_pow o.
Proof. exists both_oracle. apply both_exist. Qed.
Example C172_colours : forall o s t1 t2, is_bytes t1 -> is_bytes t2 -> exists (h : heap f32) c1 c2, at_addr h 0%nat c1 /\ at_addr h 1%nat c2 /\
  @wf_color f32 (F32 o) RGB_TRUE c1 /\ @wf_color f32 (F32 o) RGB_TRUE c2 /\ rgb_space c1 = Some 0%nat /\ rgb_space c2 = Some 0%nat /\ nth_error (spaces h) 0 = Some s /\ holds_bytes t1 c1 /\ holds_bytes t2 c2.
Proof. exact pair_exists. Qed.
(** One step of blue is already brighter; red and green are not comparable. *)
Example C172_step : bytes_le (200, 17, 0)%Z (200, 17, 1)%Z /\ (200, 17, 0)%Z <> (200, 17, 1)%Z /\ ~ bytes_le (255, 0, 0)%Z (0, 255, 0)%Z.
Proof. unfold bytes_le. repeat split; try lia. discriminate. Qed.
