(** * Property C171: CIE76 tells 8-bit sRGB colours apart in binary32 *)
From Coq Require Import ZArith Reals Lra Lia List.
From Flocq Require Import Core IEEE754.BinarySingleNaN.
From Verif Require Import Arith Outcome ColorModel SpaceModel Heap Converter Distance F32 Spec Spec32 Spec_Conv Spec_Calc Spec_Distance Spec_Error Spec_Rank Sep_Proofs.
Import ListNotations.
Local Open Scope R_scope.

Theorem C171_separation : forall o, accurate_pow o -> accurate_square o -> forall addr s, Ok s = @space_sRGB f32 (F32 o) addr ->
  forall (h : heap f32) p1 c1 t1 i1 p2 c2 t2 i2, at_addr h p1 c1 -> at_addr h p2 c2 -> @wf_color f32 (F32 o) RGB_TRUE c1 -> @wf_color f32 (F32 o) RGB_TRUE c2 ->
  rgb_space c1 = Some i1 -> nth_error (spaces h) i1 = Some s -> rgb_space c2 = Some i2 -> nth_error (spaces h) i2 = Some s ->
  is_bytes t1 -> is_bytes t2 -> holds_bytes t1 c1 -> holds_bytes t2 c2 -> t1 <> t2 ->
  exists x h', @distance f32 (F32 o) Cie76 (Some p1) (Some p2) h = (Ok x, h') /\ is_finite x = true /\ / 16384 <= B2R x.
Proof. exact cie76_separates. Qed.
Print Assumptions C171_separation.

(** Some oracle satisfies both assumptions, and every two byte triples are held by two sRGB colours. *)
Example C171_oracle : exists o, accurate_pow o /\ accurate_square o.
Proof. exists both_oracle. exact both_exist. Qed.
Example C171_colours : forall o s t1 t2, is_bytes t1 -> is_bytes t2 -> exists (h : heap f32) c1 c2, at_addr h 0%nat c1 /\ at_addr h 1%nat c2 /\
  @wf_color f32 (F32 o) RGB_TRUE c1 /\ @wf_color f32 (F32 o) RGB_TRUE c2 /\ rgb_space c1 = Some 0%nat /\ rgb_space c2 = Some 0%nat /\ nth_error (spaces h) 0 = Some s /\ holds_bytes t1 c1 /\ holds_bytes t2 c2.
Proof. exact pair_exists. Qed.
(** Even one step of the blue channel next to black counts. *)
Example C171_close : is_bytes (0, 0, 0)%Z /\ is_bytes (0, 0, 1)%Z /\ (0, 0, 0)%Z <> (0, 0, 1)%Z.
Proof. unfold is_bytes, is_byte. repeat split; try lia. discriminate. Qed.
