(** * Property C176: Delta E 2000 never fails *)
From Coq Require Import ZArith Reals List.
From Flocq Require Import Core IEEE754.BinarySingleNaN.
From Verif Require Import Arith Outcome ColorModel SpaceModel Heap Converter Distance F32 Spec Spec32 Spec_Conv Spec_Calc Spec_Distance Spec_Error Spec_Rank Spec_Tame Sep_Proofs Tame_Proofs.
Import ListNotations.
Local Open Scope R_scope.

Theorem C176_total : forall o, tame o -> forall kL k1 k2 kC kH X1 X2 (h : heap f32) p1 c1 p2 c2,
  at_addr h p1 c1 -> at_addr h p2 c2 -> @wf_color f32 (F32 o) X1 c1 -> @wf_color f32 (F32 o) X2 c2 ->
  (needs_space X1 LAB = true -> has_space h c1) -> (needs_space X2 LAB = true -> has_space h c2) ->
  exists x h', @distance f32 (F32 o) (Cie00 kL k1 k2 kC kH) (Some p1) (Some p2) h = (Ok x, h') /\ spaces h' = spaces h /\
    (forall i c, i <> p1 -> i <> p2 -> at_addr h i c -> at_addr h' i c).
Proof. exact cie00_total. Qed.
Print Assumptions C176_total.

(** The assumptions are satisfiable, by products of floats, and so are the hypotheses on the colours. *)
Example C176_library : exists o, tame o /\ forall x, o_pow o x (@fz f32 (F32 o) 2) = Bmult mode_NE x x.
Proof. exists tame_oracle. split; [exact tame_exists|reflexivity]. Qed.
Example C176_colours : forall o s, exists (h : heap f32) c1 c2, at_addr h 0%nat c1 /\ at_addr h 1%nat c2 /\
  @wf_color f32 (F32 o) RGB_TRUE c1 /\ @wf_color f32 (F32 o) RGB_TRUE c2 /\ rgb_space c1 = Some 0%nat /\ rgb_space c2 = Some 0%nat /\ nth_error (spaces h) 0 = Some s /\
  holds_bytes (255, 0, 0)%Z c1 /\ holds_bytes (0, 128, 255)%Z c2.
Proof. intros. apply pair_exists; unfold is_bytes, is_byte; repeat split; discriminate. Qed.
