(** * Property C156: the objects a conversion leaves behind *)
From Coq Require Import ZArith List Bool Arith.
From Flocq Require Import IEEE754.BinarySingleNaN.
From Verif Require Import Arith Outcome ColorModel Heap Converter Distance History F32
  Spec Spec32 Spec_Conv Spec_Distance Spec_Leak.
From Verif Require Import Run_Proofs Leak_Proofs.
Import ListNotations.

(** C156: nothing is ever freed, so every conversion of two or more steps leaves objects
    to which no pointer is kept *)
Theorem C156_temporaries_refuted : forall o X Y, In X all_types -> In Y all_types -> 2 <= chain X Y -> exists (h : heap f32) p c q h' i t,
  at_addr h p c /\ @reachable f32 (F32 o) c /\ ty c = X /\ @to_type f32 (F32 o) Y (Some p) h = (Ok (Some q), h') /\
  fresh h i /\ i <> q /\ at_addr h' i t.
Proof. exact conversion_leaks. Qed.
Print Assumptions C156_temporaries_refuted.
(** the exact number of new objects, the result included: the length of a shortest chain *)
Theorem C156_count : forall o (h : heap f32) p c X Y, at_addr h p c -> @wf_color f32 (F32 o) X c -> In Y all_types -> (needs_space X Y = true -> has_space h c) ->
  exists q h', @to_type f32 (F32 o) Y (Some p) h = (Ok (Some q), h') /\ grows_by (chain X Y) h h'.
Proof. exact conversion_count. Qed.
Print Assumptions C156_count.
(** a distance computation returns a number, but leaves all converted colours *)
Theorem C156_distance : forall o (d : distance_fun f32) X1 X2 (h : heap f32) p1 c1 p2 c2, p1 <> p2 -> at_addr h p1 c1 -> at_addr h p2 c2 ->
  @wf_color f32 (F32 o) X1 c1 -> @wf_color f32 (F32 o) X2 c2 ->
  (needs_space X1 (compared_in d) = true -> has_space h c1) -> (needs_space X2 (compared_in d) = true -> has_space h c2) ->
  grows_by (chain X1 (compared_in d) + chain X2 (compared_in d)) h (snd (@distance f32 (F32 o) d (Some p1) (Some p2) h)).
Proof. exact distance_count. Qed.
Print Assumptions C156_distance.
(** between none and five *)
Example C156_chains : chain LAB LAB = 0 /\ chain RGB_TRUE LAB = 3 /\ chain LCH_UV GREY_TRUE = 5 /\
  Forall (fun X => Forall (fun Y => chain X Y <= 5) all_types) all_types.
Proof. repeat split; repeat (constructor; [repeat (constructor; [vm_compute; repeat constructor |]); constructor |]); constructor. Qed.
(** colours of every type in a usable space exist *)
Example C156_example : forall o k, In k all_types -> exists (h : heap f32) p c,
  at_addr h p c /\ @reachable f32 (F32 o) c /\ cls c = k /\ has_space h c /\ in_interval 0 1 (m_alpha c) /\ ~ @black_hsl f32 (F32 o) c.
Proof. exact alpha_example. Qed.
