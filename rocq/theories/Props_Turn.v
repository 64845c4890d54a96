(** * Colour schemes of two, three and six colours *)
From Coq Require Import ZArith Reals List.
From Verif Require Import Arith Outcome ColorModel Heap Converter Combine RArith F32 Laws Spec Spec32 Spec_Matrix Spec_Conv Spec_Calc Spec_Round Spec_Formula Spec_Error Spec_Rank Spec_Turn
  Turn_Proofs Turn3_Proofs Turn4_Proofs.
Import ListNotations.
Local Open Scope R_scope.

(** ** C180: exact arithmetic, deep RGB *)
Theorem C180_schemes : forall n (h : heap R) p c r g b, In n [2; 3; 6]%Z -> at_addr h p c -> wf_color RGB_DEEP c -> comps c = [r; g; b] -> ~ in_last_degree (r, g, b) ->
  exists qs h', create_combination (Some p) n h = (Ok (Some p :: map Some qs), h') /\ length qs = Z.to_nat (n - 1) /\
  forall k q, nth_error qs k = Some q -> forall t, t = turns (S k * Z.to_nat (6 / n)) (r, g, b) -> ~ in_last_degree t ->
    exists d, at_addr h' q d /\ wf_color RGB_DEEP d /\ comps d = channels t /\ rgb_space d = rgb_space c.
Proof. exact scheme_deep. Qed.
Print Assumptions C180_schemes.

Theorem C180_twice : forall (h : heap R) p c t, at_addr h p c -> wf_color RGB_DEEP c -> comps c = channels t -> ~ in_last_degree t -> ~ in_last_degree (turns 3 t) ->
  returns (bind (create_complimentary (Some p)) create_complimentary) h (fun d => wf_color RGB_DEEP d /\ comps d = comps c /\ rgb_space d = rgb_space c).
Proof. exact twice_deep. Qed.
Print Assumptions C180_twice.

(** Two turns exchange the channels cyclically, three mirror each of them, six do nothing. *)
Example C180_two : forall r g b, turns 2 (r, g, b) = (b, r, g).
Proof. exact turn_two. Qed.
Example C180_three : forall r g b, turns 3 (r, g, b) = let s := largest r g b + smallest r g b in (s - r, s - g, s - b).
Proof. exact turns_three. Qed.
Example C180_six : forall p, turns 6 p = p.
Proof. exact turns_six. Qed.
Example C180_example : exists (h : heap R) c, at_addr h 0%nat c /\ wf_color RGB_DEEP c /\ comps c = channels (1 / 2, 1 / 4, 3 / 4) /\ ~ in_last_degree (1 / 2, 1 / 4, 3 / 4) /\
  turns 3 (1 / 2, 1 / 4, 3 / 4) = (1 / 2, 3 / 4, 1 / 4) /\ ~ in_last_degree (1 / 2, 3 / 4, 1 / 4).
Proof. exact deep_case. Qed.

(** ** C181: binary32, 8-bit RGB *)
Theorem C181_schemes : forall o n (h : heap f32) p c t, In n [2; 3; 6]%Z -> at_addr h p c -> @wf_color f32 (F32 o) RGB_TRUE c -> is_bytes t -> holds_bytes t c -> ~ in_last_degree (reals t) ->
  exists qs h', @create_combination f32 (F32 o) (Some p) n h = (Ok (Some p :: map Some qs), h') /\ length qs = Z.to_nat (n - 1) /\
  forall k q, nth_error qs k = Some q -> forall t', t' = byte_turns (S k * Z.to_nat (6 / n)) t -> ~ in_last_degree (reals t') ->
    exists d, at_addr h' q d /\ @wf_color f32 (F32 o) RGB_TRUE d /\ holds_bytes t' d /\ rgb_space d = rgb_space c.
Proof. exact scheme_bytes. Qed.
Print Assumptions C181_schemes.

Theorem C181_twice : forall o (h : heap f32) p c t, at_addr h p c -> @wf_color f32 (F32 o) RGB_TRUE c -> is_bytes t -> holds_bytes t c -> ~ in_last_degree (reals t) -> ~ in_last_degree (reals (byte_turns 3 t)) ->
  returns (bind (@create_complimentary f32 (F32 o) (Some p)) (@create_complimentary f32 (F32 o))) h (fun d => @wf_color f32 (F32 o) RGB_TRUE d /\ holds_bytes t d /\ rgb_space d = rgb_space c).
Proof. exact twice_bytes. Qed.
Print Assumptions C181_twice.

Example C181_example : forall o, exists (h : heap f32) c, at_addr h 0%nat c /\ @wf_color f32 (F32 o) RGB_TRUE c /\ is_bytes (200, 100, 40)%Z /\ holds_bytes (200, 100, 40)%Z c /\
  ~ in_last_degree (reals (200, 100, 40)%Z) /\ byte_turns 3 (200, 100, 40)%Z = (40, 140, 200)%Z /\ ~ in_last_degree (reals (40, 140, 200)%Z).
Proof. exact byte_case. Qed.
(** A triad of (200, 100, 40) consists of its cyclic exchanges. *)
Example C181_triad : byte_turns 2 (200, 100, 40)%Z = (40, 200, 100)%Z /\ byte_turns 4 (200, 100, 40)%Z = (100, 40, 200)%Z.
Proof. split; reflexivity. Qed.
