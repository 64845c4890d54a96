(** * Properties C178, C179: sums, mixtures and differences in binary32 *)
From Coq Require Import ZArith Reals Lra Lia List.
From Flocq Require Import Core IEEE754.BinarySingleNaN.
From Verif Require Import Arith Outcome ColorModel Heap Calculation F32 Spec Spec32 Spec_Conv Spec_Calc Spec_Formula Spec_Sum Spec_Error Spec_Rank Spec_Mix Core2_Proofs Byte3_Proofs Byte3_Proofs Mix_Proofs.
Import ListNotations.
Local Open Scope R_scope.

(** ** C178: every component is within 2^-20 of its range of the exact formula *)
Theorem C178_add : forall o, accurate_square o -> positive_square o -> forall X w1 w2 ia (h : heap f32) p1 p2 c1 c2, In X plain_types -> in_interval 0 1 w1 -> in_interval 0 1 w2 ->
  at_addr h p1 c1 -> at_addr h p2 c2 -> @wf_color f32 (F32 o) X c1 -> @wf_color f32 (F32 o) X c2 ->
  returns (@typed_add f32 (F32 o) X (Some p1) (Some p2) w1 w2 ia) h (combined_near X (weighted_sum X (B2R w1) (B2R w2)) (reach X / 1048576) c1 c2).
Proof. exact add_accurate. Qed.
Print Assumptions C178_add.

Theorem C178_mix : forall o, accurate_square o -> positive_square o -> forall X w ia (h : heap f32) p1 p2 c1 c2, In X plain_types -> in_interval 0 1 w ->
  at_addr h p1 c1 -> at_addr h p2 c2 -> @wf_color f32 (F32 o) X c1 -> @wf_color f32 (F32 o) X c2 ->
  returns (@typed_mix f32 (F32 o) X (Some p1) (Some p2) w ia) h (combined_near X (weighted_sum X (B2R w) (1 - B2R w)) (reach X / 1048576) c1 c2).
Proof. exact mix_accurate. Qed.
Print Assumptions C178_mix.

Theorem C178_subtract : forall o X w ia (h : heap f32) p1 p2 c1 c2, In X plain_types -> in_interval 0 1 w ->
  at_addr h p1 c1 -> at_addr h p2 c2 -> @wf_color f32 (F32 o) X c1 -> @wf_color f32 (F32 o) X c2 ->
  returns (@typed_subtract f32 (F32 o) X (Some p1) (Some p2) w ia) h (combined_near X (fun a b => a - B2R w * b) (reach X / 1048576) c1 c2).
Proof. exact subtract_accurate. Qed.
Print Assumptions C178_subtract.

(** The assumptions on powf hold for some oracle. The exact mixture of a component with itself is
    that component, and half white, half black is 255 times the square root of 1/2. *)
Example C178_oracle : exists o, accurate_square o /\ positive_square o.
Proof. exact mix_oracle. Qed.
Example C178_same : forall X w a, 0 <= a -> weighted_sum X w (1 - w) a a = a.
Proof. intros X w a A. unfold weighted_sum. replace (w * (a * a) + (1 - w) * (a * a)) with (a * a) by ring. rewrite sqrt_square by exact A. destruct X; ring. Qed.
Example C178_half : weighted_sum RGB_TRUE (1 / 2) (1 - 1 / 2) 255 0 = 255 * sqrt (1 / 2).
Proof. unfold weighted_sum. replace (1 / 2 * (255 * 255) + (1 - 1 / 2) * (0 * 0)) with (255 * 255 * (1 / 2)) by field. rewrite sqrt_mult_alt by lra. rewrite sqrt_square by lra. reflexivity. Qed.

(** ** C179: with weight 1, whole bytes are added and subtracted exactly and saturate *)
Theorem C179_add_grey : forall o w1 w2 ia (h : heap f32) p1 p2 c1 c2 m n, is_value w1 1 -> is_value w2 1 -> at_addr h p1 c1 -> at_addr h p2 c2 ->
  @wf_color f32 (F32 o) GREY_TRUE c1 -> @wf_color f32 (F32 o) GREY_TRUE c2 -> is_byte m -> is_byte n ->
  comp_sat c1 0 (fun x => is_value x (IZR m)) -> comp_sat c2 0 (fun x => is_value x (IZR n)) ->
  returns (@typed_add f32 (F32 o) GREY_TRUE (Some p1) (Some p2) w1 w2 ia) h (fun r => ty r = GREY_TRUE /\ comp_sat r 0 (fun x => is_value x (IZR (Z.min 255 (m + n))))).
Proof. exact whole_add. Qed.
Print Assumptions C179_add_grey.

Theorem C179_subtract : forall o X w ia (h : heap f32) p1 p2 c1 c2, In X [RGB_TRUE; GREY_TRUE] -> is_value w 1 -> at_addr h p1 c1 -> at_addr h p2 c2 ->
  @wf_color f32 (F32 o) X c1 -> @wf_color f32 (F32 o) X c2 ->
  returns (@typed_subtract f32 (F32 o) X (Some p1) (Some p2) w ia) h (fun r => ty r = X /\ forall i m n, is_byte m -> is_byte n ->
    comp_sat c1 i (fun x => is_value x (IZR m)) -> comp_sat c2 i (fun x => is_value x (IZR n)) -> comp_sat r i (fun x => is_value x (IZR (Z.max 0 (m - n))))).
Proof. exact whole_subtract. Qed.
Print Assumptions C179_subtract.
Example C179_colours : forall o r1 g1 b1 r2 g2 b2, is_byte r1 -> is_byte g1 -> is_byte b1 -> is_byte r2 -> is_byte g2 -> is_byte b2 ->
  exists (h : heap f32) c1 c2, at_addr h 0%nat c1 /\ at_addr h 1%nat c2 /\ @wf_color f32 (F32 o) RGB_TRUE c1 /\ @wf_color f32 (F32 o) RGB_TRUE c2 /\ holds_bytes (r1, g1, b1) c1 /\ holds_bytes (r2, g2, b2) c2.
Proof.
  intros o r1 g1 b1 r2 g2 b2 A B C D E F. destruct (two_exist o r1 g1 b1 r2 g2 b2 A B C D E F) as [h [c1 [c2 [H1 [H2 [W1 [W2 [_ [B1 [_ [B2 _]]]]]]]]]]]. exists h, c1, c2. auto 10.
Qed.
Example C179_one : forall o, is_value (@fz f32 (F32 o) 1) 1.
Proof. intros o. apply (Core2_Proofs.fz_val o 1); unfold F32Facts.small; lia. Qed.
