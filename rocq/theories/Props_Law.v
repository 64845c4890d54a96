(** * Properties C203, C204: laws of sums, mixtures and differences *)
From Coq Require Import ZArith Reals Lra Lia List.
From Flocq Require Import Core IEEE754.BinarySingleNaN.
From Verif Require Import Arith Outcome ColorModel Heap Calculation F32 RArith Spec Spec32 Spec_Conv Spec_Calc Spec_Sum Spec_Error Spec_Rank Spec_Mix Spec_Law Law2_Proofs.
Import ListNotations.
Local Open Scope R_scope.

(** ** C203: the order of the two colours does not matter *)
Theorem C203_add : forall X w1 w2 ia (h : heap R) p1 p2 c1 c2, In X own_types -> 0 <= w1 <= 1 -> 0 <= w2 <= 1 ->
  at_addr h p1 c1 -> at_addr h p2 c2 -> wf_color X c1 -> wf_color X c2 ->
  agree ia (typed_add X (Some p1) (Some p2) w1 w2 ia) (typed_add X (Some p2) (Some p1) w2 w1 ia) h.
Proof. exact exchange_exact. Qed.
Print Assumptions C203_add.

Theorem C203_add32 : forall o X w1 w2 ia (h : heap f32) p1 p2 c1 c2, In X own_types -> in_interval 0 1 w1 -> in_interval 0 1 w2 ->
  at_addr h p1 c1 -> at_addr h p2 c2 -> @wf_color f32 (F32 o) X c1 -> @wf_color f32 (F32 o) X c2 ->
  agree ia (@typed_add f32 (F32 o) X (Some p1) (Some p2) w1 w2 ia) (@typed_add f32 (F32 o) X (Some p2) (Some p1) w2 w1 ia) h.
Proof. exact exchange_32. Qed.
Print Assumptions C203_add32.

Theorem C203_mix : forall X w ia (h : heap R) p1 p2 c1 c2, In X own_types -> 0 <= w <= 1 ->
  at_addr h p1 c1 -> at_addr h p2 c2 -> wf_color X c1 -> wf_color X c2 ->
  agree ia (typed_mix X (Some p1) (Some p2) w ia) (typed_mix X (Some p2) (Some p1) (1 - w) ia) h.
Proof. exact mix_exchange_exact. Qed.
Print Assumptions C203_mix.

Theorem C203_mix32 : forall o X w ia (h : heap f32) p1 p2 c1 c2, In X own_types -> in_interval 0 1 w -> / 2 <= B2R w ->
  at_addr h p1 c1 -> at_addr h p2 c2 -> @wf_color f32 (F32 o) X c1 -> @wf_color f32 (F32 o) X c2 ->
  agree ia (@typed_mix f32 (F32 o) X (Some p1) (Some p2) w ia) (@typed_mix f32 (F32 o) X (Some p2) (Some p1) (@fsub f32 (F32 o) (@fz f32 (F32 o) 1) w) ia) h.
Proof. exact mix_exchange_32. Qed.
Print Assumptions C203_mix32.

(** ** C204: larger components give larger results *)
Theorem C204_add32 : forall o X w1 w2 ia ia' (h h' : heap f32) p1 p2 q1 q2 c1 c2 d1 d2, good_squares o X -> In X plain_types -> in_interval 0 1 w1 -> in_interval 0 1 w2 ->
  at_addr h p1 c1 -> at_addr h p2 c2 -> at_addr h' q1 d1 -> at_addr h' q2 d2 ->
  @wf_color f32 (F32 o) X c1 -> @wf_color f32 (F32 o) X c2 -> @wf_color f32 (F32 o) X d1 -> @wf_color f32 (F32 o) X d2 -> below32 c1 d1 -> below32 c2 d2 ->
  ordered below32 (@typed_add f32 (F32 o) X (Some p1) (Some p2) w1 w2 ia) h (@typed_add f32 (F32 o) X (Some q1) (Some q2) w1 w2 ia') h'.
Proof. exact add_order. Qed.
Print Assumptions C204_add32.

Theorem C204_mix32 : forall o X w ia ia' (h h' : heap f32) p1 p2 q1 q2 c1 c2 d1 d2, good_squares o X -> In X plain_types -> in_interval 0 1 w ->
  at_addr h p1 c1 -> at_addr h p2 c2 -> at_addr h' q1 d1 -> at_addr h' q2 d2 ->
  @wf_color f32 (F32 o) X c1 -> @wf_color f32 (F32 o) X c2 -> @wf_color f32 (F32 o) X d1 -> @wf_color f32 (F32 o) X d2 -> below32 c1 d1 -> below32 c2 d2 ->
  ordered below32 (@typed_mix f32 (F32 o) X (Some p1) (Some p2) w ia) h (@typed_mix f32 (F32 o) X (Some q1) (Some q2) w ia') h'.
Proof. exact mix_order. Qed.
Print Assumptions C204_mix32.

Theorem C204_subtract32 : forall o X w ia ia' (h h' : heap f32) p1 p2 q1 q2 c1 c2 d1 d2, In X plain_types -> in_interval 0 1 w ->
  at_addr h p1 c1 -> at_addr h p2 c2 -> at_addr h' q1 d1 -> at_addr h' q2 d2 ->
  @wf_color f32 (F32 o) X c1 -> @wf_color f32 (F32 o) X c2 -> @wf_color f32 (F32 o) X d1 -> @wf_color f32 (F32 o) X d2 -> below32 c1 d1 -> below32 d2 c2 ->
  ordered below32 (@typed_subtract f32 (F32 o) X (Some p1) (Some p2) w ia) h (@typed_subtract f32 (F32 o) X (Some q1) (Some q2) w ia') h'.
Proof. exact subtract_order. Qed.
Print Assumptions C204_subtract32.

Theorem C204_add : forall X w1 w2 ia ia' (h h' : heap R) p1 p2 q1 q2 c1 c2 d1 d2, In X plain_types -> 0 <= w1 <= 1 -> 0 <= w2 <= 1 ->
  at_addr h p1 c1 -> at_addr h p2 c2 -> at_addr h' q1 d1 -> at_addr h' q2 d2 ->
  wf_color X c1 -> wf_color X c2 -> wf_color X d1 -> wf_color X d2 -> below c1 d1 -> below c2 d2 ->
  ordered below (typed_add X (Some p1) (Some p2) w1 w2 ia) h (typed_add X (Some q1) (Some q2) w1 w2 ia') h'.
Proof. exact add_order_exact. Qed.
Print Assumptions C204_add.

Theorem C204_mix : forall X w ia ia' (h h' : heap R) p1 p2 q1 q2 c1 c2 d1 d2, In X plain_types -> 0 <= w <= 1 ->
  at_addr h p1 c1 -> at_addr h p2 c2 -> at_addr h' q1 d1 -> at_addr h' q2 d2 ->
  wf_color X c1 -> wf_color X c2 -> wf_color X d1 -> wf_color X d2 -> below c1 d1 -> below c2 d2 ->
  ordered below (typed_mix X (Some p1) (Some p2) w ia) h (typed_mix X (Some q1) (Some q2) w ia') h'.
Proof. exact mix_order_exact. Qed.
Print Assumptions C204_mix.

Theorem C204_subtract : forall X w ia ia' (h h' : heap R) p1 p2 q1 q2 c1 c2 d1 d2, In X plain_types -> 0 <= w <= 1 ->
  at_addr h p1 c1 -> at_addr h p2 c2 -> at_addr h' q1 d1 -> at_addr h' q2 d2 ->
  wf_color X c1 -> wf_color X c2 -> wf_color X d1 -> wf_color X d2 -> below c1 d1 -> below d2 c2 ->
  ordered below (typed_subtract X (Some p1) (Some p2) w ia) h (typed_subtract X (Some q1) (Some q2) w ia') h'.
Proof. exact subtract_order_exact. Qed.
Print Assumptions C204_subtract.

(** ** A mixture lies between the two colours; weights 1 and 0 give the first and the second. *)
Theorem C204_between : forall X w ia (h : heap R) p1 p2 c1 c2, In X plain_types -> 0 <= w <= 1 ->
  at_addr h p1 c1 -> at_addr h p2 c2 -> wf_color X c1 -> wf_color X c2 ->
  returns (typed_mix X (Some p1) (Some p2) w ia) h (fun r => ty r = X /\ length (comps r) = arity X /\
    forall i a b, nth_error (comps c1) i = Some a -> nth_error (comps c2) i = Some b -> exists v, nth_error (comps r) i = Some v /\ Rmin a b <= v <= Rmax a b).
Proof. exact mix_between. Qed.
Print Assumptions C204_between.

Theorem C204_ends32 : forall o X ia (h : heap f32) p1 p2 c1 c2 w, In X linear_types -> (is_value w 1 \/ is_value w 0) ->
  at_addr h p1 c1 -> at_addr h p2 c2 -> @wf_color f32 (F32 o) X c1 -> @wf_color f32 (F32 o) X c2 ->
  returns (@typed_mix f32 (F32 o) X (Some p1) (Some p2) w ia) h (fun r => ty r = X /\ length (comps r) = arity X /\
    forall i x, nth_error (comps (if Rlt_dec 0 (B2R w) then c1 else c2)) i = Some x -> comp_sat r i (fun y => is_value y (B2R x))).
Proof. exact ends. Qed.
Print Assumptions C204_ends32.

(** Such a powf exists; black is below white. *)
Example C204_oracle : exists o, accurate_square o /\ positive_square o /\ rising_square o.
Proof. exact law_oracle. Qed.
Example C204_colours : forall o, exists (h : heap f32) c1 c2 w, at_addr h 0%nat c1 /\ at_addr h 1%nat c2 /\ @wf_color f32 (F32 o) RGB_TRUE c1 /\ @wf_color f32 (F32 o) RGB_TRUE c2 /\
  holds_bytes (0, 0, 0)%Z c1 /\ holds_bytes (255, 255, 255)%Z c2 /\ below32 c1 c2 /\ in_interval 0 1 w /\ is_value w 1.
Proof. exact law_colours. Qed.
