(** * Properties C168-C170: Euclidean distances of 8-bit colours in binary32 *)
From Coq Require Import ZArith Reals Lra Lia List.
From Flocq Require Import Core IEEE754.BinarySingleNaN.
From Verif Require Import Arith Outcome ColorModel Heap Converter Distance F32 Spec Spec32 Spec_Conv Spec_Calc Spec_Distance Spec_Error Spec_Rank Error_Proofs Byte3_Proofs Rank_Proofs.
Import ListNotations.
Local Open Scope R_scope.

(** ** C168: the distance of two 8-bit colours is accurate, and 0 only for equal bytes *)
Theorem C168_distance : forall o, accurate_square o -> forall s (h : heap f32) p1 c1 t1 p2 c2 t2, at_addr h p1 c1 -> at_addr h p2 c2 ->
  @wf_color f32 (F32 o) RGB_TRUE c1 -> @wf_color f32 (F32 o) RGB_TRUE c2 -> is_bytes t1 -> is_bytes t2 -> holds_bytes t1 c1 -> holds_bytes t2 c2 ->
  exists x h', @distance f32 (F32 o) (Euclid s) (Some p1) (Some p2) h = (Ok x, h') /\ approx (byte_distance t1 t2) (/ 524288) x /\ (B2R x = 0 <-> t1 = t2).
Proof. exact accuracy. Qed.
Print Assumptions C168_distance.

Theorem C168_squared : forall o, accurate_square o -> forall s (h : heap f32) p1 c1 t1 p2 c2 t2, s <> CIELUV -> at_addr h p1 c1 -> at_addr h p2 c2 ->
  @wf_color f32 (F32 o) RGB_TRUE c1 -> @wf_color f32 (F32 o) RGB_TRUE c2 -> is_bytes t1 -> is_bytes t2 -> holds_bytes t1 c1 -> holds_bytes t2 c2 ->
  exists x h', @distance f32 (F32 o) (Squared s) (Some p1) (Some p2) h = (Ok x, h') /\ approx (byte_distance t1 t2 * byte_distance t1 t2) (/ 131072) x.
Proof. exact squared_accuracy. Qed.
Print Assumptions C168_squared.

(** ** C169: distances of 8-bit colours are ranked correctly *)
Theorem C169_ranking : forall o, accurate_square o -> forall s (h h2 : heap f32) p1 c1 t1 p2 c2 t2 p3 c3 t3 p4 c4 t4,
  at_addr h p1 c1 -> at_addr h p2 c2 -> at_addr h2 p3 c3 -> at_addr h2 p4 c4 ->
  @wf_color f32 (F32 o) RGB_TRUE c1 -> @wf_color f32 (F32 o) RGB_TRUE c2 -> @wf_color f32 (F32 o) RGB_TRUE c3 -> @wf_color f32 (F32 o) RGB_TRUE c4 ->
  is_bytes t1 -> is_bytes t2 -> is_bytes t3 -> is_bytes t4 -> holds_bytes t1 c1 -> holds_bytes t2 c2 -> holds_bytes t3 c3 -> holds_bytes t4 c4 ->
  byte_distance t1 t2 < byte_distance t3 t4 ->
  (exists x y h' h2', @distance f32 (F32 o) (Euclid s) (Some p1) (Some p2) h = (Ok x, h') /\ @distance f32 (F32 o) (Euclid s) (Some p3) (Some p4) h2 = (Ok y, h2') /\
    is_finite x = true /\ is_finite y = true /\ B2R x < B2R y) /\
  (s <> CIELUV -> exists x y h' h2', @distance f32 (F32 o) (Squared s) (Some p1) (Some p2) h = (Ok x, h') /\ @distance f32 (F32 o) (Squared s) (Some p3) (Some p4) h2 = (Ok y, h2') /\
    is_finite x = true /\ is_finite y = true /\ B2R x < B2R y).
Proof. exact ranking. Qed.
Print Assumptions C169_ranking.

(** ** C170: swapping two 8-bit colours does not change a bit of their distance *)
Theorem C170_symmetry : forall o, even_square o -> forall s (h : heap f32) p1 c1 t1 p2 c2 t2, at_addr h p1 c1 -> at_addr h p2 c2 ->
  @wf_color f32 (F32 o) RGB_TRUE c1 -> @wf_color f32 (F32 o) RGB_TRUE c2 -> is_bytes t1 -> is_bytes t2 -> holds_bytes t1 c1 -> holds_bytes t2 c2 ->
  fst (@distance f32 (F32 o) (Euclid s) (Some p1) (Some p2) h) = fst (@distance f32 (F32 o) (Euclid s) (Some p2) (Some p1) h) /\
  (s <> CIELUV -> fst (@distance f32 (F32 o) (Squared s) (Some p1) (Some p2) h) = fst (@distance f32 (F32 o) (Squared s) (Some p2) (Some p1) h)).
Proof. exact symmetry. Qed.
Print Assumptions C170_symmetry.

(** The assumptions on powf hold for some oracle, and every two byte triples are held by two colours. *)
Example C168_oracle : exists o, accurate_square o /\ even_square o.
Proof. exact square_exists. Qed.
Example C168_colours : forall o r1 g1 b1 r2 g2 b2, is_byte r1 -> is_byte g1 -> is_byte b1 -> is_byte r2 -> is_byte g2 -> is_byte b2 ->
  exists (h : heap f32) c1 c2, at_addr h 0%nat c1 /\ at_addr h 1%nat c2 /\ @wf_color f32 (F32 o) RGB_TRUE c1 /\ @wf_color f32 (F32 o) RGB_TRUE c2 /\ holds_bytes (r1, g1, b1) c1 /\ holds_bytes (r2, g2, b2) c2.
Proof.
  intros o r1 g1 b1 r2 g2 b2 A B C D E F. destruct (two_exist o r1 g1 b1 r2 g2 b2 A B C D E F) as [h [c1 [c2 [H1 [H2 [W1 [W2 [_ [B1 [_ [B2 _]]]]]]]]]]]. exists h, c1, c2. auto 10.
Qed.
(** White is the square root of 3 away from black. (10, 5, 10) is nearer to black than (15, 1, 0):
    the squared distances are 225/65025 and 226/65025. *)
Example C169_black_white : byte_distance (0, 0, 0)%Z (255, 255, 255)%Z = sqrt 3.
Proof. unfold byte_distance, euclid. f_equal. unfold squared_distance, fractions_of. cbn [map2 fold_right]. lra. Qed.
Example C169_close : byte_distance (0, 0, 0)%Z (10, 5, 10)%Z < byte_distance (0, 0, 0)%Z (15, 1, 0)%Z.
Proof. apply sqrt_lt_1_alt. unfold squared_distance, fractions_of. cbn [map2 fold_right]. lra. Qed.
