(** * Properties C145 - C148: what sums, differences, mixtures and dissolve compute *)
From Coq Require Import ZArith QArith Reals Lra Lia List Bool.
From Flocq Require Import Core IEEE754.BinarySingleNaN.
From Verif Require Import Arith Outcome ColorModel SpaceModel Heap Converter Calculation Blend F32 RArith
  Spec Spec32 Spec_Matrix Spec_Conv Spec_Calc Spec_Blend Spec_Round Spec_Formula Spec_Sum Sum_Proofs Sum2_Proofs Sum3_Proofs.
Import ListNotations.
Local Open Scope R_scope.

(** C145: [combined X ia f c1 c2 r]: every component of [r] is [f] of the components of
    [c1] and [c2], cut to its documented range *)
Theorem C145_add : forall X w1 w2 ia (h : heap R) p1 p2 c1 c2, In X plain_types -> 0 <= w1 <= 1 -> 0 <= w2 <= 1 ->
  at_addr h p1 c1 -> at_addr h p2 c2 -> wf_color X c1 -> wf_color X c2 -> (eight_bit X = true -> 0 <= m_alpha c1 <= 1) ->
  returns (typed_add X (Some p1) (Some p2) w1 w2 ia) h (combined X ia (weighted_sum X w1 w2) c1 c2).
Proof. exact add_combined. Qed.
Print Assumptions C145_add.
Theorem C145_subtract : forall X w ia (h : heap R) p1 p2 c1 c2, In X plain_types -> 0 <= w <= 1 ->
  at_addr h p1 c1 -> at_addr h p2 c2 -> wf_color X c1 -> wf_color X c2 -> (eight_bit X = true -> 0 <= m_alpha c1 <= 1) ->
  returns (typed_subtract X (Some p1) (Some p2) w ia) h (combined X ia (fun a b => a - w * b) c1 c2).
Proof. exact subtract_combined. Qed.
Print Assumptions C145_subtract.
(** The other types are converted, added (subtracted without alpha, see C58), and converted back. *)
Theorem C145_add_through : forall o X p1 p2 w1 w2 ia (h : heap f32), adding_type X <> X -> in_interval 0 1 w1 -> in_interval 0 1 w2 ->
  @typed_add f32 (F32 o) X p1 p2 w1 w2 ia h =
  (a <- @to_type f32 (F32 o) (adding_type X) p1 ;; b <- @to_type f32 (F32 o) (adding_type X) p2 ;;
   q <- @typed_add f32 (F32 o) (adding_type X) a b w1 w2 ia ;; @to_type f32 (F32 o) X q)%monad h.
Proof. exact add_through. Qed.
Print Assumptions C145_add_through.
Theorem C145_subtract_through : forall o X p1 p2 w ia (h : heap f32), adding_type X <> X -> in_interval 0 1 w ->
  @typed_subtract f32 (F32 o) X p1 p2 w ia h =
  (a <- @to_type f32 (F32 o) (adding_type X) p1 ;; b <- @to_type f32 (F32 o) (adding_type X) p2 ;;
   q <- @typed_subtract f32 (F32 o) (adding_type X) a b w false ;; @to_type f32 (F32 o) X q)%monad h.
Proof. exact subtract_through. Qed.
Print Assumptions C145_subtract_through.
Example C145_example : exists (h : heap R) c1 c2, at_addr h 0%nat c1 /\ at_addr h 1%nat c2 /\ wf_color RGB_DEEP c1 /\ wf_color RGB_DEEP c2 /\
  comps c1 = [1; 0; 1 / 2] /\ comps c2 = [1; 1 / 4; 0] /\ m_alpha c1 = 1 /\ m_alpha c2 = 1 /\ rgb_space c1 = rgb_space c2.
Proof. apply two_deep; lra. Qed.

(** C146: [circle h s] is the point with angle [h] (degrees) and radius [s] *)
Theorem C146_add : forall w1 w2 ia (h : heap R) p1 p2 c1 c2 h1 s1 v1 h2 s2 v2, 0 <= w1 <= 1 -> 0 <= w2 <= 1 ->
  at_addr h p1 c1 -> at_addr h p2 c2 -> wf_color HSV c1 -> wf_color HSV c2 -> comps c1 = [h1; s1; v1] -> comps c2 = [h2; s2; v2] ->
  returns (add_hsv (Some p1) (Some p2) w1 w2 ia) h (fun r => ty r = HSV /\
    (let '(x1, y1) := circle h1 s1 in let '(x2, y2) := circle h2 s2 in
     hsv_at (w1 * x1 + w2 * x2) (w1 * y1 + w2 * y2) (w1 * v1 + w2 * v2) (comps r)) /\
    alpha r = (if ia then w1 * alpha c1 + w2 * alpha c2 else alpha c1) /\ rgb_space r = rgb_space c1).
Proof. exact add_hsv_circle. Qed.
Print Assumptions C146_add.
Theorem C146_mix : forall w ia (h : heap R) p1 p2 c1 c2 h1 s1 v1 h2 s2 v2, 0 <= w <= 1 ->
  at_addr h p1 c1 -> at_addr h p2 c2 -> wf_color HSV c1 -> wf_color HSV c2 -> comps c1 = [h1; s1; v1] -> comps c2 = [h2; s2; v2] ->
  returns (mix_hsv (Some p1) (Some p2) w ia) h (fun r => ty r = HSV /\
    (let '(x1, y1) := circle h1 s1 in let '(x2, y2) := circle h2 s2 in
     hsv_at (w * x1 + (1 - w) * x2) (w * y1 + (1 - w) * y2) (w * v1 + (1 - w) * v2) (comps r)) /\
    alpha r = (if ia then w * alpha c1 + (1 - w) * alpha c2 else alpha c1) /\ rgb_space r = rgb_space c1).
Proof. exact mix_hsv_circle. Qed.
Print Assumptions C146_mix.
Theorem C146_subtract : forall w ia (h : heap R) p1 p2 c1 c2 h1 s1 v1 h2 s2 v2, 0 <= w <= 1 ->
  at_addr h p1 c1 -> at_addr h p2 c2 -> wf_color HSV c1 -> wf_color HSV c2 -> comps c1 = [h1; s1; v1] -> comps c2 = [h2; s2; v2] ->
  returns (subtract_hsv (Some p1) (Some p2) w ia) h (fun r => ty r = HSV /\
    (let '(x1, y1) := circle h1 s1 in let '(x2, y2) := circle h2 s2 in
     hsv_at (x1 - w * x2) (y1 - w * y2) (v1 - w * v2) (comps r)) /\
    alpha r = (if ia then alpha c1 - w * alpha c2 else alpha c1) /\ rgb_space r = rgb_space c1).
Proof. exact subtract_hsv_circle. Qed.
Print Assumptions C146_subtract.
(** A colour mixed with itself; greys may lose their (meaningless) hue. *)
Theorem C146_self : forall w ia (h : heap R) p1 p2 c1 c2 hue s v, 0 <= w <= 1 -> at_addr h p1 c1 -> at_addr h p2 c2 -> wf_color HSV c1 -> wf_color HSV c2 ->
  comps c1 = [hue; s; v] -> comps c2 = comps c1 -> m_alpha c2 = m_alpha c1 ->
  returns (mix_hsv (Some p1) (Some p2) w ia) h (fun r => ty r = HSV /\ (comps r = comps c1 \/ (s = 0 /\ exists h', comps r = [h'; 0; v])) /\
    alpha r = alpha c1 /\ rgb_space r = rgb_space c1).
Proof. exact mix_hsv_self. Qed.
Print Assumptions C146_self.
(** Hues on both sides of 0 degrees mix to 0, not to 180. *)
Theorem C146_across : forall ia (h : heap R) p1 p2 c1 c2 d s v, 1 <= d < 90 -> 0 < s -> at_addr h p1 c1 -> at_addr h p2 c2 -> wf_color HSV c1 -> wf_color HSV c2 ->
  comps c1 = [360 - d; s; v] -> comps c2 = [d; s; v] ->
  returns (mix_hsv (Some p1) (Some p2) (1 / 2) ia) h (fun r => comps r = [0; s * cos (d * PI / 180); v]).
Proof. exact mix_hsv_across. Qed.
Print Assumptions C146_across.
Example C146_example : exists (h : heap R) c1 c2, at_addr h 0%nat c1 /\ at_addr h 1%nat c2 /\ wf_color HSV c1 /\ wf_color HSV c2 /\
  comps c1 = [360 - 10; 1; 1] /\ comps c2 = [10; 1; 1].
Proof. exact two_hsv. Qed.

(** C147: false for RGB (mixtures are root mean squares) and for HSV *)
Theorem C147_rgb_refuted : exists (h : heap R) c1 c2, at_addr h 0%nat c1 /\ at_addr h 1%nat c2 /\ wf_color RGB_DEEP c1 /\ wf_color RGB_DEEP c2 /\
  returns (typed_mix RGB_DEEP (Some 0%nat) (Some 1%nat) (1 / 2) false) h (fun r => comps r = [sqrt (1 / 2); sqrt (1 / 2); 0]) /\
  returns (average RGB_DEEP [Some 0%nat; Some 1%nat] false) h (fun r => comps r = [1 / 2; 1 / 2; 0]) /\ sqrt (1 / 2) <> 1 / 2.
Proof. exact half_mix_rgb. Qed.
Print Assumptions C147_rgb_refuted.
Theorem C147_hsv_refuted : exists (h : heap R) c1 c2, at_addr h 0%nat c1 /\ at_addr h 1%nat c2 /\ wf_color HSV c1 /\ wf_color HSV c2 /\
  comps c1 = [350; 1; 1] /\ comps c2 = [10; 1; 1] /\
  returns (typed_mix HSV (Some 0%nat) (Some 1%nat) (1 / 2) false) h (fun r => exists s, comps r = [0; s; 1]) /\
  returns (average HSV [Some 0%nat; Some 1%nat] false) h (fun r => comps r = [180; 1; 1]).
Proof. exact half_mix_hsv. Qed.
Print Assumptions C147_hsv_refuted.
Theorem C147_partial : forall X (h : heap R) p1 p2 c1 c2, In X [GREY_TRUE; GREY_DEEP; CMYK; XYZ; XYY; CIELUV] ->
  at_addr h p1 c1 -> at_addr h p2 c2 -> wf_color X c1 -> wf_color X c2 -> (eight_bit X = true -> 0 <= m_alpha c1 <= 1 /\ 0 <= m_alpha c2 <= 1) ->
  exists q1 r1 h1 q2 r2 h2, typed_mix X (Some p1) (Some p2) (1 / 2) false h = (Ok (Some q1), h1) /\ at_addr h1 q1 r1 /\
    average X [Some p1; Some p2] false h = (Ok (Some q2), h2) /\ at_addr h2 q2 r2 /\
    ty r1 = ty r2 /\ comps r1 = comps r2 /\ alpha r1 = alpha r2 /\ rgb_space r1 = rgb_space r2.
Proof. exact half_mix_average. Qed.
Print Assumptions C147_partial.

(** C148: false if only one of the colours is an 8-bit colour: alpha() of such colours is on
    the scale 0..255.  Here an opaque deep source is dissolved with a half transparent
    8-bit destination, the random numbers favour the more opaque colour, and the result is
    the destination. *)
Theorem C148_opaque_refuted : exists (h : heap R) c1 c2, at_addr h 0%nat c1 /\ at_addr h 1%nat c2 /\ wf_color RGB_DEEP c1 /\ wf_color RGB_TRUE c2 /\
  rgb_space c1 = rgb_space c2 /\ comps c1 = [0; 0; 0] /\ comps c2 = [255; 255; 255] /\ m_alpha c1 = 1 /\ m_alpha c2 = 1 / 2 /\
  returns (blend_dissolve (fun _ => 50%Z) (Some 0%nat) (Some 1%nat) false false) h (fun r => comps r = [1; 1; 1]).
Proof. exact dissolve_wrong. Qed.
Print Assumptions C148_opaque_refuted.
(** In general an 8-bit destination is favoured as soon as its alpha is at least 1/255. *)
Theorem C148_eight_bit : forall rnd us ud (h : heap R) p1 c1 p2 c2 r g b, (forall i, 25 <= rnd i <= 100)%Z ->
  at_addr h p1 c1 -> at_addr h p2 c2 -> wf_color RGB_DEEP c1 -> wf_color RGB_TRUE c2 -> comps c2 = [r; g; b] ->
  0 <= m_alpha c1 <= 1 -> 1 / 255 <= m_alpha c2 <= 1 -> rgb_space c1 = rgb_space c2 ->
  returns (blend_dissolve rnd (Some p1) (Some p2) us ud) h (fun x =>
    let a := m_alpha c1 in let b' := m_alpha c2 in
    let sa := if us then a * (1 - b') else 0 in let da := if ud then b' * (1 - a) else 0 in
    ty x = RGB_DEEP /\ length (comps x) = 3%nat /\ alpha x = sa + da + a * b' /\
    forall i s d v, nth_error (comps c1) i = Some s -> nth_error (comps c2) i = Some d -> nth_error (comps x) i = Some v ->
      alpha x * v = sa * s + da * (d / 255) + a * b' * (d / 255)).
Proof. exact dissolve_mixed. Qed.
Print Assumptions C148_eight_bit.
(** True for deep colours: in the common area each component is the one of the more opaque
    colour (the destination's if none is), except for 25 of 101 random numbers. *)
Theorem C148_deep_partial : forall rnd us ud (h : heap R) p1 c1 p2 c2, (forall i, 0 <= rnd i)%Z ->
  at_addr h p1 c1 -> at_addr h p2 c2 -> wf_color RGB_DEEP c1 -> wf_color RGB_DEEP c2 ->
  0 <= alpha c1 <= 1 -> 0 <= alpha c2 <= 1 -> rgb_space c1 = rgb_space c2 ->
  returns (blend_dissolve rnd (Some p1) (Some p2) us ud) h (fun r =>
    let sa := if us then alpha c1 * (1 - alpha c2) else 0 in let da := if ud then alpha c2 * (1 - alpha c1) else 0 in
    ty r = RGB_DEEP /\ length (comps r) = 3%nat /\ alpha r = sa + da + alpha c1 * alpha c2 /\
    forall i s d v, nth_error (comps c1) i = Some s -> nth_error (comps c2) i = Some d -> nth_error (comps r) i = Some v ->
      alpha r * v = sa * s + da * d + alpha c1 * alpha c2 * dissolved (rnd i) (alpha c1) (alpha c2) s d).
Proof. exact dissolve_formula. Qed.
Print Assumptions C148_deep_partial.
Example C148_example : exists (h : heap R) c1 c2, at_addr h 0%nat c1 /\ at_addr h 1%nat c2 /\ wf_color RGB_DEEP c1 /\ wf_color RGB_DEEP c2 /\
  comps c1 = [0; 0; 0] /\ comps c2 = [1; 1; 1] /\ m_alpha c1 = 1 / 2 /\ m_alpha c2 = 1 / 4 /\ rgb_space c1 = rgb_space c2.
Proof. apply two_deep; lra. Qed.
