(** * Properties C72-C75, C101-C109: color_distance *)
From Coq Require Import ZArith QArith Reals List Bool.
From Flocq Require Import Core IEEE754.BinarySingleNaN.
From Verif Require Import Arith Outcome ColorModel Heap Converter Distance Spec F32 RArith Spec32 History Spec_Conv Spec_Calc Spec_Distance Spec_Distance2
  Distance_Proofs Distance2_Proofs Distance3_Proofs Distance4_Proofs Distance5_Proofs Distance6_Proofs.
Import ListNotations.
Local Open Scope R_scope.

(** C72: Euclidean distance (RGB colours of depth float) and CIE76 (Lab colours) are metrics *)
Theorem C72_metric : forall d (h : heap R) p1 c1 p2 c2 p3 c3, d = Cie76 \/ (exists s, d = Euclid s) ->
  at_addr h p1 c1 -> at_addr h p2 c2 -> at_addr h p3 c3 ->
  wf_color (compared_in d) c1 -> wf_color (compared_in d) c2 -> wf_color (compared_in d) c3 ->
  (d = Cie76 -> has_space h c1 /\ has_space h c2 /\ has_space h c3) ->
  exists d12 d21 d23 d13, distance d (Some p1) (Some p2) h = (Ok d12, h) /\ distance d (Some p2) (Some p1) h = (Ok d21, h) /\
    distance d (Some p2) (Some p3) h = (Ok d23, h) /\ distance d (Some p1) (Some p3) h = (Ok d13, h) /\
    0 <= d12 /\ d12 = d21 /\ (d12 = 0 <-> comps c1 = comps c2) /\ d13 <= d12 + d23.
Proof. exact metric_laws. Qed.
Print Assumptions C72_metric.
Theorem C72_squared : forall s (h : heap R) p1 c1 p2 c2, at_addr h p1 c1 -> at_addr h p2 c2 ->
  wf_color (compared_in (F := R) (Squared s)) c1 -> wf_color (compared_in (F := R) (Squared s)) c2 -> (s = CIELUV -> has_space h c1 /\ has_space h c2) ->
  exists d, distance (Squared s) (Some p1) (Some p2) h = (Ok d, h) /\ distance (Squared s) (Some p2) (Some p1) h = (Ok d, h) /\
    0 <= d /\ (d = 0 <-> comps c1 = comps c2).
Proof. exact squared_laws. Qed.
Print Assumptions C72_squared.
(** The values themselves, after conversion of colours of any type. *)
Theorem C72_value : forall d X1 X2 (h : heap R) p1 c1 p2 c2, p1 <> p2 -> at_addr h p1 c1 -> at_addr h p2 c2 -> wf_color X1 c1 -> wf_color X2 c2 ->
  (needs_space X1 (compared_in d) = true -> has_space h c1) -> (needs_space X2 (compared_in d) = true -> has_space h c2) -> sensible d ->
  exists h' d1 d2, converted_pair (compared_in d) h p1 p2 h' d1 d2 /\ wf_color (compared_in d) d1 /\ wf_color (compared_in d) d2 /\
    (forall x, value d (comps d1) (comps d2) = Some x -> distance d (Some p1) (Some p2) h = (Ok x, h')) /\
    (X1 = compared_in d -> d1 = c1) /\ (X2 = compared_in d -> d2 = c2) /\ (X1 = compared_in d -> X2 = compared_in d -> h' = h).
Proof. exact distance_value. Qed.
Print Assumptions C72_value.
(** Two RGB colours, two Lab colours. *)
Example C72_example : exists (h : heap R) c1 c2, at_addr h 0%nat c1 /\ at_addr h 1%nat c2 /\ wf_color RGB_DEEP c1 /\ wf_color RGB_DEEP c2 /\
  comps c1 = [1; 0; 1 / 2] /\ comps c2 = [0; 1 / 4; 1].
Proof. exact deep_pair. Qed.
Example C72_example_lab : forall l1 a1 b1 l2 a2 b2, 0 <= l1 <= 100 -> -128 <= a1 <= 128 -> -128 <= b1 <= 128 -> 0 <= l2 <= 100 -> -128 <= a2 <= 128 -> -128 <= b2 <= 128 ->
  exists (h : heap R) c1 c2, at_addr h 0%nat c1 /\ at_addr h 1%nat c2 /\ wf_color LAB c1 /\ wf_color LAB c2 /\ has_space h c1 /\ has_space h c2 /\
    comps c1 = [l1; a1; b1] /\ comps c2 = [l2; a2; b2].
Proof. exact lab_pair. Qed.

(** C73: for all Lab colours of equal lightness on the positive a axis *)
Theorem C73_symmetric_refuted : forall (h : heap R) p1 c1 p2 c2 l a1 a2, p1 <> p2 -> at_addr h p1 c1 -> at_addr h p2 c2 -> wf_color LAB c1 -> wf_color LAB c2 ->
  has_space h c1 -> has_space h c2 -> comps c1 = [l; a1; 0] -> comps c2 = [l; a2; 0] -> 0 <= a2 < a1 ->
  exists x y, distance (Cie94 1 (45 / 1000) (15 / 1000) 1 1) (Some p1) (Some p2) h = (Ok x, h) /\
    distance (Cie94 1 (45 / 1000) (15 / 1000) 1 1) (Some p2) (Some p1) h = (Ok y, h) /\ x < y.
Proof. exact cie94_asymmetric. Qed.
Print Assumptions C73_symmetric_refuted.
Theorem C73_same_chroma_partial : forall kL k1 k2 kC kH (h : heap R) p1 c1 p2 c2 l1 a1 b1 l2 a2 b2, 0 < kL -> 0 <= k1 -> 0 <= k2 -> 0 < kC -> 0 < kH ->
  at_addr h p1 c1 -> at_addr h p2 c2 -> wf_color LAB c1 -> wf_color LAB c2 -> has_space h c1 -> has_space h c2 ->
  comps c1 = [l1; a1; b1] -> comps c2 = [l2; a2; b2] -> a1 * a1 + b1 * b1 = a2 * a2 + b2 * b2 ->
  exists d, distance (Cie94 kL k1 k2 kC kH) (Some p1) (Some p2) h = (Ok d, h) /\ distance (Cie94 kL k1 k2 kC kH) (Some p2) (Some p1) h = (Ok d, h).
Proof. exact cie94_symmetric_same. Qed.
Print Assumptions C73_same_chroma_partial.
(** Colours: [C72_example_lab] with (50, 20, 0), (50, 10, 0) and with (50, 3, 4), (60, 5, 0). *)

(** C74: the square root of the squared distance is taken in RGB, whatever space is asked for *)
Theorem C74_space_refuted : forall (h : heap R) p1 c1 p2 c2, at_addr h p1 c1 -> at_addr h p2 c2 -> wf_color CIELUV c1 -> wf_color CIELUV c2 ->
  has_space h c1 -> has_space h c2 -> 3 < squared_distance (comps c1) (comps c2) ->
  exists x y h', euclidean_distance (Some p1) (Some p2) CIELUV h = (Ok x, h') /\
    euclidean_distance_squared (Some p1) (Some p2) CIELUV h = (Ok y, h) /\ x < sqrt y.
Proof. exact luv_ignored. Qed.
Print Assumptions C74_space_refuted.
Theorem C74_rgb_partial : forall o s p q (h : heap f32) d h', @euclidean_distance_squared f32 (F32 o) p q RGB_DEEP h = (Ok d, h') ->
  @euclidean_distance f32 (F32 o) p q s h = (Ok (@fsqrt f32 (F32 o) d), h').
Proof. exact euclid_of_squared. Qed.
Print Assumptions C74_rgb_partial.
Example C74_example : exists (h : heap R) c1 c2, at_addr h 0%nat c1 /\ at_addr h 1%nat c2 /\ wf_color CIELUV c1 /\ wf_color CIELUV c2 /\ has_space h c1 /\ has_space h c2 /\
  3 < squared_distance (comps c1) (comps c2).
Proof. exact luv_pair. Qed.

(** C75: every distance measured in Lab darkens an RGB colour of depth float *)
Theorem C75_unchanged_refuted : forall o (d : distance_fun f32), compared_in d = LAB ->
  exists (h : heap f32) c c', at_addr h 0%nat c /\ at_addr h 1%nat c /\ @reachable f32 (F32 o) c /\ has_space h c /\
    (exists r h', @distance f32 (F32 o) d (Some 0%nat) (Some 1%nat) h = (r, h') /\ at_addr h' 0%nat c') /\
    comp_sat c 0 (fun x => is_value x (1 / 32)) /\ comp_sat c' 0 (fun x => is_finite x = true /\ (B2R x < 1 / 320)%R).
Proof. exact distance_darkens. Qed.
Print Assumptions C75_unchanged_refuted.
Theorem C75_unchanged_partial : forall o (d : distance_fun f32) X1 X2 (h : heap f32) p1 c1 p2 c2, at_addr h p1 c1 -> at_addr h p2 c2 ->
  @wf_color f32 (F32 o) X1 c1 -> @wf_color f32 (F32 o) X2 c2 ->
  (needs_space X1 (compared_in d) = true -> has_space h c1) -> (needs_space X2 (compared_in d) = true -> has_space h c2) ->
  (X1 <> RGB_DEEP /\ X2 <> RGB_DEEP) \/ cie (compared_in d) = false ->
  exists r h', @distance f32 (F32 o) d (Some p1) (Some p2) h = (r, h') /\ unchanged h h'.
Proof. exact distance_unchanged. Qed.
Print Assumptions C75_unchanged_partial.
Example C75_example : forall o l1 a1 b1 l2 a2 b2, Forall (fun n => (0 <= n <= 100)%Z) [l1; l2] -> Forall (fun n => (-128 <= n <= 128)%Z) [a1; b1; a2; b2] ->
  exists (h : heap f32) c1 c2, at_addr h 0%nat c1 /\ at_addr h 1%nat c2 /\ @wf_color f32 (F32 o) LAB c1 /\ @wf_color f32 (F32 o) LAB c2 /\ has_space h c1 /\ has_space h c2 /\
    @reachable f32 (F32 o) c1 /\ @reachable f32 (F32 o) c2 /\ comps c1 = map (@fz f32 (F32 o)) [l1; a1; b1] /\ comps c2 = map (@fz f32 (F32 o)) [l2; a2; b2].
Proof. exact lab_pair32. Qed.

(** C101 (colours: [C72_example]) *)
Theorem C101_weighted : forall (h : heap R) p1 c1 p2 c2, at_addr h p1 c1 -> at_addr h p2 c2 -> wf_color RGB_DEEP c1 -> wf_color RGB_DEEP c2 ->
  exists d, distance Weighted (Some p1) (Some p2) h = (Ok d, h) /\ distance Weighted (Some p2) (Some p1) h = (Ok d, h) /\
    sqrt 2 * euclid (comps c1) (comps c2) <= d <= 2 * euclid (comps c1) (comps c2).
Proof. exact weighted_laws. Qed.
Print Assumptions C101_weighted.

(** C102 (colours: [C72_example_lab]) *)
Theorem C102_cie94 : forall kL k1 k2 kC kH (h : heap R) p1 c1 p2 c2, 0 < kL -> 0 <= k1 -> 0 <= k2 -> 0 < kC -> 0 < kH ->
  at_addr h p1 c1 -> at_addr h p2 c2 -> wf_color LAB c1 -> wf_color LAB c2 -> has_space h c1 -> has_space h c2 ->
  exists d, distance (Cie94 kL k1 k2 kC kH) (Some p1) (Some p2) h = (Ok d, h) /\ d = delta_e_94 kL k1 k2 kC kH (comps c1) (comps c2) /\
    0 <= d /\ (d = 0 <-> comps c1 = comps c2).
Proof. exact cie94_laws. Qed.
Print Assumptions C102_cie94.

(** C103 *)
Theorem C103_sane : forall d X1 X2 (h : heap R) p1 c1 p2 c2, at_addr h p1 c1 -> at_addr h p2 c2 -> wf_color X1 c1 -> wf_color X2 c2 ->
  (needs_space X1 (compared_in d) = true -> has_space h c1) -> (needs_space X2 (compared_in d) = true -> has_space h c2) -> sensible d ->
  exists x h', distance d (Some p1) (Some p2) h = (Ok x, h') /\ 0 <= x /\ (p1 = p2 -> x = 0) /\
    (p1 <> p2 -> exists d1 d2, converted_pair (compared_in d) h p1 p2 h' d1 d2 /\ (comps d1 = comps d2 -> x = 0)).
Proof. exact distance_sane. Qed.
Print Assumptions C103_sane.
Example C103_example : sensible (Cie00 1 (45 / 1000) (15 / 1000) 1 1) /\ sensible (Cmc 2 1).
Proof. cbn. repeat split; Lra.lra. Qed.

(** C104 *)
Theorem C104_total : forall o (d : distance_fun f32) X1 X2 (h : heap f32) p1 c1 p2 c2, match d with Cie00 _ _ _ _ _ => False | _ => True end ->
  at_addr h p1 c1 -> at_addr h p2 c2 -> @wf_color f32 (F32 o) X1 c1 -> @wf_color f32 (F32 o) X2 c2 ->
  (needs_space X1 (compared_in d) = true -> has_space h c1) -> (needs_space X2 (compared_in d) = true -> has_space h c2) ->
  exists x h', @distance f32 (F32 o) d (Some p1) (Some p2) h = (Ok x, h') /\ spaces h' = spaces h /\
    (forall i c, i <> p1 -> i <> p2 -> at_addr h i c -> at_addr h' i c).
Proof. exact distance_total32. Qed.
Print Assumptions C104_total.

(** C105 *)
Theorem C105_symmetric : forall kL k1 k2 kC kH (h : heap R) p1 c1 p2 c2, at_addr h p1 c1 -> at_addr h p2 c2 -> wf_color LAB c1 -> wf_color LAB c2 ->
  has_space h c1 -> has_space h c2 ->
  exists d, distance (Cie00 kL k1 k2 kC kH) (Some p1) (Some p2) h = (Ok d, h) /\ distance (Cie00 kL k1 k2 kC kH) (Some p2) (Some p1) h = (Ok d, h).
Proof. exact cie00_symmetric. Qed.
Print Assumptions C105_symmetric.

(** C106: too small for all colours of equal lightness on the positive a axis *)
Theorem C106_published_refuted : forall (h : heap R) p1 c1 p2 c2 l a1 a2, p1 <> p2 -> at_addr h p1 c1 -> at_addr h p2 c2 -> wf_color LAB c1 -> wf_color LAB c2 ->
  has_space h c1 -> has_space h c2 -> comps c1 = [l; a1; 0] -> comps c2 = [l; a2; 0] -> 0 < a1 -> a1 < a2 ->
  exists x, distance (Cie00 1 (45 / 1000) (15 / 1000) 1 1) (Some p1) (Some p2) h = (Ok x, h) /\ x < ciede2000 1 1 1 (comps c1) (comps c2).
Proof. exact cie00_wrong. Qed.
Print Assumptions C106_published_refuted.
(** The code is the published formula except for five choices: hue angles are truncated to
    integers, the chroma is not recomputed, hues more than 180 degrees apart always get 360
    added to their sum, greys have no case of their own, and the exponent has the wrong sign. *)
Theorem C106_deviations_partial : forall kL k1 k2 kC kH (h : heap R) p1 c1 p2 c2, p1 <> p2 -> at_addr h p1 c1 -> at_addr h p2 c2 ->
  wf_color LAB c1 -> wf_color LAB c2 -> has_space h c1 -> has_space h c2 -> 0 < kL -> 0 <= k1 -> 0 <= k2 -> 0 < kC -> 0 < kH ->
  distance (Cie00 kL k1 k2 kC kH) (Some p1) (Some p2) h =
  (Ok (ciede2000_with whole_hue false (fun h1 h2 => (h1 + h2 + 360) / 2) false 1 kL k1 k2 kC kH (comps c1) (comps c2)), h).
Proof. exact cie00_deviates. Qed.
Print Assumptions C106_deviations_partial.
Theorem C106_choices_partial : forall kL kC kH v w,
  ciede2000_with hue_angle true far_mean true (-1) kL (45 / 1000) (15 / 1000) kC kH v w = ciede2000 kL kC kH v w.
Proof. exact published_choices. Qed.
Print Assumptions C106_choices_partial.

(** C107: for every library whose squares are correctly rounded, and in the third case e^121
    overflows and the sine of infinity is not a number *)
Theorem C107_cie94_refuted : forall o kL k1 k2 kC kH, squares o ->
  exists (h : heap f32) c1 c2, at_addr h 0%nat c1 /\ at_addr h 1%nat c2 /\ has_space h c1 /\ has_space h c2 /\
    @reachable f32 (F32 o) c1 /\ @reachable f32 (F32 o) c2 /\ comps c1 = map (@fz f32 (F32 o)) [50; -12; 2]%Z /\ comps c2 = map (@fz f32 (F32 o)) [50; -6; 1]%Z /\
    @distance f32 (F32 o) (Cie94 kL k1 k2 kC kH) (Some 0%nat) (Some 1%nat) h = (Ok B754_nan, h).
Proof. exact cie94_nan. Qed.
Print Assumptions C107_cie94_refuted.
Theorem C107_cmc_refuted : forall o l c, squares o ->
  exists (h : heap f32) c1 c2, at_addr h 0%nat c1 /\ at_addr h 1%nat c2 /\ has_space h c1 /\ has_space h c2 /\
    @reachable f32 (F32 o) c1 /\ @reachable f32 (F32 o) c2 /\ comps c1 = map (@fz f32 (F32 o)) [50; -12; 2]%Z /\ comps c2 = map (@fz f32 (F32 o)) [50; -6; 1]%Z /\
    @distance f32 (F32 o) (Cmc l c) (Some 0%nat) (Some 1%nat) h = (Ok B754_nan, h).
Proof. exact cmc_nan. Qed.
Print Assumptions C107_cmc_refuted.
Theorem C107_cie00_refuted : forall o kL k1 k2 kC kH, libm_values o ->
  exists (h : heap f32) c1 c2, at_addr h 0%nat c1 /\ at_addr h 1%nat c2 /\ has_space h c1 /\ has_space h c2 /\
    @reachable f32 (F32 o) c1 /\ @reachable f32 (F32 o) c2 /\ comps c1 = map (@fz f32 (F32 o)) [50; 12; 0]%Z /\ comps c2 = map (@fz f32 (F32 o)) [50; 20; 0]%Z /\
    @distance f32 (F32 o) (Cie00 kL k1 k2 kC kH) (Some 0%nat) (Some 1%nat) h = (Ok B754_nan, h).
Proof. exact cie00_nan. Qed.
Print Assumptions C107_cie00_refuted.
Example C107_example : exists o, libm_values o.
Proof. exact libm_example. Qed.

(** C108 *)
Theorem C108_cmc : forall l c (h : heap R) p1 c1 p2 c2 l1 a1 b1, p1 <> p2 -> at_addr h p1 c1 -> at_addr h p2 c2 -> wf_color LAB c1 -> wf_color LAB c2 ->
  has_space h c1 -> has_space h c2 -> 0 < l -> 0 < c -> comps c1 = [l1; a1; b1] -> hue_angle b1 a1 <> 164 ->
  distance (Cmc l c) (Some p1) (Some p2) h = (Ok (cmc_lc84 l c (comps c1) (comps c2)), h).
Proof. exact cmc_is_published. Qed.
Print Assumptions C108_cmc.
Example C108_example : hue_angle 0 10 <> 164.
Proof. rewrite hue_angle_axis; Lra.lra. Qed.

(** C109: for every grey and every colour of the same lightness on the positive a axis *)
Theorem C109_symmetric_refuted : forall l c (h : heap R) p1 c1 p2 c2 L a, p1 <> p2 -> at_addr h p1 c1 -> at_addr h p2 c2 -> wf_color LAB c1 -> wf_color LAB c2 ->
  has_space h c1 -> has_space h c2 -> 0 < l -> 0 < c -> comps c1 = [L; 0; 0] -> comps c2 = [L; a; 0] -> 0 < a ->
  exists x y, distance (Cmc l c) (Some p1) (Some p2) h = (Ok x, h) /\ distance (Cmc l c) (Some p2) (Some p1) h = (Ok y, h) /\ y < x.
Proof. exact cmc_asymmetric. Qed.
Print Assumptions C109_symmetric_refuted.
