(** * Properties: monochromatic schemes of colours of any type *)
From Coq Require Import ZArith Reals List Bool.
From Flocq Require Import Core.
From Verif Require Import Arith Outcome ColorModel Heap Converter Adjust Combine Spec RArith Spec_Conv Spec_Calc Spec_Blend Spec_Adjust Spec_Combine
  Adjust2_Proofs Scheme2_Proofs.
Import ListNotations.
Local Open Scope R_scope.

(** C228: [s] is a colour of the scheme and [q] the next one; [d] is the HSL colour [s] converts to *)
Theorem C228_steps : forall mode amount n X (h : heap R) p c, (0 <= mode <= 2)%Z -> 0 <= amount <= 1 -> (1 <= n)%Z ->
  at_addr h p c -> wf_color X c -> convertible X = true -> (cie X = true -> has_space h c) ->
  exists qs h', create_monochromatic (Some p) mode amount n h = (Ok (Some p :: map Some qs), h') /\ length qs = Z.to_nat (n - 1) /\ unchanged h h' /\
    forall k s q, nth_error (p :: qs) k = Some s -> nth_error qs k = Some q ->
      exists h0 a h1 d x y z w, unchanged h h0 /\ convertTo (Some s) HSL h0 = (Ok (Some a), h1) /\ unchanged h1 h' /\ at_addr h1 a d /\ hsl_of d x y z /\
        converted_from X h h' q w /\ m_alpha w = alpha c /\
        hsl_of w x (fst (mono_values mode (1 - amount) y z 1)) (snd (mono_values mode (1 - amount) y z 1)).
Proof. exact mono_any. Qed.
Print Assumptions C228_steps.
(** Example: the deep RGB colour (1/2, 0, 1), and an HSL colour. *)
Example C228_example : exists (h : heap R) c, at_addr h 0%nat c /\ wf_color RGB_DEEP c /\ comps c = [1 / 2; 0; 1] /\ m_alpha c = 1 /\
  adjusted LuminateRGB (1 / 2) (1 / 2) 0 1 = [3 / 4; 0; 1] /\
  exists d, at_addr h 1%nat d /\ wf_color HSL d /\ comps d = [120; 1 / 2; 1 / 2].
Proof. exact adjust_exampleR. Qed.

(** C229: [d] is the HSL form (x, y, z) of the base colour, [k] the complement with HSL form (x', y', z') *)
Theorem C229_hues : forall amount X (h : heap R) p c, amount <> 0 -> amount <= 120 -> at_addr h p c -> wf_color X c -> convertible X = true -> (cie X = true -> has_space h c) ->
  exists h1 a d g x y z k h2 a' d' g' x' y' z' q1 q2 h', unchanged h h1 /\ unchanged h1 h2 /\ unchanged h2 h' /\
    convertTo (Some p) HSL h1 = (Ok (Some a), g) /\ at_addr g a d /\ hsl_of d x y z /\ (X = HSL -> d = c) /\
    (exists v w, converted_from X h1 h2 k v /\ hsl_of v w y z /\ normalised (x + 180) w /\ (X = HSL -> d' = v)) /\
    convertTo (Some k) HSL h2 = (Ok (Some a'), g') /\ at_addr g' a' d' /\ hsl_of d' x' y' z' /\
    create_complimentary_split (Some p) amount h = (Ok [Some q1; Some p; Some q2], h') /\
    (exists v w, converted_from X h2 h' q1 v /\ hsl_of v w y' z' /\ normalised (x' - amount) w /\ (X = HSL -> at_addr h' q1 v)) /\
    (exists v w, converted_from X h2 h' q2 v /\ hsl_of v w y' z' /\ normalised (x' + amount) w /\ (X = HSL -> at_addr h' q2 v)).
Proof. exact split_hues. Qed.
Print Assumptions C229_hues.
Theorem C229_hsl : forall amount (h : heap R) p c x y z, amount <> 0 -> amount <= 120 -> at_addr h p c -> wf_color HSL c -> comps c = [x; y; z] ->
  exists q1 q2 h' u x1 x2 r1 r2, create_complimentary_split (Some p) amount h = (Ok [Some q1; Some p; Some q2], h') /\ unchanged h h' /\
    normalised (x + 180) u /\ normalised (u - amount) x1 /\ normalised (u + amount) x2 /\
    at_addr h' q1 r1 /\ hsl_of r1 x1 y z /\ at_addr h' q2 r2 /\ hsl_of r2 x2 y z.
Proof. exact split_hsl. Qed.
Print Assumptions C229_hsl.
(** The HSL colour of [C228_example]; its complement has hue 300 *)
Example C229_example : normalised (120 + 180) 300.
Proof. exact hue_example. Qed.
