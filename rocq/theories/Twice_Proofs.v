(** * color_combinations: the complement of the complement *)
From Coq Require Import ZArith QArith Reals Lra Lia List Bool.
From Flocq Require Import Core IEEE754.BinarySingleNaN.
From Verif Require Import Arith Outcome ColorModel GammaModel MatrixModel SpaceModel Heap Converter Calculation Blend Adjust Combine
  Spec F32 RArith F32Facts Hue32 Spec32 Laws NormalForms History Core_Proofs Core2_Proofs Core3_Proofs Core4_Proofs Convert_Proofs Alpha8
  Spec_Matrix Spec_Conv Spec_Calc Spec_Blend Spec_Adjust Spec_Combine
  Conv_Proofs Conv2_Proofs Conv3_Proofs Total_Proofs HueR_Proofs Round_Proofs Calc_Proofs Calc2_Proofs Calc3_Proofs Blend_Proofs Blend2_Proofs Blend3_Proofs
  Adjust_Proofs Adjust2_Proofs Combine_Proofs Combine2_Proofs Scheme2_Proofs.
Import ListNotations.
Local Open Scope R_scope.

(** The opposite hue, for hues from 0 to 359. *)
Lemma opposite_hue x w : 0 <= x <= 359 -> normalised (x + 180) w -> (x < 180 -> w = Rmin (x + 180) 359) /\ (180 <= x -> w = x - 180).
Proof.
  intros Hx [k [m [E [Hm ->]]]]. split; intros H.
  - assert (k = 0%Z) as ->. { assert (-1 < k < 1)%Z; [split; apply lt_IZR; lra|lia]. } f_equal. lra.
  - assert (k = 1%Z) as ->. { assert (0 < k < 2)%Z; [split; apply lt_IZR; lra|lia]. } rewrite Rmin_left; lra.
Qed.

Lemma complement_hsl (h : heap R) p c x y z : at_addr h p c -> wf_color HSL c -> comps c = [x; y; z] ->
  exists q h' r w, create_complimentary (Some p) h = (Ok (Some q), h') /\ unchanged h h' /\ at_addr h' q r /\ wf_color HSL r /\ comps r = [w; y; z] /\ normalised (x + 180) w.
Proof.
  intros H W E.
  destruct (combination_ok HSL 2 h p c ltac:(lia) H W eq_refl ltac:(discriminate)) as [b1 [b2 [b3 [b4 [b5 [b6 [qs0 [h20 [_ [_ [_ [_ [_ [E20 [_ [U2 [_ K0]]]]]]]]]]]]]]]]].
  destruct (combination_hues 2 h HSL p c ltac:(lia) H W eq_refl ltac:(discriminate)) as [a [d [g [x0 [y0 [z0 [qs [h2 [Ea [Aa [Ed [Id [E2 [L K]]]]]]]]]]]]]].
  rewrite E2 in E20. injection E20 as Eq <-.
  assert (Q0 : qs0 = qs) by (apply (some_inj qs0 qs); congruence).
  subst qs0. destruct qs as [|k [|k' qs]]; [discriminate L| |discriminate L].
  destruct (K0 0%nat k eq_refl) as [_ [r [rv [Ar [Wr [Sr _]]]]]].
  destruct (K 0%nat k eq_refl) as [v [w [Cv [[_ Hv] [Nv Iv]]]]].
  specialize (Iv eq_refl). assert (v = r) as -> by (unfold at_addr in *; congruence).
  rewrite (Id eq_refl) in Ed. destruct Ed as [_ Ed]. rewrite E in Ed. injection Ed as <- <- <-.
  exists k, h2, r, w. split. { unfold create_complimentary, bind. rewrite E2. reflexivity. }
  do 4 (split; [assumption|]). replace (x + 180) with (x + INR 1 * (360 / IZR 2)) by (cbn [INR]; lra). exact Nv.
Qed.

Lemma complement_twice (h : heap R) p c x y z : at_addr h p c -> wf_color HSL c -> comps c = [x; y; z] ->
  exists q h1 q' h2 r, create_complimentary (Some p) h = (Ok (Some q), h1) /\ create_complimentary (Some q) h1 = (Ok (Some q'), h2) /\ unchanged h h2 /\
    at_addr h2 q' r /\ ty r = HSL /\ ((x <= 179 \/ 180 <= x) -> comps r = [x; y; z]) /\ (179 < x < 180 -> comps r = [179; y; z]).
Proof.
  intros H W E. destruct (hsl_ranges c x y z W E) as [Hx _].
  destruct (complement_hsl h p c x y z H W E) as (q & h1 & r1 & w & E1 & U1 & A1 & W1 & C1 & N1).
  destruct (hsl_ranges r1 w y z W1 C1) as [Hw _].
  destruct (complement_hsl h1 q r1 w y z A1 W1 C1) as (q' & h2 & r & v & E2 & U2 & A2 & W2 & C2 & N2).
  exists q, h1, q', h2, r. do 2 (split; [assumption|]). split; [apply (unchanged_trans _ h1); assumption|]. split; [exact A2|]. split; [apply (wf_ty _ _ W2)|].
  destruct (opposite_hue x w Hx N1) as [P1 P2]. destruct (opposite_hue w v Hw N2) as [Q1 Q2]. split.
  - intros [K|K].
    + rewrite Rmin_left in P1 by lra. rewrite C2, Q2, P1 by (try rewrite P1; lra). f_equal. lra.
    + rewrite C2, Q1, P2 by (try rewrite P2; lra). rewrite Rmin_left by lra. f_equal. lra.
  - intros K. rewrite Rmin_right in P1 by lra. rewrite C2, Q2, P1 by (try rewrite P1; lra). f_equal. lra.
Qed.
Lemma complement_twice_refuted (h : heap R) p c x y z : at_addr h p c -> wf_color HSL c -> comps c = [x; y; z] -> 179 < x < 180 ->
  exists q h1 q' h2 r, create_complimentary (Some p) h = (Ok (Some q), h1) /\ create_complimentary (Some q) h1 = (Ok (Some q'), h2) /\
    at_addr h2 q' r /\ comps r = [179; y; z] /\ comps r <> comps c.
Proof.
  intros H W E K. destruct (complement_twice h p c x y z H W E) as (q & h1 & q' & h2 & r & E1 & E2 & _ & A & _ & _ & D). specialize (D K).
  exists q, h1, q', h2, r. do 4 (split; [assumption|]). rewrite D, E. intros Q. injection Q as Q. lra.
Qed.
Lemma twice_example : exists (h : heap R) c d, at_addr h 0%nat c /\ wf_color HSL c /\ comps c = [179.5; 1; 1 / 2] /\
  at_addr h 1%nat d /\ wf_color HSL d /\ comps d = [200; 1; 1 / 2].
Proof.
  destruct (hsl_made (AF := RArith) (AL := RLaws) 179.5 1 (1 / 2) 1 None) as [c [Ec [Wc _]]].
  destruct (hsl_made (AF := RArith) (AL := RLaws) 200 1 (1 / 2) 1 None) as [d [Ed [Wd _]]].
  exists (Heap [c; d] []), c, d. split; [reflexivity|]. split; [exact Wc|]. split.
  { rewrite (hsl_nf (AL := RLaws)) in Ec. apply Ok_inj in Ec. rewrite <- Ec. cbn [comps]. rewrite hue_norm_id, !c01R by lra. reflexivity. }
  split; [reflexivity|]. split; [exact Wd|].
  rewrite (hsl_nf (AL := RLaws)) in Ed. apply Ok_inj in Ed. rewrite <- Ed. cbn [comps]. rewrite hue_norm_id, !c01R by lra. reflexivity.
Qed.
