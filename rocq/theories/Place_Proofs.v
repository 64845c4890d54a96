(** * The adjustments on references store what those on pointers return *)
From Coq Require Import ZArith Reals Lra Lia List Bool.
From Flocq Require Import Core IEEE754.BinarySingleNaN.
From Verif Require Import Arith Outcome ColorModel GammaModel MatrixModel SpaceModel Heap Converter Calculation Blend Adjust
  Spec F32 RArith F32Facts Hue32 Spec32 Laws NormalForms History Core_Proofs Core2_Proofs Core3_Proofs Core4_Proofs Convert_Proofs Alpha8
  Spec_Matrix Spec_Conv Spec_Calc Spec_Blend Spec_Adjust
  Conv_Proofs Conv2_Proofs Conv3_Proofs Total_Proofs HueR_Proofs Round_Proofs Calc_Proofs Calc2_Proofs Calc3_Proofs Blend_Proofs Blend2_Proofs Blend3_Proofs
  Adjust_Proofs Adjust2_Proofs.
Import ListNotations.

Section Place.
Variable o : oracle.
Local Notation wf := (@wf_color f32 (F32 o)).
Lemma in_place_stores a pc (h : heap f32) X p c : at_addr h p c -> wf X c -> convertible X = true -> (cie X = true -> has_space h c) ->
  exists q r h1 h', @adjust f32 (F32 o) a (Some p) pc h = (Ok (Some q), h1) /\ at_addr h1 q r /\ @adjust_in_place f32 (F32 o) a p pc h = (Ok tt, h') /\ at_addr h' p r.
Proof.
  intros H W C N.
  assert (Q : exists q r h1 c1, @adjust f32 (F32 o) a (Some p) pc h = (Ok (Some q), h1) /\ at_addr h1 q r /\ at_addr h1 p c1 /\
     wf X c1 /\ wf X r /\ rgb_space r = rgb_space c /\ others_unchanged h h1 p).
  { assert (OU : forall h', unchanged h h' -> others_unchanged h h' p) by (intros h' [A B]; split; auto).
    destruct (in_hsl a) eqn:Ha.
    - destruct (@feq f32 (F32 o) pc (@fz f32 (F32 o) 0)) eqn:P.
      + destruct (adjust_is_hsl o a Ha) as [-> Hi]. exists p, c, h, c. split; [apply (adjust_hsl_zero (AF := F32 o)), P|].
        do 5 (split; [first [assumption|reflexivity]|]). apply OU, unchanged_refl.
      + destruct (ctype_eq_dec X HSL) as [->|D].
        * destruct (adjust_is_hsl o a Ha) as [-> Hi].
          destruct (adjust_hsl_self (AF := F32 o) (hsl_component a) h p c pc Hi P H W) as [x [v [_ [_ [Wv [Av [Sv E]]]]]]].
          exists p, v, (Heap (upd p v (colors h)) (spaces h)), v. split; [exact E|]. pose proof (at_upd h p c v H).
          do 5 (split; [assumption|]). split; [reflexivity|]. intros j c0 Nj Hj. unfold at_addr. cbn [colors].
          rewrite upd_nth_other by congruence. exact Hj.
        * destruct (adjust_total o a pc h X p c H W C N) as [q [r [h' [E [_ [Aq [_ [S [U Wr]]]]]]]]].
          { intros _. split; [exact D|]. intros V. rewrite (zero_eq o pc V) in P. discriminate P. }
          exists q, r, h', c. pose proof (proj2 U _ _ H). auto 9.
    - destruct (adjust_total o a pc h X p c H W C N) as [q [r [h' [E [_ [Aq [_ [S [U Wr]]]]]]]]]; [congruence|].
      exists q, r, h', c. pose proof (proj2 U _ _ H). auto 9. }
  destruct Q as [q [r [h1 [c1 [E [Aq [Ap [W1 [Wr [S OU]]]]]]]]]].
  exists q, r, h1, (Heap (upd p r (colors h1)) (spaces h1)). split; [exact E|]. split; [exact Aq|]. split.
  { destruct a; exact (@adjust_ref_run f32 (F32 o) _ h h1 X p pc q c1 r E Aq Ap W1 Wr). }
  apply (at_upd h1 p c1 r Ap).
Qed.
End Place.
