(** * color_calculation: the average hue *)
From Coq Require Import ZArith QArith Reals Lra Lia List Bool.
From Flocq Require Import Core IEEE754.BinarySingleNaN.
From Verif Require Import Arith Outcome ColorModel Heap Calculation Spec RArith Laws NormalForms Core_Proofs Core2_Proofs Convert_Proofs
  Spec_Conv Spec_Calc HueR_Proofs Round_Proofs Calc_Proofs Calc2_Proofs Calc3_Proofs Calc4_Proofs Core_Proofs Blend3_Proofs Blend2_Proofs HueR_Proofs.
Import ListNotations.
Local Open Scope R_scope.

(** The position of the hue among the components. *)
Definition hue_at (X : ctype) : nat := match X with LCH_AB | LCH_UV => 2 | _ => 0 end.
(** The angle between two hues in degrees, at most 180. *)
Definition arc (a b : R) : R := Rmin (Rabs (a - b)) (360 - Rabs (a - b)).

Lemma hue_pair X ia (h : heap R) p1 p2 c1 c2 x y : In X [HSV; HSL; HSI; HCY; LCH_AB; LCH_UV] -> at_addr h p1 c1 -> at_addr h p2 c2 -> wf_color X c1 -> wf_color X c2 ->
  nth_error (comps c1) (hue_at X) = Some x -> nth_error (comps c2) (hue_at X) = Some y ->
  0 <= x <= 359 /\ 0 <= y <= 359 /\ returns (average X [Some p1; Some p2] ia) h (fun r => ty r = X /\ nth_error (comps r) (hue_at X) = Some ((x + y) / 2)).
Proof.
  intros HX A1 A2 W1 W2 E1 E2.
  assert (B1 : 0 <= x <= 359). { assert (B := wf_rng X c1 (hue_at X) x W1 E1). cbn [In] in HX. destruct HX as [<-|[<-|[<-|[<-|[<-|[<-|[]]]]]]]; cbv in B; lra. }
  assert (B2 : 0 <= y <= 359). { assert (B := wf_rng X c2 (hue_at X) y W2 E2). cbn [In] in HX. destruct HX as [<-|[<-|[<-|[<-|[<-|[<-|[]]]]]]]; cbv in B; lra. }
  split; [exact B1|]. split; [exact B2|].
  assert (In X all_types /\ eight_bit X = false /\ arity X = 3%nat) as [I [E8 Ar]].
  { cbn [In] in HX. destruct HX as [<-|[<-|[<-|[<-|[<-|[<-|[]]]]]]]; (split; [cbv; tauto|split; reflexivity]). }
  apply (returns_impl _ _ _ _ (average_means X ia h (Some p1) [Some p2] c1 [c2] I
    (Forall2_cons _ _ (ex_intro _ p1 (conj eq_refl A1)) (Forall2_cons _ _ (ex_intro _ p2 (conj eq_refl A2)) (Forall2_nil _)))
    (Forall_cons _ W1 (Forall_cons _ W2 (Forall_nil _))) ltac:(congruence))).
  intros r [T [C _]]. split; [exact T|]. rewrite C, Ar.
  assert (Q : nth_error (map (fun i => mean (components i [c1; c2])) (seq 0 3)) (hue_at X) = Some (mean (components (hue_at X) [c1; c2]))).
  { destruct X; reflexivity. }
  etransitivity; [exact Q|]. f_equal.
  unfold components. cbn [map]. rewrite (nth_error_nth _ _ (fz 0) E1), (nth_error_nth _ _ (fz 0) E2). unfold mean. cbn [fold_right length INR]. lra.
Qed.

Lemma hue_mean_close X ia (h : heap R) p1 p2 c1 c2 x y : In X [HSV; HSL; HSI; HCY; LCH_AB; LCH_UV] -> at_addr h p1 c1 -> at_addr h p2 c2 -> wf_color X c1 -> wf_color X c2 ->
  nth_error (comps c1) (hue_at X) = Some x -> nth_error (comps c2) (hue_at X) = Some y -> Rabs (x - y) <= 180 ->
  returns (average X [Some p1; Some p2] ia) h (fun r => ty r = X /\ exists w, nth_error (comps r) (hue_at X) = Some w /\ arc w x = arc x y / 2 /\ arc w y = arc x y / 2).
Proof.
  intros HX A1 A2 W1 W2 E1 E2 D. destruct (hue_pair X ia h p1 p2 c1 c2 x y HX A1 A2 W1 W2 E1 E2) as [B1 [B2 K]].
  apply (returns_impl _ _ _ _ K). intros r [T C]. split; [exact T|]. exists ((x + y) / 2). split; [exact C|].
  unfold arc, Rmin. revert D. unfold Rabs. repeat destruct (Rcase_abs _); repeat destruct (Rle_dec _ _); lra.
Qed.
Lemma hue_mean_far X ia (h : heap R) p1 p2 c1 c2 x y : In X [HSV; HSL; HSI; HCY; LCH_AB; LCH_UV] -> at_addr h p1 c1 -> at_addr h p2 c2 -> wf_color X c1 -> wf_color X c2 ->
  nth_error (comps c1) (hue_at X) = Some x -> nth_error (comps c2) (hue_at X) = Some y -> 180 < Rabs (x - y) ->
  returns (average X [Some p1; Some p2] ia) h (fun r => ty r = X /\ exists w, nth_error (comps r) (hue_at X) = Some w /\
    arc w x = 180 - arc x y / 2 /\ arc w y = 180 - arc x y / 2 /\ arc x y / 2 < 90 < arc w x).
Proof.
  intros HX A1 A2 W1 W2 E1 E2 D. destruct (hue_pair X ia h p1 p2 c1 c2 x y HX A1 A2 W1 W2 E1 E2) as [B1 [B2 K]].
  apply (returns_impl _ _ _ _ K). intros r [T C]. split; [exact T|]. exists ((x + y) / 2). split; [exact C|].
  unfold arc, Rmin. revert D. unfold Rabs. repeat destruct (Rcase_abs _); repeat destruct (Rle_dec _ _); lra.
Qed.
Lemma hue_mean_example : exists (h : heap R) c1 c2 c3, at_addr h 0%nat c1 /\ at_addr h 1%nat c2 /\ at_addr h 2%nat c3 /\
  wf_color HSL c1 /\ wf_color HSL c2 /\ wf_color HSL c3 /\ comps c1 = [350; 1; 1 / 2] /\ comps c2 = [10; 1; 1 / 2] /\ comps c3 = [310; 1; 1 / 2] /\ arc 350 10 = 20.
Proof.
  assert (M : forall x, 0 <= x <= 359 -> exists c : color R, wf_color HSL c /\ comps c = [x; 1; 1 / 2]).
  { intros x Hx. destruct (hsl_made (AF := RArith) (AL := RLaws) x 1 (1 / 2) 1 None) as [c [Ec [Wc _]]]. exists c. split; [exact Wc|].
    rewrite (hsl_nf (AL := RLaws)) in Ec. apply Ok_inj in Ec. rewrite <- Ec. cbn [comps]. rewrite hue_norm_id, !c01R by lra. reflexivity. }
  destruct (M 350) as [c1 [W1 E1]]; [lra|]. destruct (M 10) as [c2 [W2 E2]]; [lra|]. destruct (M 310) as [c3 [W3 E3]]; [lra|].
  exists (Heap [c1; c2; c3] []), c1, c2, c3. do 3 (split; [reflexivity|]). do 6 (split; [assumption|]).
  unfold arc. rewrite (Rabs_pos_eq (350 - 10)) by lra. rewrite Rmin_right; lra.
Qed.
