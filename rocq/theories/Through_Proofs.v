(** * Blending any types is blending the deep RGB colours they convert to *)
From Coq Require Import ZArith Reals Lia List Bool.
From Flocq Require Import Core IEEE754.BinarySingleNaN.
From Verif Require Import Arith Outcome ColorModel GammaModel MatrixModel SpaceModel Heap Converter Calculation Blend
  Spec F32 F32Facts Spec32 Laws NormalForms Core_Proofs Core2_Proofs Alpha8 Spec_Matrix Spec_Conv Spec_Calc Spec_Blend
  Conv_Proofs Conv2_Proofs Conv3_Proofs Calc_Proofs Blend_Proofs.
Import ListNotations.
Local Open Scope monad_scope.

Section Through.
Context {F : Type} {AF : Arith F} {AL : ArithLaws F} {A8 : Alpha8Laws F} {A9 : Alpha8Wide F}.
Local Notation color := (color F).
Local Notation heap := (heap F).

Lemma checked_through us ud ub (g : nat -> F -> F -> F) (h : heap) X1 X2 p1 c1 p2 c2 : at_addr h p1 c1 -> at_addr h p2 c2 -> wf_color X1 c1 -> wf_color X2 c2 ->
  rgb_space c1 = rgb_space c2 -> (cie X1 || cie X2 = true -> has_space h c1) ->
  checked_blend us ud ub (fun _ _ => g) (Some p1) (Some p2) h =
  (a <- to_rgb_deep (Some p1) ;; b <- to_rgb_deep (Some p2) ;; r <- checked_blend us ud ub (fun _ _ => g) a b ;; convertTo r X1) h.
Proof.
  intros H1 H2 W1 W2 SP N.
  destruct (to_pure X1 RGB_DEEP (wf_real _ _ W1) ltac:(discriminate) (or_intror eq_refl) h p1 c1 H1 W1)
    as [a [s [ha [Ea [Aa [Ws [Ss [Ua [_ [Rs Is]]]]]]]]]].
  { unfold needs_space. rewrite orb_false_r. intros K. apply N. rewrite K. reflexivity. }
  destruct (to_pure X2 RGB_DEEP (wf_real _ _ W2) ltac:(discriminate) (or_intror eq_refl) ha p2 c2 (proj2 Ua _ _ H2) W2)
    as [b [d [hb [Eb [Ab [Wd [Sd [Ub [_ [Rd Id]]]]]]]]]].
  { unfold needs_space. rewrite orb_false_r. intros K. apply (unchanged_space h ha c1 c2 Ua); [congruence|]. apply N. rewrite K. apply orb_true_r. }
  pose proof (proj2 Ub _ _ Aa) as Aa'.
  destruct (blend_shape us ud ub g s d (wf_len _ _ Ws) (wf_len _ _ Wd)) as [r [Er [Dr Sr]]].
  set (h1 := Heap (colors hb ++ [r]) (spaces hb)). set (q := length (colors hb)).
  assert (Aq : at_addr h1 q r) by apply at_new.
  change (to_type RGB_DEEP) with (to_rgb_deep (F := F)) in Ea, Eb.
  assert (G : general_porter_duff (Some a) (Some b) us ud ub g hb = (Ok (Some q), h1)).
  { unfold general_porter_duff. unfold bind at 1. rewrite (load_as_ok hb a s RGB_DEEP Aa' Ws).
    unfold bind at 1. rewrite (load_as_ok hb b d RGB_DEEP Ab Wd). rewrite Ss, Sd, SP, ptr_same. cbn [negb].
    unfold bind at 1, lift at 1. rewrite Er. reflexivity. }
  assert (L : checked_blend us ud ub (fun _ _ => g) (Some p1) (Some p2) h = convertTo (Some q) X1 h1).
  { unfold checked_blend. unfold bind at 1, load at 1. unfold at_addr in H1. rewrite H1.
    unfold bind at 1, load at 1. unfold at_addr in H2. rewrite H2.
    rewrite SP, ptr_same. cbn [negb]. rewrite (wf_ty _ _ W1).
    unfold bind at 1. rewrite Ea. unfold bind at 1. rewrite Eb. unfold bind at 1. rewrite G. reflexivity. }
  assert (R : checked_blend us ud ub (fun _ _ => g) (Some a) (Some b) hb = (Ok (Some q), h1)).
  { pose proof (to_type_same RGB_DEEP hb a s Aa' Ws) as Ta. pose proof (to_type_same RGB_DEEP hb b d Ab Wd) as Tb.
    change (to_type RGB_DEEP) with (to_rgb_deep (F := F)) in Ta, Tb.
    unfold checked_blend. unfold bind at 1, load at 1. unfold at_addr in Aa'. rewrite Aa'.
    unfold bind at 1, load at 1. pose proof Ab as Ab'. unfold at_addr in Ab'. rewrite Ab'.
    rewrite Ss, Sd, SP, ptr_same. cbn [negb]. rewrite (wf_ty _ _ Ws).
    unfold bind at 1. rewrite Ta. unfold bind at 1. rewrite Tb. unfold bind at 1. rewrite G.
    cbn [convertTo]. unfold to_rgb_deep, bind, load. pose proof Aq as Aq'. unfold at_addr in Aq'. rewrite Aq', (ds_ty r Dr).
    unfold cast, bind. rewrite (load_shape h1 q r Aq Dr). reflexivity. }
  rewrite L. unfold bind at 1. rewrite Ea. unfold bind at 1. rewrite Eb. unfold bind at 1. rewrite R. reflexivity.
Qed.

Lemma blend_through m us ud (h : heap) X1 X2 p1 c1 p2 c2 : (forall rnd, m <> Dissolve rnd) -> at_addr h p1 c1 -> at_addr h p2 c2 -> wf_color X1 c1 -> wf_color X2 c2 ->
  rgb_space c1 = rgb_space c2 -> (cie X1 || cie X2 = true -> has_space h c1) ->
  blend m (Some p1) (Some p2) us ud h =
  (a <- to_rgb_deep (Some p1) ;; b <- to_rgb_deep (Some p2) ;; r <- blend m a b us ud ;; convertTo r X1) h.
Proof.
  intros D H1 H2 W1 W2 SP N. destruct m; try (exfalso; eapply D; reflexivity);
    match goal with |- blend ?m _ _ _ _ _ = _ => exact (checked_through us ud true (fun i s d => blend_function m c1 c1 i s d) h X1 X2 p1 c1 p2 c2 H1 H2 W1 W2 SP N) end.
Qed.
Lemma composite_through p (h : heap) X1 X2 p1 c1 p2 c2 : at_addr h p1 c1 -> at_addr h p2 c2 -> wf_color X1 c1 -> wf_color X2 c2 ->
  rgb_space c1 = rgb_space c2 -> (cie X1 || cie X2 = true -> has_space h c1) ->
  composite p (Some p1) (Some p2) h =
  (a <- to_rgb_deep (Some p1) ;; b <- to_rgb_deep (Some p2) ;; r <- composite p a b ;; convertTo r X1) h.
Proof.
  intros H1 H2 W1 W2 SP N. destruct p;
    match goal with |- composite ?p _ _ _ = _ => exact (checked_through (op_s p) (op_d p) (op_b p) (op_f p c1 c1) h X1 X2 p1 c1 p2 c2 H1 H2 W1 W2 SP N) end.
Qed.
End Through.
