(** * color_calculation in binary32: weights, results, alpha (C51 - C54, C58, C87 - C89) *)
From Coq Require Import ZArith QArith Reals Lra Lia List Bool.
From Flocq Require Import Core IEEE754.BinarySingleNaN.
From Verif Require Import Arith Outcome ColorModel GammaModel MatrixModel SpaceModel Heap Converter Calculation
  Spec F32 RArith F32Facts Spec32 Laws NormalForms History Core_Proofs Core2_Proofs Core3_Proofs Alpha8 Spec_Matrix Spec_Conv Spec_Calc
  Conv_Proofs Conv2_Proofs Conv3_Proofs Convert_Proofs Calc_Proofs.
Import ListNotations.

(** ** Weights *)

Lemma flt_inf_r o (w : f32) : is_finite w = true -> @flt f32 (F32 o) w inf32 = true /\ @flt f32 (F32 o) ninf32 w = true.
Proof. destruct w as [s|s| |s m e B]; try discriminate; destruct s; split; reflexivity. Qed.

Lemma weight_ok o w : in_interval 0 1 w -> @bad_weight f32 (F32 o) w = false /\ @bad_weight f32 (F32 o) (@fsub f32 (F32 o) (@fz f32 (F32 o) 1) w) = false.
Proof.
  intros [Fw Rw]. destruct (fz_val o 0) as [F0 V0]; [sm|]. destruct (fz_val o 1) as [F1 V1]; [sm|].
  unfold bad_weight. set (z := @fz f32 (F32 o) 0) in *. set (u := @fz f32 (F32 o) 1) in *.
  change (B2R w) with (fval w) in Rw.
  destruct (Bminus_ok u w 0 1 F1 Fw) as [P1 P2]; try sm. { rewrite V1. lra. }
  cbn [flt fsub F32]. set (p := Bminus mode_NE u w) in *.
  assert (Rp : (IZR 0 <= fval p <= IZR 1)%R). { rewrite P2. apply rnd32_bounds; try sm. rewrite V1. lra. }
  rewrite !Bltb_fin by assumption. rewrite !Rlt_bool_false; rewrite ?V0, ?V1; auto; lra.
Qed.

Lemma weight_bad o w : outside_unit w -> @bad_weight f32 (F32 o) w = true.
Proof.
  intros H. destruct (fz_val o 0) as [F0 V0]; [sm|]. destruct (fz_val o 1) as [F1 V1]; [sm|].
  unfold bad_weight. set (z := @fz f32 (F32 o) 0) in *. set (u := @fz f32 (F32 o) 1) in *.
  destruct H as [->|[->|[Fw Rw]]].
  - rewrite (proj1 (flt_inf_r o u F1)). apply orb_true_r.
  - rewrite (proj2 (flt_inf_r o z F0)). reflexivity.
  - cbn [flt F32]. rewrite !Bltb_fin by assumption. change (B2R w) with (fval w) in Rw.
    destruct Rw as [Rw|Rw]; [rewrite (Rlt_bool_true (fval w)) by (rewrite V0; lra); reflexivity|].
    rewrite (Rlt_bool_true (fval u)) by (rewrite V1; lra). apply orb_true_r.
Qed.

Lemma weight_strict o w : positive_unit w -> @fle f32 (F32 o) w (@fz f32 (F32 o) 0) = false /\ in_interval 0 1 w.
Proof.
  intros [Fw Rw]. destruct (fz_val o 0) as [F0 V0]; [sm|]. cbn [fle F32]. rewrite Bleb_fin by assumption.
  rewrite V0. split; [|split; [exact Fw|lra]]. change (B2R w) with (fval w) in Rw. apply Rle_bool_false. lra.
Qed.

Lemma fle_ninf o (w : f32) : is_finite w = true -> @fle f32 (F32 o) ninf32 w = true.
Proof. destruct w as [s|s| |s m e B]; try discriminate; reflexivity. Qed.

Lemma weight_strict_bad o w : outside_unit w \/ is_value w 0 ->
  @fle f32 (F32 o) w (@fz f32 (F32 o) 0) = true \/ @flt f32 (F32 o) (@fz f32 (F32 o) 1) w = true.
Proof.
  intros H. destruct (fz_val o 0) as [F0 V0]; [sm|]. destruct (fz_val o 1) as [F1 V1]; [sm|].
  set (z := @fz f32 (F32 o) 0) in *. set (u := @fz f32 (F32 o) 1) in *.
  destruct H as [[->|[->|[Fw Rw]]]|[Fw Rw]].
  - right. apply flt_inf_r, F1.
  - left. apply fle_ninf, F0.
  - cbn [fle flt F32]. rewrite Bleb_fin, Bltb_fin by assumption. change (B2R w) with (fval w) in Rw.
    destruct Rw as [Rw|Rw]; [left; apply Rle_bool_true; rewrite V0; lra|right; apply Rlt_bool_true; rewrite V1; lra].
  - left. cbn [fle F32]. rewrite Bleb_fin by assumption. change (B2R w) with (fval w) in Rw. apply Rle_bool_true. rewrite V0, Rw. simpl. lra.
Qed.

(** ** C51 *)
Lemma add_rejects o X p1 p2 w1 w2 ia (h : heap f32) : In X all_types -> outside_unit w1 \/ outside_unit w2 ->
  rejects (@add f32 (F32 o) p1 p2 w1 w2 ia) h /\ rejects (@typed_add f32 (F32 o) X p1 p2 w1 w2 ia) h.
Proof.
  intros HX H. assert (B : @bad_weight f32 (F32 o) w1 = true \/ @bad_weight f32 (F32 o) w2 = true).
  { destruct H; [left|right]; apply weight_bad; assumption. }
  split; [apply (add_bad (AF := F32 o)); exact B|apply (typed_add_bad (AF := F32 o)); [apply types_real, HX|exact B]].
Qed.
Lemma mix_rejects o X p1 p2 w ia (h : heap f32) : In X all_types -> outside_unit w ->
  rejects (@mix f32 (F32 o) p1 p2 w ia) h /\ rejects (@typed_mix f32 (F32 o) X p1 p2 w ia) h.
Proof.
  intros HX H. split; [apply (mix_bad (AF := F32 o)), weight_strict_bad; auto|].
  apply (typed_mix_bad (AF := F32 o)); [apply types_real, HX|apply weight_bad, H].
Qed.
Lemma subtract_rejects o X p1 p2 w ia (h : heap f32) : In X all_types -> outside_unit w ->
  rejects (@subtract f32 (F32 o) p1 p2 w ia) h /\ rejects (@typed_subtract f32 (F32 o) X p1 p2 w ia) h.
Proof.
  intros HX H. split; [apply (subtract_bad (AF := F32 o)), weight_strict_bad; auto|].
  apply (typed_subtract_bad (AF := F32 o)); [apply types_real, HX|apply weight_bad, H].
Qed.
Lemma zero_rejects o p1 p2 w ia (h : heap f32) : is_value w 0 ->
  rejects (@mix f32 (F32 o) p1 p2 w ia) h /\ rejects (@subtract f32 (F32 o) p1 p2 w ia) h.
Proof.
  intros H. split; [apply (mix_bad (AF := F32 o))|apply (subtract_bad (AF := F32 o))]; apply weight_strict_bad; auto.
Qed.

(** ** C53: what a successful call guarantees *)

Lemma gen_computes o keep X Y f (h : heap f32) p1 c1 p2 c2 : @gen_ok f32 (F32 o) keep X Y f ->
  at_addr h p1 c1 -> at_addr h p2 c2 -> @wf_color f32 (F32 o) X c1 -> @wf_color f32 (F32 o) Y c2 ->
  (cie X = true -> has_space h c1) -> (needs_space X Y = true -> has_space h c2) ->
  computes X (f (Some p1) (Some p2)) h c1 p2 (X = Y \/ Y <> RGB_DEEP \/ cie X = false).
Proof.
  intros G H1 H2 W1 W2 N1 N2. destruct (G h p1 c1 p2 c2 H1 H2 W1 W2 N1 N2) as [q [r [h' [E [Fq [A [V [S [U [P _]]]]]]]]]].
  exists q, r, h'. split; [exact E|]. split; [exact Fq|]. split; [exact A|]. split; [apply (wf32 o), V|]. auto.
Qed.
Lemma op_computes o keep X f (h : heap f32) p1 c1 p2 c2 : @op_ok f32 (F32 o) keep X f ->
  at_addr h p1 c1 -> at_addr h p2 c2 -> @wf_color f32 (F32 o) X c1 -> @wf_color f32 (F32 o) X c2 ->
  (cie X = true -> has_space h c1 /\ has_space h c2) ->
  computes X (f (Some p1) (Some p2)) h c1 p2 True.
Proof.
  intros G H1 H2 W1 W2 N. destruct (G h p1 c1 p2 c2 H1 H2 W1 W2 N) as [q [r [h' [E [Fq [A [V [S [U P]]]]]]]]].
  exists q, r, h'. split; [exact E|]. split; [exact Fq|]. split; [exact A|]. split; [apply (wf32 o), V|].
  split; [exact S|]. split; [|auto]. destruct U as [U1 U2]. split; auto.
Qed.

Section Results.
Variables (o : oracle) (X Y : ctype) (ia : bool) (h : heap f32) (p1 p2 : nat) (c1 c2 : color f32).
Hypothesis H1 : at_addr h p1 c1.
Hypothesis H2 : at_addr h p2 c2.
Hypothesis W1 : @wf_color f32 (F32 o) X c1.
Hypothesis W2 : @wf_color f32 (F32 o) Y c2.
Hypothesis N1 : cie X = true -> has_space h c1.
Hypothesis N2 : needs_space X Y = true -> has_space h c2.

Lemma add_computes w1 w2 : In X add_types -> in_interval 0 1 w1 -> in_interval 0 1 w2 ->
  computes X (@add f32 (F32 o) (Some p1) (Some p2) w1 w2 ia) h c1 p2 (X = Y \/ Y <> RGB_DEEP \/ cie X = false).
Proof.
  intros HX B1 B2. apply (gen_computes o (negb ia) X Y (fun p1 p2 => @add f32 (F32 o) p1 p2 w1 w2 ia) h p1 c1 p2 c2); auto.
  apply (add_ok (AF := F32 o)); auto; [apply (wf_real _ _ W2)|apply weight_ok, B1|apply weight_ok, B2].
Qed.
Lemma mix_computes w : In X mix_types -> positive_unit w ->
  computes X (@mix f32 (F32 o) (Some p1) (Some p2) w ia) h c1 p2 (X = Y \/ Y <> RGB_DEEP \/ cie X = false).
Proof.
  intros HX B. destruct (weight_strict o w B) as [B0 B1].
  apply (gen_computes o (negb ia) X Y (fun p1 p2 => @mix f32 (F32 o) p1 p2 w ia) h p1 c1 p2 c2); auto.
  apply (mix_ok (AF := F32 o)); auto; [apply (wf_real _ _ W2)|apply weight_ok, B1|apply weight_ok, B1].
Qed.
Lemma subtract_computes w : In X mix_types -> positive_unit w ->
  computes X (@subtract f32 (F32 o) (Some p1) (Some p2) w ia) h c1 p2 (X = Y \/ Y <> RGB_DEEP \/ cie X = false).
Proof.
  intros HX B. destruct (weight_strict o w B) as [B0 B1].
  apply (gen_computes o (composed X || negb ia) X Y (fun p1 p2 => @subtract f32 (F32 o) p1 p2 w ia) h p1 c1 p2 c2); auto.
  apply (subtract_ok (AF := F32 o)); auto; [apply (wf_real _ _ W2)|apply weight_ok, B1].
Qed.
Hypothesis W2X : @wf_color f32 (F32 o) X c2.
Hypothesis N2X : cie X = true -> has_space h c2.
Lemma typed_computes w1 w2 w : in_interval 0 1 w1 -> in_interval 0 1 w2 -> in_interval 0 1 w ->
  computes X (@typed_add f32 (F32 o) X (Some p1) (Some p2) w1 w2 ia) h c1 p2 True /\
  computes X (@typed_mix f32 (F32 o) X (Some p1) (Some p2) w ia) h c1 p2 True /\
  computes X (@typed_subtract f32 (F32 o) X (Some p1) (Some p2) w ia) h c1 p2 True.
Proof.
  intros B1 B2 B. pose proof (wf_real _ _ W1) as UX.
  split; [|split].
  - apply (op_computes o (negb ia) X (fun p1 p2 => @typed_add f32 (F32 o) X p1 p2 w1 w2 ia) h p1 c1 p2 c2); auto.
    apply (typed_add_ok (AF := F32 o)); auto; apply weight_ok; assumption.
  - apply (op_computes o (negb ia) X (fun p1 p2 => @typed_mix f32 (F32 o) X p1 p2 w ia) h p1 c1 p2 c2); auto.
    apply (typed_mix_ok (AF := F32 o)); auto; apply weight_ok; assumption.
  - apply (op_computes o (composed X || negb ia) X (fun p1 p2 => @typed_subtract f32 (F32 o) X p1 p2 w ia) h p1 c1 p2 c2); auto.
    apply (typed_subtract_ok (AF := F32 o)); auto; apply weight_ok; assumption.
Qed.

(** C87 *)
Hypothesis R1 : @reachable f32 (F32 o) c1.
Hypothesis A1 : in_interval 0 1 (m_alpha c1).
Hypothesis B1 : ~ @black_hsl f32 (F32 o) c1.
Let keeps (m : M f32 ptr) : Prop := returns m h (fun r => m_alpha r = m_alpha c1).
Lemma alpha_facts : @alpha_ok f32 (F32 o) c1 /\ @alpha_form f32 (F32 o) c1.
Proof.
  split; [apply within_in_interval; try sm; exact A1|].
  intros E8. apply (reachable_alpha8 c1 R1). rewrite (wf_cls _ _ W1). rewrite (wf_ty _ _ W1) in E8. exact E8.
Qed.
Lemma gen_keeps f : @gen_ok f32 (F32 o) true X Y f -> keeps (f (Some p1) (Some p2)).
Proof.
  intros G. destruct (G h p1 c1 p2 c2 H1 H2 W1 W2 N1 N2) as [q [r [h' [E [_ [A [_ [_ [_ [_ K]]]]]]]]]].
  destruct alpha_facts. exists q, r, h'. split; [exact E|]. split; [exact A|]. apply (K eq_refl); auto.
Qed.
Lemma op_keeps f : @op_ok f32 (F32 o) true X f -> keeps (f (Some p1) (Some p2)).
Proof.
  intros G. destruct (G h p1 c1 p2 c2 H1 H2 W1 W2X) as [q [r [h' [E [_ [A [_ [_ [_ K]]]]]]]]]; [auto|].
  destruct alpha_facts. exists q, r, h'. split; [exact E|]. split; [exact A|]. apply (K eq_refl); auto.
Qed.
Lemma add_keeps w1 w2 : In X add_types -> in_interval 0 1 w1 -> in_interval 0 1 w2 ->
  keeps (@add f32 (F32 o) (Some p1) (Some p2) w1 w2 false).
Proof.
  intros HX I1 I2. apply (gen_keeps (fun p1 p2 => @add f32 (F32 o) p1 p2 w1 w2 false)).
  apply (add_ok (AF := F32 o) X Y w1 w2 false); auto; [apply (wf_real _ _ W2)|apply weight_ok, I1|apply weight_ok, I2].
Qed.
Lemma mix_keeps w : In X mix_types -> positive_unit w -> keeps (@mix f32 (F32 o) (Some p1) (Some p2) w false).
Proof.
  intros HX B. destruct (weight_strict o w B) as [B0 I]. apply (gen_keeps (fun p1 p2 => @mix f32 (F32 o) p1 p2 w false)).
  apply (mix_ok (AF := F32 o) X Y w false); auto; [apply (wf_real _ _ W2)|apply weight_ok, I|apply weight_ok, I].
Qed.
Lemma subtract_keeps w : In X mix_types -> positive_unit w -> keeps (@subtract f32 (F32 o) (Some p1) (Some p2) w false).
Proof.
  intros HX B. destruct (weight_strict o w B) as [B0 I]. apply (gen_keeps (fun p1 p2 => @subtract f32 (F32 o) p1 p2 w false)).
  assert (Q : (composed X || negb false) = true) by apply orb_true_r. rewrite <- Q.
  apply (subtract_ok (AF := F32 o) X Y w false); auto; [apply (wf_real _ _ W2)|apply weight_ok, I].
Qed.
Lemma typed_keeps w1 w2 w : in_interval 0 1 w1 -> in_interval 0 1 w2 -> in_interval 0 1 w ->
  keeps (@typed_add f32 (F32 o) X (Some p1) (Some p2) w1 w2 false) /\
  keeps (@typed_mix f32 (F32 o) X (Some p1) (Some p2) w false) /\
  keeps (@typed_subtract f32 (F32 o) X (Some p1) (Some p2) w false).
Proof.
  intros I1 I2 I. pose proof (wf_real _ _ W1) as UX. split; [|split].
  - apply (op_keeps (fun p1 p2 => @typed_add f32 (F32 o) X p1 p2 w1 w2 false)).
    apply (typed_add_ok (AF := F32 o) X w1 w2 false); auto; apply weight_ok; assumption.
  - apply (op_keeps (fun p1 p2 => @typed_mix f32 (F32 o) X p1 p2 w false)).
    apply (typed_mix_ok (AF := F32 o) X w false); auto; apply weight_ok; assumption.
  - apply (op_keeps (fun p1 p2 => @typed_subtract f32 (F32 o) X p1 p2 w false)).
    assert (Q : (composed X || negb false) = true) by apply orb_true_r. rewrite <- Q.
    apply (typed_subtract_ok (AF := F32 o) X w false); auto; apply weight_ok; assumption.
Qed.
(** C58: the types whose subtraction goes through another type keep the alpha of the
    first operand even with include_alpha. *)
Lemma subtract_alpha_lost w : composed X = true -> in_interval 0 1 w -> keeps (@typed_subtract f32 (F32 o) X (Some p1) (Some p2) w true).
Proof.
  intros C I. pose proof (wf_real _ _ W1) as UX.
  apply (op_keeps (fun p1 p2 => @typed_subtract f32 (F32 o) X p1 p2 w true)).
  pose proof (typed_subtract_ok (AF := F32 o) X w true UX (proj1 (weight_ok o w I))) as K. rewrite C in K. exact K.
Qed.
End Results.

Lemma subtract_ignores_alpha o X p1 p2 w (h : heap f32) : In X [HSI; HSL; HCY; LAB; LCH_AB; LCH_UV] ->
  @typed_subtract f32 (F32 o) X p1 p2 w true h = @typed_subtract f32 (F32 o) X p1 p2 w false h.
Proof. intros H. simpl in H. destruct H as [<-|[<-|[<-|[<-|[<-|[<-|[]]]]]]]; reflexivity. Qed.

(** ** C54 *)
Lemma unsupported o X p1 c1 p2 ia w1 w2 w (h : heap f32) : at_addr h p1 c1 -> @wf_color f32 (F32 o) X c1 ->
  in_interval 0 1 w1 -> in_interval 0 1 w2 -> positive_unit w ->
  (In X [HSI; HCY] -> @add f32 (F32 o) (Some p1) p2 w1 w2 ia h = (Ok None, h)) /\
  (In X [HSI; HCY; XYY; CIELUV] -> @mix f32 (F32 o) (Some p1) p2 w ia h = (Ok None, h) /\ @subtract f32 (F32 o) (Some p1) p2 w ia h = (Ok None, h)).
Proof.
  intros H1 W1 I1 I2 B. destruct (weight_strict o w B) as [B0 I]. split; intros HX.
  - apply (add_null (AF := F32 o) X p1 p2 w1 w2 ia h c1); auto; apply weight_ok; assumption.
  - apply (mix_null (AF := F32 o) X p1 p2 w ia h c1); auto. pose proof (proj1 (weight_ok o w I)) as K.
    apply orb_false_iff in K. apply K.
Qed.

(** ** C88: NaN is accepted as a weight *)
Lemma nan_weight o : @bad_weight f32 (F32 o) nan32 = false /\ @bad_weight f32 (F32 o) (@fsub f32 (F32 o) (@fz f32 (F32 o) 1) nan32) = false /\
  @fle f32 (F32 o) nan32 (@fz f32 (F32 o) 0) = false.
Proof.
  destruct (fz_val o 0) as [F0 V0]; [sm|]. destruct (fz_val o 1) as [F1 V1]; [sm|].
  unfold bad_weight. set (z := @fz f32 (F32 o) 0) in *. set (u := @fz f32 (F32 o) 1) in *.
  clearbody z u. unfold nan32. destruct u, z; try discriminate; split; [|split| |split| |split| |split]; reflexivity.
Qed.
Lemma nan_accepted o X Y ia (h : heap f32) p1 c1 p2 c2 : at_addr h p1 c1 -> at_addr h p2 c2 ->
  @wf_color f32 (F32 o) X c1 -> @wf_color f32 (F32 o) Y c2 ->
  (cie X = true -> has_space h c1) -> (needs_space X Y = true -> has_space h c2) -> In X mix_types ->
  let pure := X = Y \/ Y <> RGB_DEEP \/ cie X = false in
  computes X (@add f32 (F32 o) (Some p1) (Some p2) nan32 nan32 ia) h c1 p2 pure /\
  computes X (@mix f32 (F32 o) (Some p1) (Some p2) nan32 ia) h c1 p2 pure /\
  computes X (@subtract f32 (F32 o) (Some p1) (Some p2) nan32 ia) h c1 p2 pure.
Proof.
  intros H1 H2 W1 W2 N1 N2 HX pure. destruct (nan_weight o) as [B1 [B2 B3]]. pose proof (wf_real _ _ W2) as UY. split; [|split].
  - apply (gen_computes o (negb ia) X Y (fun p1 p2 => @add f32 (F32 o) p1 p2 nan32 nan32 ia) h p1 c1 p2 c2); auto.
    apply (add_ok (AF := F32 o)); auto. simpl in HX |- *. intuition.
  - apply (gen_computes o (negb ia) X Y (fun p1 p2 => @mix f32 (F32 o) p1 p2 nan32 ia) h p1 c1 p2 c2); auto.
    apply (mix_ok (AF := F32 o)); auto.
  - apply (gen_computes o (composed X || negb ia) X Y (fun p1 p2 => @subtract f32 (F32 o) p1 p2 nan32 ia) h p1 c1 p2 c2); auto.
    apply (subtract_ok (AF := F32 o)); auto.
Qed.

(** ** C89: with include_alpha the alpha can leave [0, 1] *)
Lemma alpha_leaves o : exists (h : heap f32) c q1 r1 h1 q2 r2 h2 u,
  at_addr h 0%nat c /\ @reachable f32 (F32 o) c /\ is_value (m_alpha c) 1 /\ is_value u 1 /\
  @add f32 (F32 o) (Some 0%nat) (Some 0%nat) u u true h = (Ok (Some q1), h1) /\ at_addr h1 q1 r1 /\ is_value (m_alpha r1) 2 /\
  exists d, at_addr h 1%nat d /\ @reachable f32 (F32 o) d /\ is_value (m_alpha d) 0 /\
  @subtract f32 (F32 o) (Some 1%nat) (Some 0%nat) u true h = (Ok (Some q2), h2) /\ at_addr h2 q2 r2 /\ is_value (m_alpha r2) (-1).
Proof.
  pose (u := @fz f32 (F32 o) 1). pose (z := @fz f32 (F32 o) 0).
  destruct (fz_val o 0) as [F0 V0]; [sm|]. destruct (fz_val o 1) as [F1 V1]; [sm|]. fold u z in F0, V0, F1, V1.
  assert (I1 : in_interval 0 1 u). { split; [exact F1|]. change (B2R u) with (fval u). rewrite V1. simpl; lra. }
  assert (P1 : positive_unit u). { split; [exact F1|]. change (B2R u) with (fval u). rewrite V1. simpl; lra. }
  pose (mk a := Color GREY_DEEP GREY_DEEP [@c01 f32 (F32 o) z] a u z None).
  pose (h := Heap [mk u; mk z] []).
  assert (M : forall a, @grey_deepcolor f32 (F32 o) z a None = Ok (mk a)) by (intros a; apply (grey_deepcolor_nf (AF := F32 o))).
  assert (W : forall a, @wf_color f32 (F32 o) GREY_DEEP (mk a)).
  { intros a. destruct (grey_deepcolor_made (AF := F32 o) (AL := F32Laws o) z a None) as [r [E [Wr _]]]. rewrite M in E. injection E as <-. exact Wr. }
  exists h, (mk u).
  pose (r1 := Color GREY_DEEP GREY_DEEP [@c01 f32 (F32 o) (@add_lin f32 (F32 o) u u (@c01 f32 (F32 o) z) (@c01 f32 (F32 o) z))] (@add_lin f32 (F32 o) u u u u) u z None).
  pose (r2 := Color GREY_DEEP GREY_DEEP [@c01 f32 (F32 o) (@sub_lin f32 (F32 o) u (@c01 f32 (F32 o) z) (@c01 f32 (F32 o) z))] (@sub_lin f32 (F32 o) u z u) u z None).
  exists 2%nat, r1, (Heap [mk u; mk z; r1] []), 2%nat, r2, (Heap [mk u; mk z; r2] []), u.
  assert (L : forall (f : color f32 -> color f32 -> outcome (color f32)) i j a b r, nth_error [mk u; mk z] i = Some a -> nth_error [mk u; mk z] j = Some b ->
    @wf_color f32 (F32 o) GREY_DEEP a -> @wf_color f32 (F32 o) GREY_DEEP b -> f a b = Ok r ->
    new2 GREY_DEEP f (Some i) (Some j) h = (Ok (Some 2%nat), Heap [mk u; mk z; r] [])).
  { intros f i j a b r Ei Ej Wa Wb E. unfold new2, bind. rewrite (load_as_ok (AF := F32 o) h i a GREY_DEEP Ei Wa), (load_as_ok (AF := F32 o) h j b GREY_DEEP Ej Wb).
    unfold lift. rewrite E. reflexivity. }
  assert (T0 : @to_grey_deep f32 (F32 o) (Some 0%nat) h = (Ok (Some 0%nat), h)) by apply (to_type_same GREY_DEEP (AF := F32 o) h 0%nat (mk u) eq_refl (W u)).
  assert (T1 : @to_grey_deep f32 (F32 o) (Some 1%nat) h = (Ok (Some 1%nat), h)) by apply (to_type_same GREY_DEEP (AF := F32 o) h 1%nat (mk z) eq_refl (W z)).
  split; [reflexivity|]. split; [apply r_new; eapply mk_grey_deep; apply M|].
  split; [split; assumption|]. split; [split; assumption|].
  split.
  { destruct (weight_ok o u I1) as [K _]. unfold add, check2. rewrite K. unfold bind at 1, load at 1. cbn [colors nth_error ty mk h].
    unfold both, bind. rewrite !T0.
    unfold add_grey_deep, check2. rewrite K. apply (L _ 0%nat 0%nat (mk u) (mk u)); auto. }
  split; [reflexivity|]. split.
  { change (m_alpha r1) with (@add_lin f32 (F32 o) u u u u). set (v := @add_lin f32 (F32 o) u u u u).
    destruct (fval_SF v false 8388608 (-22)) as [A B]; [vm_compute; reflexivity|]. split; [exact A|].
    change (B2R v) with (fval v). rewrite B. clear. unfold F2R. simpl. lra. }
  exists (mk z). split; [reflexivity|]. split; [apply r_new; eapply mk_grey_deep; apply M|]. split; [split; assumption|].
  split.
  { destruct (weight_ok o u I1) as [K _]. destruct (weight_strict o u P1) as [K0 _]. pose proof K as K'. apply orb_false_iff in K'.
    unfold subtract, check_strict. rewrite K0, (proj2 K'). cbn [orb]. unfold bind at 1, load at 1. cbn [colors nth_error ty mk h].
    unfold both, bind. rewrite T1, T0.
    unfold subtract_grey_deep, check1. rewrite K. apply (L _ 1%nat 0%nat (mk z) (mk u)); auto. }
  split; [reflexivity|].
  change (m_alpha r2) with (@sub_lin f32 (F32 o) u z u). set (v := @sub_lin f32 (F32 o) u z u).
  destruct (fval_SF v true 8388608 (-23)) as [A B]; [vm_compute; reflexivity|]. split; [exact A|].
  change (B2R v) with (fval v). rewrite B. clear. unfold F2R. simpl. lra.
Qed.
