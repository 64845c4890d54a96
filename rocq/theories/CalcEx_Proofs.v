(** * Examples for the calculation properties, and the refutation of C57 *)
From Coq Require Import ZArith QArith Reals Lra Lia List Bool.
From Flocq Require Import Core IEEE754.BinarySingleNaN.
From Verif Require Import Arith Outcome ColorModel GammaModel MatrixModel SpaceModel Heap Converter Calculation
  Spec F32 RArith F32Facts Spec32 Laws NormalForms History Core_Proofs Core2_Proofs Core3_Proofs Alpha8 Spec_Matrix Spec_Conv Spec_Calc
  Conv_Proofs Conv2_Proofs HueR_Proofs Round_Proofs Total_Proofs Calc_Proofs Calc2_Proofs Calc3_Proofs Calc4_Proofs.
Import ListNotations.
Local Open Scope R_scope.

Lemma weight_example : positive_unit (lit32 (1 # 2)) /\ in_interval 0 1 (lit32 (1 # 2)) /\ outside_unit (lit32 (2 # 1)) /\ outside_unit (lit32 (-1 # 1)).
Proof.
  destruct half_val as [H V]. unfold positive_unit, in_interval, outside_unit.
  change (B2R (lit32 (1 # 2))) with (fval (lit32 (1 # 2))). rewrite V.
  destruct (lit32_int 2) as [V2 F2]; [sm|]. destruct (lit32_int (-1)) as [V1 F1]; [sm|].
  change (lit32 (inject_Z 2)) with (lit32 (2 # 1)) in *. change (lit32 (inject_Z (-1))) with (lit32 (-1 # 1)) in *.
  split; [split; auto; lra|]. split; [split; auto; simpl; lra|].
  split; right; right; (split; [assumption|]).
  - right. change (B2R (lit32 (2 # 1))) with (fval (lit32 (2 # 1))). rewrite V2. simpl; lra.
  - left. change (B2R (lit32 (-1 # 1))) with (fval (lit32 (-1 # 1))). rewrite V1. simpl; lra.
Qed.

(** An XYZ and a deep RGB colour in the same RGB space, both opaque. *)
Lemma calc_example o : exists (h : heap f32) p1 c1 p2 c2, at_addr h p1 c1 /\ at_addr h p2 c2 /\
  @wf_color f32 (F32 o) XYZ c1 /\ @wf_color f32 (F32 o) RGB_DEEP c2 /\ has_space h c1 /\ has_space h c2 /\
  @reachable f32 (F32 o) c1 /\ in_interval 0 1 (m_alpha c1) /\ ~ @black_hsl f32 (F32 o) c1 /\ p1 <> p2.
Proof.
  destruct (space_ctor_usable (AF := F32 o) (lit32 (64 # 100)) (lit32 (33 # 100)) (lit32 (30 # 100)) (lit32 (60 # 100)) (lit32 (15 # 100)) (lit32 (6 # 100))
    0%nat (wp_D65_2Degree (AF := F32 o)) (gamma_sRGB (AF := F32 o))) as [sp [Es [U _]]].
  pose (u := @fz f32 (F32 o) 1). destruct (fz_val o 1) as [F1 V1]; [sm|]. fold u in F1, V1.
  destruct (xyz_made (AF := F32 o) (AL := F32Laws o) u u u u (Some 0%nat)) as [c1 [E1 [W1 [A1 S1]]]].
  destruct (rgb_deepcolor_made (AF := F32 o) (AL := F32Laws o) u u u u (Some 0%nat)) as [c2 [E2 [W2 [A2 S2]]]].
  exists (Heap [c1; c2] [sp]), 0%nat, c1, 1%nat, c2. split; [reflexivity|]. split; [reflexivity|]. split; [exact W1|]. split; [exact W2|].
  split; [exists 0%nat, sp; auto|]. split; [exists 0%nat, sp; auto|]. split; [apply r_new; eapply mk_xyz; exact E1|].
  split. { rewrite A1. split; [exact F1|]. change (B2R u) with (fval u). rewrite V1. simpl; lra. }
  split. { intros [T _]. rewrite (wf_ty _ _ W1) in T. discriminate T. }
  discriminate.
Qed.

(** Two different opaque CMYK colours in exact arithmetic. *)
Definition ex_cmyk (k a : R) : color R := Color CMYK CMYK [0; 0; 0; k] a 1 0 None.
Lemma ex_cmyk_wf k a : 0 <= k <= 1 -> wf_color CMYK (ex_cmyk k a).
Proof.
  intros H. assert (K : cmyk 0 0 0 k a None = Ok (ex_cmyk k a)).
  { rewrite cmyk_nf, !c01R, !fzR by lra. reflexivity. }
  destruct (cmyk_made (AF := RArith) (AL := RLaws) 0 0 0 k a None) as [r [E [W _]]]. rewrite K in E. injection E as <-. exact W.
Qed.
Lemma mix_example : exists (h : heap R) c1 c2, at_addr h 0%nat c1 /\ at_addr h 1%nat c2 /\ wf_color CMYK c1 /\ wf_color CMYK c2 /\
  0 <= m_alpha c1 <= 1 /\ 0 <= m_alpha c2 <= 1 /\ comps c1 <> comps c2.
Proof.
  exists (Heap [ex_cmyk 0 1; ex_cmyk 1 1] []), (ex_cmyk 0 1), (ex_cmyk 1 1). split; [reflexivity|]. split; [reflexivity|].
  split; [apply ex_cmyk_wf; lra|]. split; [apply ex_cmyk_wf; lra|]. cbn [m_alpha ex_cmyk comps]. split; [lra|]. split; [lra|].
  intros K. injection K as K. lra.
Qed.
Lemma average_example : exists (h : heap R) ps cs, points_to h ps cs /\ Forall (wf_color CMYK) cs /\
  map alpha cs = [1; 1] /\ components 3 cs = [0; 1].
Proof.
  exists (Heap [ex_cmyk 0 1; ex_cmyk 1 1] []), [Some 0%nat; Some 1%nat], [ex_cmyk 0 1; ex_cmyk 1 1].
  split. { constructor; [exists 0%nat; split; reflexivity|]. constructor; [exists 1%nat; split; reflexivity|constructor]. }
  split. { constructor; [apply ex_cmyk_wf; lra|]. constructor; [apply ex_cmyk_wf; lra|constructor]. }
  split; reflexivity.
Qed.

(** C57: two colours without black, both with alpha 1, have an average with alpha 1/2. *)
Lemma cmyk_alpha_wrong : exists (h : heap R) ps cs, points_to h ps cs /\ Forall (wf_color CMYK) cs /\ map alpha cs = [1; 1] /\
  returns (average_cmyk ps true) h (fun r => alpha r = 1 / 2).
Proof.
  exists (Heap [ex_cmyk 0 1; ex_cmyk 0 1] []), [Some 0%nat; Some 1%nat], [ex_cmyk 0 1; ex_cmyk 0 1].
  assert (P : points_to (Heap [ex_cmyk 0 1; ex_cmyk 0 1] []) [Some 0%nat; Some 1%nat] [ex_cmyk 0 1; ex_cmyk 0 1]).
  { constructor; [exists 0%nat; split; reflexivity|]. constructor; [exists 1%nat; split; reflexivity|constructor]. }
  assert (W : Forall (wf_color CMYK) [ex_cmyk 0 1; ex_cmyk 0 1]).
  { constructor; [apply ex_cmyk_wf; lra|]. constructor; [apply ex_cmyk_wf; lra|constructor]. }
  split; [exact P|]. split; [exact W|]. split; [reflexivity|].
  destruct (average_cmyk_mean true _ _ _ _ _ P W) as [q [r [h' [E [Hq [_ [_ [Al _]]]]]]]].
  exists q, r, h'. split; [exact E|]. split; [exact Hq|]. rewrite Al. unfold cmyk_alpha, mean, components. cbn [map comps ex_cmyk nth fold_right last length].
  change (alpha (ex_cmyk 0 1)) with 1. simpl. lra.
Qed.
Lemma cmyk_alpha_formula (h : heap R) p ps c cs : points_to h (p :: ps) (c :: cs) -> Forall (wf_color CMYK) (c :: cs) ->
  returns (average_cmyk (p :: ps) true) h (fun r =>
    alpha r = mean (components 3 (c :: cs)) + alpha (last (c :: cs) c) / INR (length (c :: cs))).
Proof.
  intros P W. destruct (average_cmyk_mean true h p ps c cs P W) as [q [r [h' [E [Hq [_ [_ [Al _]]]]]]]].
  exists q, r, h'. split; [exact E|]. split; [exact Hq|exact Al].
Qed.

(** C58: an HSL colour with alpha 1 minus itself, alpha included, still has alpha 1. *)
Lemma subtract_alpha_wrong o : exists (h : heap f32) c u, at_addr h 0%nat c /\ @reachable f32 (F32 o) c /\ ty c = HSL /\ is_value (m_alpha c) 1 /\ is_value u 1 /\
  returns (@subtract_hsl f32 (F32 o) (Some 0%nat) (Some 0%nat) u true) h (fun r => is_value (m_alpha r) 1).
Proof.
  assert (U : exists u : f32, is_finite u = true /\ B2R u = 1) by (exists (@fz f32 (F32 o) 1); apply (fz_val o 1); sm). destruct U as [u [F1 V1]].
  assert (I1 : in_interval 0 1 u). { split; [exact F1|]. rewrite V1. simpl; lra. }
  destruct (hsl_made (AF := F32 o) (AL := F32Laws o) u u u u None) as [c [E [W [A S]]]].
  assert (Rc : @reachable f32 (F32 o) c) by (apply r_new; eapply mk_hsl; exact E).
  assert (Vu : is_value u 1) by (split; assumption).
  exists (Heap [c] []), c, u. split; [reflexivity|]. split; [exact Rc|]. split; [apply (wf_ty _ _ W)|]. rewrite A. split; [exact Vu|]. split; [exact Vu|].
  destruct (subtract_alpha_lost o HSL (Heap [c] []) 0%nat 0%nat c c) with (w := u) as [q [r [h' [E' [Hq Al]]]]]; auto; try discriminate; try (unfold at_addr; reflexivity).
  - rewrite A. exact I1.
  - intros [_ [x [y [z [Ec Z]]]]]. rewrite (hsl_nf (AL := F32Laws o)) in E. assert (Eo : comps c = [@hue_norm f32 (F32 o) u; @c01 f32 (F32 o) u; @c01 f32 (F32 o) u]) by (injection E as <-; reflexivity).
    rewrite Ec in Eo. assert (Ez : z = @c01 f32 (F32 o) u) by (injection Eo; auto). rewrite Ez in Z.
    unfold c01 in Z. rewrite (clamp_id (AF := F32 o)) in Z; try sm.
    + cbn [feq F32] in Z. destruct (fz_val o 0) as [F0 V0]; [sm|]. rewrite Beqb_fin in Z by assumption. rewrite V1, V0 in Z.
      rewrite Req_bool_false in Z by (simpl; lra). discriminate Z.
    + apply within_in_interval; try sm. exact I1.
  - exists q, r, h'. split; [exact E'|]. split; [exact Hq|]. rewrite Al, A. exact Vu.
Qed.
