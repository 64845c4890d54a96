(** * color_calculation in exact arithmetic: mixing and averages (C55 - C57) *)
From Coq Require Import ZArith QArith Reals Lra Lia List Bool Permutation.
From Verif Require Import Arith Outcome ColorModel GammaModel MatrixModel SpaceModel Heap Converter Calculation
  Spec RArith Laws NormalForms Core_Proofs Core2_Proofs Alpha8 Spec_Matrix Spec_Conv Spec_Calc
  Conv_Proofs Conv2_Proofs Conv3_Proofs HueR_Proofs Round_Proofs Calc_Proofs.
Import ListNotations.
Local Open Scope R_scope.

Definition rng (X : ctype) (i : nat) (x : R) : Prop := IZR (fst (comp_range X i)) <= x <= IZR (snd (comp_range X i)).
Definition arng (X : ctype) (a : R) : Prop := eight_bit X = true -> 0 <= a <= 255.

(** Constructors store values in range as they are. *)
Definition stores (X : ctype) (l : list R) (a : R) (sp : option nat) (m : outcome (color R)) : Prop :=
  exists r, m = Ok r /\ ty r = X /\ comps r = l /\ alpha r = a /\ rgb_space r = sp.

Definition exact3 (X : ctype) (mk : R -> R -> R -> R -> option nat -> outcome (color R)) : Prop :=
  forall x y z a sp, rng X 0 x -> rng X 1 y -> rng X 2 z -> arng X a -> stores X [x; y; z] a sp (mk x y z a sp).
Definition exact1 (X : ctype) (mk : R -> R -> option nat -> outcome (color R)) : Prop :=
  forall x a sp, rng X 0 x -> arng X a -> stores X [x] a sp (mk x a sp).

Ltac open := unfold exact3, exact1; intros; unfold rng, arng in *; cbn [comp_range fst snd eight_bit] in *.
Ltac stored := eexists; split; [reflexivity|]; split; [reflexivity|]; split; [|split; [|reflexivity]].

Lemma rgb_true_exact : exact3 RGB_TRUE (rgb_truecolor (AF := RArith)).
Proof.
  open. rewrite rgb_truecolor_nf. stored.
  - cbn [comps]. rewrite !c255R by assumption. reflexivity.
  - unfold alpha. cbn [cls m_alpha]. unfold base_alpha. cbn [cls m_alpha]. rn. specialize (H2 eq_refl). rewrite c01R by lra. field.
Qed.
Lemma grey_true_exact : exact1 GREY_TRUE (grey_truecolor (AF := RArith)).
Proof.
  open. rewrite grey_truecolor_nf. stored.
  - cbn [comps]. rewrite !c255R by assumption. reflexivity.
  - unfold alpha. cbn [cls m_alpha]. unfold base_alpha. cbn [cls m_alpha]. rn. specialize (H0 eq_refl). rewrite c01R by lra. field.
Qed.
Lemma rgb_deep_exact : exact3 RGB_DEEP (rgb_deepcolor (AF := RArith)).
Proof. open. rewrite rgb_deepcolor_nf. stored; [|reflexivity]. cbn [comps]. rewrite !c01R by assumption. reflexivity. Qed.
Lemma grey_deep_exact : exact1 GREY_DEEP (grey_deepcolor (AF := RArith)).
Proof. open. rewrite grey_deepcolor_nf. stored; [|reflexivity]. cbn [comps]. rewrite !c01R by assumption. reflexivity. Qed.
Lemma cmyk_exact x y z k a sp : rng CMYK 0 x -> rng CMYK 1 y -> rng CMYK 2 z -> rng CMYK 3 k -> stores CMYK [x; y; z; k] a sp (cmyk (AF := RArith) x y z k a sp).
Proof. open. rewrite cmyk_nf. stored; [|reflexivity]. cbn [comps]. rewrite !c01R by assumption. reflexivity. Qed.
Lemma xyz_exact : exact3 XYZ (xyz (AF := RArith)).
Proof. open. rewrite xyz_nf. stored; [|reflexivity]. cbn [comps]. rewrite !c100R by lra. reflexivity. Qed.
Lemma xyy_exact : exact3 XYY (xyy (AF := RArith)).
Proof. open. rewrite xyy_nf. stored; [|reflexivity]. cbn [comps]. rewrite !c100R by lra. reflexivity. Qed.
Lemma cieluv_exact : exact3 CIELUV (cieluv (AF := RArith)).
Proof. open. rewrite cieluv_nf. stored; [|reflexivity]. cbn [comps]. rewrite !c100R by lra. rewrite !fzR, !clampR_id by lra. reflexivity. Qed.
Lemma lab_exact : exact3 LAB (lab (AF := RArith)).
Proof. open. rewrite lab_nf. stored; [|reflexivity]. cbn [comps]. rewrite !c100R by lra. rewrite !fzR, !clampR_id by lra. reflexivity. Qed.
Lemma lch_ab_exact : exact3 LCH_AB (lch_ab (AF := RArith)).
Proof. open. rewrite lch_ab_nf. stored; [|reflexivity]. cbn [comps]. rewrite !c100R by lra. rewrite !fzR, !clampR_id by lra. reflexivity. Qed.
Lemma lch_uv_exact : exact3 LCH_UV (lch_uv (AF := RArith)).
Proof. open. rewrite lch_uv_nf. stored; [|reflexivity]. cbn [comps]. rewrite !c100R by lra. rewrite !fzR, !clampR_id by lra. reflexivity. Qed.
Lemma hsi_exact : exact3 HSI (hsi (AF := RArith)).
Proof. open. rewrite (hsi_nf (AL := RLaws)). stored; [|reflexivity]. cbn [comps]. rewrite hue_norm_id, !c01R by lra. reflexivity. Qed.
Lemma hsv_exact : exact3 HSV (hsv (AF := RArith)).
Proof. open. rewrite (hsv_nf (AL := RLaws)). stored; [|reflexivity]. cbn [comps]. rewrite hue_norm_id, !c01R by lra. reflexivity. Qed.
Lemma hsl_exact : exact3 HSL (hsl (AF := RArith)).
Proof. open. rewrite (hsl_nf (AL := RLaws)). stored; [|reflexivity]. cbn [comps]. rewrite hue_norm_id, !c01R by lra. reflexivity. Qed.
Lemma hcy_exact : exact3 HCY (hcy (AF := RArith)).
Proof. open. rewrite (hcy_nf (AL := RLaws)). stored; [|reflexivity]. cbn [comps]. rewrite hue_norm_id, !c01R by lra. reflexivity. Qed.

(** Components of well-formed colours. *)
Lemma wf_rng X (c : color R) i x : wf_color X c -> nth_error (comps c) i = Some x -> rng X i x.
Proof. intros W E. pose proof (wf_range _ _ W i x E) as H. apply withinR in H. exact H. Qed.
Lemma alpha_rng X (c : color R) : wf_color X c -> (eight_bit X = true -> 0 <= m_alpha c <= 1) -> arng X (alpha c).
Proof.
  intros W H E. specialize (H E). rewrite (alpha_eight c X W E). cbn [fmul RArith]. rewrite fzR. lra.
Qed.

(** ** Mixing *)
Lemma convex w a b lo hi : 0 <= w <= 1 -> lo <= a <= hi -> lo <= b <= hi -> lo <= w * a + (1 - w) * b <= hi.
Proof.
  intros Hw Ha Hb. pose proof (Rmult_le_compat_l w lo a ltac:(lra) ltac:(lra)). pose proof (Rmult_le_compat_l w a hi ltac:(lra) ltac:(lra)).
  pose proof (Rmult_le_compat_l (1 - w) lo b ltac:(lra) ltac:(lra)). pose proof (Rmult_le_compat_l (1 - w) b hi ltac:(lra) ltac:(lra)). lra.
Qed.
Lemma convex_root w a b hi : 0 <= w <= 1 -> 0 <= a <= hi -> 0 <= b <= hi -> 0 <= sqrt (w * (a * a) + (1 - w) * (b * b)) <= hi.
Proof.
  intros Hw Ha Hb. split; [apply sqrt_pos|].
  assert (Hi : 0 <= hi) by lra. rewrite <- (sqrt_square hi Hi). apply sqrt_le_1_alt.
  apply (convex w (a * a) (b * b) 0 (hi * hi)); auto; split; try (apply Rmult_le_pos; lra); apply Rmult_le_compat; lra.
Qed.
Lemma add_rootR w a b : @add_root R RArith w (1 - w) a b = sqrt (w * (a * a) + (1 - w) * (b * b)).
Proof. unfold add_root. rn. unfold Rpow_c. destruct (Req_EM_T 2 2); [|lra]. reflexivity. Qed.
Lemma bad_weightR w : 0 <= w <= 1 -> @bad_weight R RArith w = false.
Proof. intros H. unfold bad_weight. rn. rewrite !Rltb_ge by lra. reflexivity. Qed.

Lemma new2_run X f (h : heap R) p1 p2 c1 c2 r : at_addr h p1 c1 -> at_addr h p2 c2 -> wf_color X c1 -> wf_color X c2 -> f c1 c2 = Ok r ->
  new2 X f (Some p1) (Some p2) h = (Ok (Some (length (colors h))), Heap (colors h ++ [r]) (spaces h)).
Proof.
  intros H1 H2 W1 W2 E. unfold new2, bind. rewrite (load_as_ok h p1 c1 X H1 W1), (load_as_ok h p2 c2 X H2 W2). unfold lift. rewrite E. reflexivity.
Qed.

Ltac lin3 := match goal with W1 : wf_color _ ?c1, W2 : wf_color _ ?c2, R1 : forall i x, nth_error (comps ?c1) _ = _ -> _, R2 : forall i x, nth_error (comps ?c2) _ = _ -> _ |- context [add3_f _ _ _ _ ?c1 ?c2] =>
  let x1 := fresh in let y1 := fresh in let z1 := fresh in let x2 := fresh in let y2 := fresh in let z2 := fresh in let E1 := fresh in let E2 := fresh in
  destruct (comps3 _ c1 W1 eq_refl) as [x1 [y1 [z1 E1]]]; destruct (comps3 _ c2 W2 eq_refl) as [x2 [y2 [z2 E2]]];
  unfold add3_f, with3; rewrite E1, E2 in *; cbv zeta; unfold add_lin; cbn [fadd fmul RArith];
  pose proof (R1 0%nat _ eq_refl); pose proof (R1 1%nat _ eq_refl); pose proof (R1 2%nat _ eq_refl);
  pose proof (R2 0%nat _ eq_refl); pose proof (R2 1%nat _ eq_refl); pose proof (R2 2%nat _ eq_refl);
  unfold rng in *; cbn [comp_range fst snd] in * end.

Lemma mix_formula X w (ia : bool) (h : heap R) p1 p2 c1 c2 : In X mix_exact_types -> 0 <= w <= 1 ->
  at_addr h p1 c1 -> at_addr h p2 c2 -> wf_color X c1 -> wf_color X c2 ->
  (eight_bit X = true -> 0 <= m_alpha c1 <= 1 /\ 0 <= m_alpha c2 <= 1) ->
  returns (typed_mix X (Some p1) (Some p2) w ia) h (fun r => ty r = X /\ comps r = map2 (mix_value X w) (comps c1) (comps c2) /\
    alpha r = (if ia then mix_value X w (alpha c1) (alpha c2) else alpha c1) /\ rgb_space r = rgb_space c1).
Proof.
  intros HX Hw H1 H2 W1 W2 A.
  assert (A1 : arng X (alpha c1)) by (apply (alpha_rng X c1 W1); intros E; apply A, E).
  assert (A2 : arng X (alpha c2)) by (apply (alpha_rng X c2 W2); intros E; apply A, E).
  assert (Bw : @bad_weight R RArith w = false) by (apply bad_weightR, Hw).
  assert (Bv : @bad_weight R RArith (1 - w) = false) by (apply bad_weightR; lra).
  rewrite typed_mix_eq by exact Bw. change (fsub (fz 1) w) with (@fz R RArith 1 - w). rewrite fzR.
  assert (G : forall f, (exists r, f c1 c2 = Ok r /\ ty r = X /\ comps r = map2 (mix_value X w) (comps c1) (comps c2) /\
      alpha r = (if ia then mix_value X w (alpha c1) (alpha c2) else alpha c1) /\ rgb_space r = rgb_space c1) ->
    returns (new2 X f (Some p1) (Some p2)) h (fun r => ty r = X /\ comps r = map2 (mix_value X w) (comps c1) (comps c2) /\
      alpha r = (if ia then mix_value X w (alpha c1) (alpha c2) else alpha c1) /\ rgb_space r = rgb_space c1)).
  { intros f [r [E P]]. exists (length (colors h)), r, (Heap (colors h ++ [r]) (spaces h)).
    split; [apply (new2_run X f h p1 p2 c1 c2 r H1 H2 W1 W2 E)|]. split; [apply at_new|exact P]. }
  pose proof (fun i x => wf_rng X c1 i x W1) as R1. pose proof (fun i x => wf_rng X c2 i x W2) as R2.
  unfold mix_exact_types in HX. simpl in HX.
  destruct HX as [<-|[<-|[<-|[<-|[<-|[<-|[<-|[<-|[]]]]]]]]]; cbn [typed_add];
    unfold add_rgb_true, add_rgb_deep, add_grey_true, add_grey_deep, add_cmyk, add_xyz, add_xyy, add_cieluv, check2; rewrite Bw, Bv; apply G; clear G.
  - destruct (comps3 _ c1 W1 eq_refl) as [x1 [y1 [z1 E1]]]. destruct (comps3 _ c2 W2 eq_refl) as [x2 [y2 [z2 E2]]].
    unfold add_rgb_true_f, with3. rewrite E1, E2 in *. cbv zeta. rewrite !add_rootR.
    pose proof (R1 0%nat _ eq_refl). pose proof (R1 1%nat _ eq_refl). pose proof (R1 2%nat _ eq_refl).
    pose proof (R2 0%nat _ eq_refl). pose proof (R2 1%nat _ eq_refl). pose proof (R2 2%nat _ eq_refl).
    unfold rng, arng in *. cbn [comp_range fst snd] in *. specialize (A1 eq_refl). specialize (A2 eq_refl).
    assert (L : forall x, 0 <= x <= 255 -> fmin (fmax x (@fz R RArith 0)) (@fz R RArith 255) = x).
    { intros x Hx. rn. rewrite Rmax_left, Rmin_left by lra. reflexivity. }
    assert (La : 0 <= (if ia then sqrt (w * (alpha c1 * alpha c1) + (1 - w) * (alpha c2 * alpha c2)) else alpha c1) <= 255).
    { destruct ia; [apply convex_root|]; auto. }
    rewrite !L by (try exact La; apply convex_root; auto).
    apply rgb_true_exact; unfold rng, arng; cbn [comp_range fst snd eight_bit]; try (apply convex_root; auto; fail). intros _. exact La.
  - destruct (comps3 _ c1 W1 eq_refl) as [x1 [y1 [z1 E1]]]. destruct (comps3 _ c2 W2 eq_refl) as [x2 [y2 [z2 E2]]].
    unfold add_rgb_deep_f, with3. rewrite E1, E2 in *. cbv zeta. rewrite !add_rootR.
    pose proof (R1 0%nat _ eq_refl). pose proof (R1 1%nat _ eq_refl). pose proof (R1 2%nat _ eq_refl).
    pose proof (R2 0%nat _ eq_refl). pose proof (R2 1%nat _ eq_refl). pose proof (R2 2%nat _ eq_refl).
    unfold rng in *. cbn [comp_range fst snd] in *.
    apply rgb_deep_exact; unfold rng, arng; cbn [comp_range fst snd eight_bit]; try (apply convex_root; auto; fail). discriminate.
  - destruct (comps1 _ c1 W1 eq_refl) as [x1 E1]. destruct (comps1 _ c2 W2 eq_refl) as [x2 E2].
    unfold add_grey_true_f, with1. rewrite E1, E2 in *. cbv zeta. unfold add_lin. cbn [fadd fmul RArith].
    pose proof (R1 0%nat _ eq_refl). pose proof (R2 0%nat _ eq_refl).
    unfold rng, arng in *. cbn [comp_range fst snd] in *. specialize (A1 eq_refl). specialize (A2 eq_refl).
    assert (L : forall x, 0 <= x <= 255 -> fmin (fmax x (@fz R RArith 0)) (@fz R RArith 255) = x).
    { intros x Hx. rn. rewrite Rmax_left, Rmin_left by lra. reflexivity. }
    assert (La : 0 <= (if ia then w * alpha c1 + (1 - w) * alpha c2 else alpha c1) <= 255).
    { destruct ia; [apply convex|]; auto. }
    rewrite !L by (try exact La; apply convex; auto).
    apply grey_true_exact; unfold rng, arng; cbn [comp_range fst snd eight_bit]; [apply convex; auto|]. intros _. exact La.
  - destruct (comps1 _ c1 W1 eq_refl) as [x1 E1]. destruct (comps1 _ c2 W2 eq_refl) as [x2 E2].
    unfold add_grey_deep_f, with1. rewrite E1, E2 in *. cbv zeta. unfold add_lin. cbn [fadd fmul RArith].
    pose proof (R1 0%nat _ eq_refl). pose proof (R2 0%nat _ eq_refl). unfold rng in *. cbn [comp_range fst snd] in *.
    apply grey_deep_exact; unfold rng, arng; cbn [comp_range fst snd eight_bit]; [apply convex; auto|]. discriminate.
  - destruct (comps4 _ c1 W1 eq_refl) as [x1 [y1 [z1 [k1 E1]]]]. destruct (comps4 _ c2 W2 eq_refl) as [x2 [y2 [z2 [k2 E2]]]].
    unfold add_cmyk_f, with4. rewrite E1, E2 in *. cbv zeta. unfold add_lin. cbn [fadd fmul RArith].
    pose proof (R1 0%nat _ eq_refl). pose proof (R1 1%nat _ eq_refl). pose proof (R1 2%nat _ eq_refl). pose proof (R1 3%nat _ eq_refl).
    pose proof (R2 0%nat _ eq_refl). pose proof (R2 1%nat _ eq_refl). pose proof (R2 2%nat _ eq_refl). pose proof (R2 3%nat _ eq_refl).
    unfold rng in *. cbn [comp_range fst snd] in *. apply cmyk_exact; unfold rng; cbn [comp_range fst snd]; apply convex; auto.
  - lin3. apply xyz_exact; unfold rng, arng; cbn [comp_range fst snd eight_bit]; try (apply convex; auto; fail). discriminate.
  - lin3. apply xyy_exact; unfold rng, arng; cbn [comp_range fst snd eight_bit]; try (apply convex; auto; fail). discriminate.
  - lin3. apply cieluv_exact; unfold rng, arng; cbn [comp_range fst snd eight_bit]; try (apply convex; auto; fail). discriminate.
Qed.


(** The functions on color_base, for operands of the same type. *)
Lemma mix_typed X w ia (h : heap R) p1 p2 c1 c2 : In X mix_types -> 0 < w <= 1 ->
  at_addr h p1 c1 -> at_addr h p2 c2 -> wf_color X c1 -> wf_color X c2 ->
  mix (Some p1) (Some p2) w ia h = typed_mix X (Some p1) (Some p2) w ia h.
Proof.
  intros HX Hw H1 H2 W1 W2.
  assert (T1 : to_type X (Some p1) h = (Ok (Some p1), h)) by apply (to_type_same X h p1 c1 H1 W1).
  assert (T2 : to_type X (Some p2) h = (Ok (Some p2), h)) by apply (to_type_same X h p2 c2 H2 W2).
  assert (B : both (to_type X) (fun a b => typed_mix X a b w ia) (Some p1) (Some p2) h = typed_mix X (Some p1) (Some p2) w ia h).
  { unfold both, bind. rewrite T1, T2. reflexivity. }
  rewrite <- B. unfold mix, check_strict. rn. rewrite Rleb_gt, Rltb_ge by lra. cbn [orb]. unfold bind at 1, load.
  unfold at_addr in H1. rewrite H1, (wf_ty _ _ W1).
  destruct X; try reflexivity; simpl in HX; exfalso; intuition discriminate.
Qed.

Lemma mix_value_self X w a : 0 <= a \/ (X <> RGB_TRUE /\ X <> RGB_DEEP) -> mix_value X w a a = a.
Proof.
  intros H. destruct X; cbn [mix_value]; try lra.
  all: destruct H as [H|[H H']]; [|congruence]; replace (w * (a * a) + (1 - w) * (a * a)) with (a * a) by ring; apply sqrt_square, H.
Qed.
Lemma mix_value_1 X a b : 0 <= a \/ (X <> RGB_TRUE /\ X <> RGB_DEEP) -> mix_value X 1 a b = a.
Proof.
  intros H. destruct X; cbn [mix_value]; try lra.
  all: destruct H as [H|[H H']]; [|congruence]; replace (1 * (a * a) + (1 - 1) * (b * b)) with (a * a) by ring; apply sqrt_square, H.
Qed.
Lemma mix_value_sym X w a b : mix_value X w a b = mix_value X (1 - w) b a.
Proof. destruct X; cbn [mix_value]; try ring; f_equal; ring. Qed.

Lemma map2_self {A} (f : A -> A -> A) l : (forall i x, nth_error l i = Some x -> f x x = x) -> map2 f l l = l.
Proof.
  induction l as [|x l IH]; intros H; [reflexivity|]. cbn [map2]. rewrite (H 0%nat x eq_refl), IH; [reflexivity|].
  intros i y E. apply (H (S i)), E.
Qed.
Lemma map2_left {A} (f : A -> A -> A) l m : length l = length m -> (forall i x y, nth_error l i = Some x -> f x y = x) -> map2 f l m = l.
Proof.
  revert m. induction l as [|x l IH]; intros [|y m] L H; try discriminate L; [reflexivity|].
  cbn [map2]. rewrite (H 0%nat x y eq_refl), IH; auto. intros i u v E. apply (H (S i) u v), E.
Qed.
Lemma map2_flip {A} (f g : A -> A -> A) l m : (forall x y, f x y = g y x) -> map2 f l m = map2 g m l.
Proof. intros H. revert m. induction l as [|x l IH]; intros [|y m]; try reflexivity. cbn [map2]. rewrite H, IH. reflexivity. Qed.

Lemma comp_pos X (c : color R) i x : In X mix_exact_types -> wf_color X c -> nth_error (comps c) i = Some x -> 0 <= x \/ (X <> RGB_TRUE /\ X <> RGB_DEEP).
Proof.
  intros HX W E. pose proof (wf_rng X c i x W E) as H. unfold rng in H.
  destruct (ctype_eq_dec X RGB_TRUE) as [->|]; [left; apply H|]. destruct (ctype_eq_dec X RGB_DEEP) as [->|]; [left; apply H|]. auto.
Qed.

Section Mix.
Variables (X : ctype) (w : R) (ia : bool) (h : heap R) (p1 p2 : nat) (c1 c2 : color R).
Hypothesis HX : In X mix_exact_types.
Hypothesis H1 : at_addr h p1 c1.
Hypothesis H2 : at_addr h p2 c2.
Hypothesis W1 : wf_color X c1.
Hypothesis W2 : wf_color X c2.
Hypothesis A1 : 0 <= m_alpha c1 <= 1.
Hypothesis A2 : 0 <= m_alpha c2 <= 1.

Lemma alpha_pos c : wf_color X c -> 0 <= m_alpha c <= 1 -> 0 <= alpha c.
Proof.
  intros W A. destruct (eight_bit X) eqn:E.
  - rewrite (alpha_eight c X W E). cbn [fmul RArith]. rewrite fzR. lra.
  - rewrite (alpha_std c X W E). lra.
Qed.

Lemma mix_self : 0 <= w <= 1 -> comps c2 = comps c1 -> m_alpha c2 = m_alpha c1 ->
  returns (typed_mix X (Some p1) (Some p2) w ia) h (fun r => ty r = X /\ comps r = comps c1 /\ alpha r = alpha c1 /\ rgb_space r = rgb_space c1).
Proof.
  intros Hw Ec Ea. destruct (mix_formula X w ia h p1 p2 c1 c2 HX Hw H1 H2 W1 W2 ltac:(auto)) as [q [r [h' [E [A [T [C [L S]]]]]]]].
  exists q, r, h'. split; [exact E|]. split; [exact A|]. split; [exact T|].
  split. { rewrite C, Ec. apply map2_self. intros i x Ei. apply mix_value_self. apply (comp_pos X c1 i x HX W1 Ei). }
  split; [|exact S]. rewrite L. destruct ia; [|reflexivity].
  assert (E2 : alpha c2 = alpha c1). { destruct (eight_bit X) eqn:E8.
    - rewrite (alpha_eight c1 X W1 E8), (alpha_eight c2 X W2 E8). congruence.
    - rewrite (alpha_std c1 X W1 E8), (alpha_std c2 X W2 E8). congruence. }
  rewrite E2. apply mix_value_self. left. apply (alpha_pos c1 W1 A1).
Qed.
Lemma mix_one : returns (typed_mix X (Some p1) (Some p2) 1 ia) h (fun r => ty r = X /\ comps r = comps c1 /\ alpha r = alpha c1 /\ rgb_space r = rgb_space c1).
Proof.
  destruct (mix_formula X 1 ia h p1 p2 c1 c2 HX ltac:(lra) H1 H2 W1 W2 ltac:(auto)) as [q [r [h' [E [A [T [C [L S]]]]]]]].
  exists q, r, h'. split; [exact E|]. split; [exact A|]. split; [exact T|].
  split. { rewrite C. apply map2_left; [rewrite (wf_len _ _ W1), (wf_len _ _ W2); reflexivity|].
    intros i x y Ei. apply mix_value_1. apply (comp_pos X c1 i x HX W1 Ei). }
  split; [|exact S]. rewrite L. destruct ia; [|reflexivity]. apply mix_value_1. left. apply (alpha_pos c1 W1 A1).
Qed.
Lemma mix_sym : 0 <= w <= 1 -> exists q1 r1 h1 q2 r2 h2,
  typed_mix X (Some p1) (Some p2) w true h = (Ok (Some q1), h1) /\ at_addr h1 q1 r1 /\
  typed_mix X (Some p2) (Some p1) (1 - w) true h = (Ok (Some q2), h2) /\ at_addr h2 q2 r2 /\
  comps r1 = comps r2 /\ alpha r1 = alpha r2.
Proof.
  intros Hw. destruct (mix_formula X w true h p1 p2 c1 c2 HX Hw H1 H2 W1 W2 ltac:(auto)) as [q1 [r1 [h1 [E1 [B1 [_ [C1 [L1 _]]]]]]]].
  destruct (mix_formula X (1 - w) true h p2 p1 c2 c1 HX ltac:(lra) H2 H1 W2 W1 ltac:(auto)) as [q2 [r2 [h2 [E2 [B2 [_ [C2 [L2 _]]]]]]]].
  exists q1, r1, h1, q2, r2, h2. do 4 (split; [assumption|]). split.
  - rewrite C1, C2. apply map2_flip. intros x y. apply mix_value_sym.
  - rewrite L1, L2. apply mix_value_sym.
Qed.
End Mix.

(** ** Averages *)
Section AvgGen.
Context {F : Type} {AF : Arith F}.
Lemma loop_inv {S : Type} X (step : S -> color F -> outcome S) (inv : list (color F) -> S -> S -> Prop) (h : heap F) ps cs :
  points_to h ps cs -> Forall (wf_color X) cs ->
  (forall s, inv [] s s) -> (forall c cs s, wf_color X c -> exists s', step s c = Ok s' /\ forall s2, inv cs s' s2 -> inv (c :: cs) s s2) ->
  forall s, exists s', sum_loop X step ps s h = (Ok s', h) /\ inv cs s s'.
Proof.
  intros P W Hn Hc. induction P as [|p c ps cs [i [-> Hi]] P IH]; intros s.
  - exists s. split; [reflexivity|apply Hn].
  - inversion W as [|c' cs' Wc Wcs]; subst. destruct (Hc c cs s Wc) as [s1 [E1 I1]]. destruct (IH Wcs s1) as [s2 [E2 I2]].
    exists s2. split; [|apply I1, I2]. cbn [sum_loop]. unfold bind. rewrite (load_as_ok h i c X Hi Wc). unfold lift. rewrite E1. exact E2.
Qed.
End AvgGen.
