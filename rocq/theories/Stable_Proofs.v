(** * Small changes of a hue colour change its RGB colour little (C212) *)
From Coq Require Import ZArith QArith Reals Lra Lia List Bool.
From Flocq Require Import Core IEEE754.BinarySingleNaN.
From Verif Require Import Arith Outcome ColorModel GammaModel MatrixModel SpaceModel Heap Converter F32 F32Facts RArith
  Spec Spec32 Laws NormalForms Core_Proofs Spec_Conv Spec_Round HueR_Proofs Round_Proofs Spec_Error Spec_Formula Spec_Channels Spec_Near Sum_Proofs Formula_Proofs Formula2_Proofs Error_Proofs Core2_Proofs Oneway2_Proofs.
Import ListNotations.
Local Open Scope R_scope.

Lemma arc_pos x y : 0 <= x < 360 -> 0 <= y < 360 -> 0 <= arc x y.
Proof. intros. unfold arc. apply Rmin_glb; unfold Rabs; destruct (Rcase_abs _); lra. Qed.
Lemma cl_lip a b : Rabs (cl a - cl b) <= Rabs (a - b).
Proof. unfold cl, Rabs, Rmin, Rmax. repeat (destruct (Rle_dec _ _) || destruct (Rcase_abs _)); lra. Qed.
Lemma abs_lip a b : Rabs (Rabs a - Rabs b) <= Rabs (a - b).
Proof. unfold Rabs. repeat destruct (Rcase_abs _); lra. Qed.
Lemma lip_r x y : Rabs (ur x - ur y) <= Rabs (x - y).
Proof. unfold ur. eapply Rle_trans; [apply cl_lip|]. replace (_ - _ - _) with (Rabs (x - 3) - Rabs (y - 3)) by ring. eapply Rle_trans; [apply abs_lip|]. right. f_equal. ring. Qed.
Lemma lip_m k x y : Rabs (cl (2 - Rabs (x - k)) - cl (2 - Rabs (y - k))) <= Rabs (x - y).
Proof. eapply Rle_trans; [apply cl_lip|]. replace (_ - _ - _) with (Rabs (y - k) - Rabs (x - k)) by ring. eapply Rle_trans; [apply abs_lip|]. rewrite <- (Rabs_Ropp (x - y)). right. f_equal. ring. Qed.
Lemma wrap_r x y : 0 <= x <= y -> y < 6 -> Rabs (ur x - ur y) <= 6 - (y - x).
Proof.
  intros A B. replace (ur x - ur y) with ((ur x - ur 0) + (ur 6 - ur y)) by (replace (ur 6) with (ur 0) by (absmm; lra); ring).
  eapply Rle_trans; [apply Rabs_triang|]. pose proof (lip_r x 0). pose proof (lip_r 6 y). rewrite (Rabs_pos_eq (x - 0)) in H by lra. rewrite (Rabs_pos_eq (6 - y)) in H0 by lra. lra.
Qed.
Lemma wrap_m k x y : (k = 2 \/ k = 4) -> 0 <= x <= y -> y < 6 -> Rabs (cl (2 - Rabs (x - k)) - cl (2 - Rabs (y - k))) <= 6 - (y - x).
Proof.
  intros K A B. set (f := fun t => cl (2 - Rabs (t - k))). change (Rabs (f x - f y) <= 6 - (y - x)).
  assert (E : f 6 = f 0) by (unfold f; destruct K; subst; absmm; lra).
  replace (f x - f y) with ((f x - f 0) + (f 6 - f y)) by (rewrite E; ring).
  eapply Rle_trans; [apply Rabs_triang|]. pose proof (lip_m k x 0) as H. pose proof (lip_m k 6 y) as H0. fold (f x) (f 0) in H. fold (f 6) (f y) in H0. rewrite (Rabs_pos_eq (x - 0)) in H by lra. rewrite (Rabs_pos_eq (6 - y)) in H0 by lra. lra.
Qed.
(** A 6-periodic, 1-Lipschitz function of the hue *)
Lemma by_arc (f : R -> R) x y : (forall a b, Rabs (f a - f b) <= Rabs (a - b)) -> (forall a b, 0 <= a <= b -> b < 6 -> Rabs (f a - f b) <= 6 - (b - a)) ->
  0 <= x < 360 -> 0 <= y < 360 -> Rabs (f (x / 60) - f (y / 60)) <= arc x y / 60.
Proof.
  intros L W Bx By. unfold arc.
  assert (E : Rmin (Rabs (x - y)) (360 - Rabs (x - y)) / 60 = Rmin (Rabs (x / 60 - y / 60)) (6 - Rabs (x / 60 - y / 60))).
  { replace (x / 60 - y / 60) with ((x - y) * / 60) by field. rewrite Rabs_mult, (Rabs_pos_eq (/ 60)) by lra. unfold Rmin. destruct (Rle_dec _ _), (Rle_dec _ _); lra. }
  rewrite E. apply Rmin_glb; [apply L|]. destruct (Rle_dec (x / 60) (y / 60)) as [D|D].
  - rewrite (Rabs_left1 (x / 60 - y / 60)) by lra. replace (6 - - (x / 60 - y / 60)) with (6 - (y / 60 - x / 60)) by ring. apply W; lra.
  - rewrite (Rabs_pos_eq (x / 60 - y / 60)) by lra. rewrite Rabs_minus_sym. apply W; lra.
Qed.
Lemma arc_r x y : 0 <= x < 360 -> 0 <= y < 360 -> Rabs (ur (x / 60) - ur (y / 60)) <= arc x y / 60.
Proof. apply by_arc; [apply lip_r|apply wrap_r]. Qed.
Lemma arc_g x y : 0 <= x < 360 -> 0 <= y < 360 -> Rabs (ug (x / 60) - ug (y / 60)) <= arc x y / 60.
Proof. apply (by_arc ug); [apply (lip_m 2)|intros; apply (wrap_m 2); auto]. Qed.
Lemma arc_b x y : 0 <= x < 360 -> 0 <= y < 360 -> Rabs (ub (x / 60) - ub (y / 60)) <= arc x y / 60.
Proof. apply (by_arc ub); [apply (lip_m 4)|intros; apply (wrap_m 4); auto]. Qed.

Lemma prod_lip a b a' b' A B : Rabs a <= A -> Rabs b' <= B -> Rabs (a * b - a' * b') <= A * Rabs (b - b') + B * Rabs (a - a').
Proof.
  intros HA HB. replace (a * b - a' * b') with (a * (b - b') + b' * (a - a')) by ring.
  eapply Rle_trans; [apply Rabs_triang|]. rewrite !Rabs_mult. apply Rplus_le_compat; apply Rmult_le_compat_r; auto; apply Rabs_pos.
Qed.
Lemma cut_lip a b : Rabs (cut 0 1 a - cut 0 1 b) <= Rabs (a - b).
Proof. unfold cut, Rabs, Rmin, Rmax. repeat (destruct (Rle_dec _ _) || destruct (Rcase_abs _)); lra. Qed.

Ltac three := apply Forall2_cons; [|apply Forall2_cons; [|apply Forall2_cons; [|apply Forall2_nil]]].

(** The three formulas *)
Section Formulas.
Variables (x s v x' s' v' : R).
Hypothesis (Bx : 0 <= x < 360) (Bs : 0 <= s <= 1) (Bv : 0 <= v <= 1).
Hypothesis (Bx' : 0 <= x' < 360) (Bs' : 0 <= s' <= 1) (Bv' : 0 <= v' <= 1).

Lemma hsv_lip w w' q : 0 <= w <= 1 -> 0 <= w' <= 1 -> Rabs (w - w') <= q ->
  Rabs (v * s * w + (v - v * s) - (v' * s' * w' + (v' - v' * s'))) <= q + Rabs (s - s') + Rabs (v - v').
Proof.
  intros Hw Hw' Hq.
  replace (_ - _) with (v * (1 - s * (1 - w)) - v' * (1 - s' * (1 - w'))) by ring.
  assert (A : 0 <= s' * (1 - w') <= 1) by (apply mul_unit; lra).
  eapply Rle_trans; [apply (prod_lip _ _ _ _ 1 1); [rewrite Rabs_pos_eq; lra|rewrite Rabs_pos_eq; lra]|].
  assert (P : Rabs (1 - s * (1 - w) - (1 - s' * (1 - w'))) <= q + Rabs (s - s')); [|lra].
  replace (1 - s * (1 - w) - (1 - s' * (1 - w'))) with (- (s * (1 - w) - s' * (1 - w'))) by ring. rewrite Rabs_Ropp.
  eapply Rle_trans; [apply (prod_lip _ _ _ _ 1 1); [rewrite Rabs_pos_eq; lra|rewrite Rabs_pos_eq; lra]|].
  replace (1 - w - (1 - w')) with (- (w - w')) by ring. rewrite Rabs_Ropp. lra.
Qed.
Lemma hsv_stable : close_by (arc x x' / 60 + Rabs (s - s') + Rabs (v - v')) (lifted (hexagon_rgb x (v * s)) (v - v * s)) (lifted (hexagon_rgb x' (v' * s')) (v' - v' * s')).
Proof.
  rewrite !hexagon_unit by assumption. destruct (unit_bounds (x / 60)) as [U1 [U2 U3]]. destruct (unit_bounds (x' / 60)) as [W1 [W2 W3]].
  unfold close_by, lifted. three; apply hsv_lip; auto; [apply arc_r|apply arc_g|apply arc_b]; assumption.
Qed.

Lemma hsl_lip w w' q : 0 <= w <= 1 -> 0 <= w' <= 1 -> Rabs (w - w') <= q -> forall C C', C = (1 - Rabs (2 * v - 1)) * s -> C' = (1 - Rabs (2 * v' - 1)) * s' ->
  Rabs (C * w + (v - C / 2) - (C' * w' + (v' - C' / 2))) <= q + Rabs (s - s') / 2 + 2 * Rabs (v - v').
Proof.
  intros Hw Hw' Hq C C' EC EC'.
  assert (M : forall t, 0 <= t <= 1 -> 0 <= 1 - Rabs (2 * t - 1) <= 1) by (intros t Ht; unfold Rabs; destruct (Rcase_abs _); lra).
  assert (BC : 0 <= C <= 1) by (rewrite EC; apply mul_unit; auto). assert (BC' : 0 <= C' <= 1) by (rewrite EC'; apply mul_unit; auto).
  assert (DC : Rabs (C - C') <= Rabs (s - s') + 2 * Rabs (v - v')).
  { rewrite EC, EC'. eapply Rle_trans; [apply (prod_lip _ _ _ _ 1 1); [rewrite Rabs_pos_eq; apply M; assumption|rewrite Rabs_pos_eq; lra]|].
    assert (Rabs (1 - Rabs (2 * v - 1) - (1 - Rabs (2 * v' - 1))) <= 2 * Rabs (v - v')); [|lra].
    replace (_ - _ - _) with (Rabs (2 * v' - 1) - Rabs (2 * v - 1)) by ring. eapply Rle_trans; [apply abs_lip|].
    replace (2 * v' - 1 - (2 * v - 1)) with (- (2 * (v - v'))) by ring. rewrite Rabs_Ropp, Rabs_mult, (Rabs_pos_eq 2) by lra. lra. }
  replace (_ - _) with ((v - v') + (C * (w - / 2) - C' * (w' - / 2))) by field. eapply Rle_trans; [apply Rabs_triang|].
  assert (P : Rabs (C * (w - / 2) - C' * (w' - / 2)) <= 1 * Rabs (w - / 2 - (w' - / 2)) + / 2 * Rabs (C - C')).
  { apply prod_lip; [rewrite Rabs_pos_eq; lra|apply Rabs_le; lra]. }
  replace (w - / 2 - (w' - / 2)) with (w - w') in P by ring. lra.
Qed.
Lemma hsl_stable C C' : C = (1 - Rabs (2 * v - 1)) * s -> C' = (1 - Rabs (2 * v' - 1)) * s' ->
  close_by (arc x x' / 60 + Rabs (s - s') / 2 + 2 * Rabs (v - v')) (lifted (hexagon_rgb x C) (v - C / 2)) (lifted (hexagon_rgb x' C') (v' - C' / 2)).
Proof.
  intros EC EC'. rewrite !hexagon_unit by assumption. destruct (unit_bounds (x / 60)) as [U1 [U2 U3]]. destruct (unit_bounds (x' / 60)) as [W1 [W2 W3]].
  unfold close_by, lifted. three; apply hsl_lip; auto; [apply arc_r|apply arc_g|apply arc_b]; assumption.
Qed.

Lemma hcy_lip w w' L L' q : -1 <= w - L <= 1 -> -1 <= w' - L' <= 1 -> Rabs (w - w') <= q -> Rabs (L - L') <= q ->
  Rabs (cut 0 1 (s * w + (v - s * L)) - cut 0 1 (s' * w' + (v' - s' * L'))) <= 2 * q + Rabs (s - s') + Rabs (v - v').
Proof.
  intros Hw Hw' Hq HL. eapply Rle_trans; [apply cut_lip|].
  replace (_ - _) with ((v - v') + (s * (w - L) - s' * (w' - L'))) by ring. eapply Rle_trans; [apply Rabs_triang|].
  assert (P : Rabs (s * (w - L) - s' * (w' - L')) <= 1 * Rabs (w - L - (w' - L')) + 1 * Rabs (s - s')).
  { apply prod_lip; [rewrite Rabs_pos_eq; lra|apply Rabs_le; lra]. }
  assert (Rabs (w - L - (w' - L')) <= 2 * q); [|lra].
  replace (w - L - (w' - L')) with ((w - w') + - (L - L')) by ring. eapply Rle_trans; [apply Rabs_triang|]. rewrite Rabs_Ropp. lra.
Qed.
Lemma hcy_stable r g b r' g' b' : hexagon_rgb x s = (r, g, b) -> hexagon_rgb x' s' = (r', g', b') ->
  close_by (arc x x' / 30 + Rabs (s - s') + Rabs (v - v')) (map (cut 0 1) (lifted (r, g, b) (v - luma709 r g b))) (map (cut 0 1) (lifted (r', g', b') (v' - luma709 r' g' b'))).
Proof.
  intros E E'. rewrite hexagon_unit in E by assumption. rewrite hexagon_unit in E' by assumption. inversion E; subst r g b. inversion E'; subst r' g' b'. clear E E'.
  destruct (unit_bounds (x / 60)) as [U1 [U2 U3]]. destruct (unit_bounds (x' / 60)) as [W1 [W2 W3]].
  pose proof (arc_r x x' Bx Bx') as A1. pose proof (arc_g x x' Bx Bx') as A2. pose proof (arc_b x x' Bx Bx') as A3.
  set (R1 := ur (x / 60)) in *. set (G1 := ug (x / 60)) in *. set (B1 := ub (x / 60)) in *.
  set (R2 := ur (x' / 60)) in *. set (G2 := ug (x' / 60)) in *. set (B2 := ub (x' / 60)) in *.
  set (L1 := luma709 R1 G1 B1). set (L2 := luma709 R2 G2 B2).
  assert (E1 : luma709 (s * R1) (s * G1) (s * B1) = s * L1) by (unfold L1; rewrite !luma_plain; ring).
  assert (E2 : luma709 (s' * R2) (s' * G2) (s' * B2) = s' * L2) by (unfold L2; rewrite !luma_plain; ring).
  assert (BL1 : 0 <= L1 <= 1) by (unfold L1; rewrite luma_plain; lra). assert (BL2 : 0 <= L2 <= 1) by (unfold L2; rewrite luma_plain; lra).
  assert (AL : Rabs (L1 - L2) <= arc x x' / 60).
  { apply Rabs_le_inv in A1, A2, A3. apply Rabs_le. unfold L1, L2. rewrite !luma_plain. lra. }
  rewrite E1, E2. replace (arc x x' / 30) with (2 * (arc x x' / 60)) by field.
  unfold close_by, lifted, map. three; apply hcy_lip; auto; lra.
Qed.

End Formulas.

Lemma cmyk_stable cy m y k cy' m' y' k' e : (forall t, In t [cy; m; y; k; cy'; m'; y'; k'] -> 0 <= t <= 1) ->
  Rabs (cy - cy') <= e -> Rabs (m - m') <= e -> Rabs (y - y') <= e ->
  close_by (e + Rabs (k - k')) [(1 - cy) * (1 - k); (1 - m) * (1 - k); (1 - y) * (1 - k)] [(1 - cy') * (1 - k'); (1 - m') * (1 - k'); (1 - y') * (1 - k')].
Proof.
  intros B E1 E2 E3.
  assert (P : forall a b, 0 <= a <= 1 -> 0 <= b <= 1 -> 0 <= k <= 1 -> 0 <= k' <= 1 -> Rabs (a - b) <= e -> Rabs ((1 - a) * (1 - k) - (1 - b) * (1 - k')) <= e + Rabs (k - k')).
  { intros a b A A' K K' D. eapply Rle_trans; [apply (prod_lip _ _ _ _ 1 1); rewrite Rabs_pos_eq; lra|].
    replace (1 - k - (1 - k')) with (- (k - k')) by ring. replace (1 - a - (1 - b)) with (- (a - b)) by ring. rewrite !Rabs_Ropp. lra. }
  unfold close_by. three; apply P; auto; apply B; cbn; auto 10.
Qed.

(** From close formulas to close floats *)
Lemma channels_close e t l l' (d d' : color f32) : length l = 3%nat -> length l' = 3%nat ->
  channels l e d -> channels l' e d' -> close_by t l l' -> close32 (t + 2 * e) d d'.
Proof.
  intros M M' H H' K i Hi.
  destruct (nth_error l i) as [a|] eqn:Ea; [|apply nth_error_None in Ea; lia]. destruct (nth_error l' i) as [b|] eqn:Eb; [|apply nth_error_None in Eb; lia].
  destruct (H i a Ea) as [x [Nx [Fx Dx]]]. destruct (H' i b Eb) as [y [Ny [Fy Dy]]].
  assert (D : Rabs (a - b) <= t).
  { clear - K Ea Eb. revert i Ea Eb. induction K; intros [|i] Ea Eb; cbn in *; try discriminate; [apply Some_inv in Ea, Eb; subst; assumption|eauto]. }
  exists x, y. repeat (split; [assumption|]). apply Rabs_le_inv in D, Dx, Dy. apply Rabs_le. lra.
Qed.

Lemma yields_imp {F} go (h : heap F) p (P Q : color F -> Prop) : yields go h p P -> (forall m, P m -> Q m) -> yields go h p Q.
Proof. intros [q [m [h1 [E [A H]]]]] I. exists q, m, h1. auto. Qed.

Lemma lifted_len q m : length (lifted q m) = 3%nat.
Proof. destruct q as [[? ?] ?]. reflexivity. Qed.

(** In binary32 *)
Section Binary32.
Context (o : oracle).
Variables (h h' : heap f32) (p p' : nat) (c c' : color f32).
Hypothesis (Hp : at_addr h p c) (Hp' : at_addr h' p' c').
Local Notation go := (@to_rgb_deep f32 (F32 o)).
Section Hue.
Variables (x s v x' s' v' : f32).
Hypothesis (Ec : comps c = [x; s; v]) (Ec' : comps c' = [x'; s'; v']).
Lemma stable_hsv : @wf_color f32 (F32 o) HSV c -> @wf_color f32 (F32 o) HSV c' ->
  yields go h p (fun d => yields go h' p' (fun d' => close32 (arc (B2R x) (B2R x') / 60 + Rabs (B2R s - B2R s') + Rabs (B2R v - B2R v') + / 65536) d d')).
Proof.
  intros W W'. destruct (hue_parts o c x s v Ec HSV ltac:(auto) W) as [[_ Bx] [[_ Bs] [_ Bv]]]. destruct (hue_parts o c' x' s' v' Ec' HSV ltac:(auto) W') as [[_ Bx'] [[_ Bs'] [_ Bv']]].
  eapply yields_imp; [apply (hsv_back o h p c Hp x s v Ec W)|]. cbv beta. intros d [_ [K _]].
  eapply yields_imp; [apply (hsv_back o h' p' c' Hp' x' s' v' Ec' W')|]. cbv beta. intros d' [_ [K' _]].
  replace (/ 65536) with (2 * / 131072) by lra. eapply channels_close; [| |exact K|exact K'|apply hsv_stable; lra]; apply lifted_len.
Qed.
Lemma stable_hsl : @wf_color f32 (F32 o) HSL c -> @wf_color f32 (F32 o) HSL c' ->
  yields go h p (fun d => yields go h' p' (fun d' => close32 (arc (B2R x) (B2R x') / 60 + Rabs (B2R s - B2R s') / 2 + 2 * Rabs (B2R v - B2R v') + / 65536) d d')).
Proof.
  intros W W'. destruct (hue_parts o c x s v Ec HSL ltac:(auto) W) as [[_ Bx] [[_ Bs] [_ Bv]]]. destruct (hue_parts o c' x' s' v' Ec' HSL ltac:(auto) W') as [[_ Bx'] [[_ Bs'] [_ Bv']]].
  eapply yields_imp; [apply (hsl_back o h p c Hp x s v Ec W _ eq_refl)|]. cbv beta. intros d [_ [K _]].
  eapply yields_imp; [apply (hsl_back o h' p' c' Hp' x' s' v' Ec' W' _ eq_refl)|]. cbv beta. intros d' [_ [K' _]].
  replace (/ 65536) with (2 * / 131072) by lra. eapply channels_close; [| |exact K|exact K'|apply hsl_stable; try reflexivity; lra]; apply lifted_len.
Qed.
Lemma stable_hcy : @wf_color f32 (F32 o) HCY c -> @wf_color f32 (F32 o) HCY c' ->
  yields go h p (fun d => yields go h' p' (fun d' => close32 (arc (B2R x) (B2R x') / 30 + Rabs (B2R s - B2R s') + Rabs (B2R v - B2R v') + / 65536) d d')).
Proof.
  intros W W'. destruct (hue_parts o c x s v Ec HCY ltac:(auto) W) as [[_ Bx] [[_ Bs] [_ Bv]]]. destruct (hue_parts o c' x' s' v' Ec' HCY ltac:(auto) W') as [[_ Bx'] [[_ Bs'] [_ Bv']]].
  eapply yields_imp; [apply (hcy_back o h p c Hp x s v Ec W)|]. cbv beta. intros d [_ [K _]].
  eapply yields_imp; [apply (hcy_back o h' p' c' Hp' x' s' v' Ec' W')|]. cbv beta. intros d' [_ [K' _]].
  destruct (hexagon_rgb (B2R x) (B2R s)) as [[r g] b] eqn:E. destruct (hexagon_rgb (B2R x') (B2R s')) as [[r' g'] b'] eqn:E'.
  replace (/ 65536) with (2 * / 131072) by lra. eapply channels_close; [| |exact (K _ _ _ eq_refl)|exact (K' _ _ _ eq_refl)|apply hcy_stable; try assumption; lra]; reflexivity.
Qed.
End Hue.
Lemma stable_cmyk a m y k a' m' y' k' e : comps c = [a; m; y; k] -> comps c' = [a'; m'; y'; k'] -> @wf_color f32 (F32 o) CMYK c -> @wf_color f32 (F32 o) CMYK c' ->
  Rabs (B2R a - B2R a') <= e -> Rabs (B2R m - B2R m') <= e -> Rabs (B2R y - B2R y') <= e ->
  yields go h p (fun d => yields go h' p' (fun d' => close32 (e + Rabs (B2R k - B2R k') + / 2097152) d d')).
Proof.
  intros Ec Ec' W W' E1 E2 E3.
  assert (Q : forall (z : color f32) t1 t2 t3 t4, comps z = [t1; t2; t3; t4] -> @wf_color f32 (F32 o) CMYK z -> forall t, In t [B2R t1; B2R t2; B2R t3; B2R t4] -> 0 <= t <= 1).
  { intros z t1 t2 t3 t4 Ez Wz t Ht. pose proof (wf_range _ _ Wz) as H. rewrite Ez in H. pose proof (H 0%nat t1 eq_refl) as H0. pose proof (H 1%nat t2 eq_refl) as H1. pose proof (H 2%nat t3 eq_refl) as H2. pose proof (H 3%nat t4 eq_refl) as H3.
    cbn [comp_range fst snd] in *. apply within32 in H0, H1, H2, H3; try sm. destruct Ht as [<-|[<-|[<-|[<-|[]]]]]; apply H0 || apply H1 || apply H2 || apply H3. }
  eapply yields_imp; [apply (cmyk_back o h p c Hp a m y k W Ec)|]. cbv beta. intros d [_ [K _]].
  eapply yields_imp; [apply (cmyk_back o h' p' c' Hp' a' m' y' k' W' Ec')|]. cbv beta. intros d' [_ [K' _]].
  replace (/ 2097152) with (2 * / 4194304) by lra. eapply channels_close; [| |exact K|exact K'|]; [reflexivity|reflexivity|]. apply cmyk_stable; auto.
  intros t Ht. change (In t ([B2R a; B2R m; B2R y; B2R k] ++ [B2R a'; B2R m'; B2R y'; B2R k'])) in Ht. apply in_app_or in Ht. destruct Ht; [eapply (Q c); eassumption|eapply (Q c'); eassumption].
Qed.
End Binary32.

(** In exact arithmetic *)
Section Exact.
Variables (h h' : heap R) (p p' : nat) (c c' : color R).
Hypothesis (Hp : at_addr h p c) (Hp' : at_addr h' p' c').
Local Notation go := (@to_rgb_deep R RArith).
Variables (x s v x' s' v' : R).
Hypothesis (Ec : comps c = [x; s; v]) (Ec' : comps c' = [x'; s'; v']).
Lemma exact_hsv : wf_color HSV c -> wf_color HSV c' ->
  yields go h p (fun d => yields go h' p' (fun d' => close_by (arc x x' / 60 + Rabs (s - s') + Rabs (v - v')) (comps d) (comps d'))).
Proof.
  intros W W'. destruct (hue_range c HSV x s v W eq_refl Ec) as [Bx [Bs Bv]]. destruct (hue_range c' HSV x' s' v' W' eq_refl Ec') as [Bx' [Bs' Bv']].
  eapply yields_imp; [apply (from_hsv h p c x s v Hp Ec W)|]. cbv beta. intros d [_ [-> _]].
  eapply yields_imp; [apply (from_hsv h' p' c' x' s' v' Hp' Ec' W')|]. cbv beta. intros d' [_ [-> _]]. apply hsv_stable; lra.
Qed.
Lemma exact_hsl : wf_color HSL c -> wf_color HSL c' ->
  yields go h p (fun d => yields go h' p' (fun d' => close_by (arc x x' / 60 + Rabs (s - s') / 2 + 2 * Rabs (v - v')) (comps d) (comps d'))).
Proof.
  intros W W'. destruct (hue_range c HSL x s v W eq_refl Ec) as [Bx [Bs Bv]]. destruct (hue_range c' HSL x' s' v' W' eq_refl Ec') as [Bx' [Bs' Bv']].
  eapply yields_imp; [apply (from_hsl h p c x s v Hp Ec W _ eq_refl)|]. cbv beta. intros d [_ [-> _]].
  eapply yields_imp; [apply (from_hsl h' p' c' x' s' v' Hp' Ec' W' _ eq_refl)|]. cbv beta. intros d' [_ [-> _]]. apply hsl_stable; try reflexivity; lra.
Qed.
Lemma exact_hcy : wf_color HCY c -> wf_color HCY c' ->
  yields go h p (fun d => yields go h' p' (fun d' => close_by (arc x x' / 30 + Rabs (s - s') + Rabs (v - v')) (comps d) (comps d'))).
Proof.
  intros W W'. destruct (hue_range c HCY x s v W eq_refl Ec) as [Bx [Bs Bv]]. destruct (hue_range c' HCY x' s' v' W' eq_refl Ec') as [Bx' [Bs' Bv']].
  eapply yields_imp; [apply (from_hcy h p c x s v Hp Ec W)|]. cbv beta. intros d [_ [K _]].
  eapply yields_imp; [apply (from_hcy h' p' c' x' s' v' Hp' Ec' W')|]. cbv beta. intros d' [_ [K' _]].
  destruct (hexagon_rgb x s) as [[r g] b] eqn:E. destruct (hexagon_rgb x' s') as [[r' g'] b'] eqn:E'. rewrite (K _ _ _ eq_refl), (K' _ _ _ eq_refl). apply hcy_stable; try assumption; lra.
Qed.
End Exact.
Lemma arc_red : arc 1 359 = 2.
Proof. unfold arc, Rabs, Rmin. destruct (Rcase_abs _), (Rle_dec _ _); lra. Qed.
