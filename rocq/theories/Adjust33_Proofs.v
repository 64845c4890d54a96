(** * The adjustments in RGB in binary32: accuracy, neutral settings, order (C198) *)
From Coq Require Import ZArith QArith Reals Lra Lia List Bool.
From Flocq Require Import Core IEEE754.BinarySingleNaN.
From Verif Require Import Calculation Blend Adjust Spec_Calc Spec_Blend Spec_Adjust Calc_Proofs Adjust_Proofs.
From Verif Require Import Arith Outcome ColorModel GammaModel MatrixModel SpaceModel Heap Converter F32 F32Facts RArith
  Spec Spec32 Laws NormalForms Alpha8 Core_Proofs Core2_Proofs Core3_Proofs Core4_Proofs Hue32 Spec_Matrix Spec_Conv Spec_Round
  Conv_Proofs Conv2_Proofs Conv3_Proofs Run_Proofs HueR_Proofs Round_Proofs Round2_Proofs Error_Proofs Error2_Proofs Error3_Proofs Error4_Proofs Error5_Proofs Error6_Proofs Error7_Proofs
  Spec_Error Spec_Byte Spec_Order Grey32_Proofs Blend2_Proofs Blend3_Proofs Spec_Calc Adjust32_Proofs.
Import ListNotations.
Local Open Scope R_scope.
Local Notation fin x := (is_finite x = true).
Local Notation cut1 x := (Rmax 0 (Rmin x 1)).

Lemma cut1_unit x : 0 <= cut1 x <= 1.
Proof. unfold Rmax, Rmin. repeat destruct Rle_dec; lra. Qed.
Section E.
Context (o : oracle).
Local Notation "x +. y" := (@fadd f32 (F32 o) x y) (at level 50, left associativity).
Local Notation "x -. y" := (@fsub f32 (F32 o) x y) (at level 50, left associativity).
Local Notation "x *. y" := (@fmul f32 (F32 o) x y) (at level 40, left associativity).
Local Notation "x /. y" := (@fdiv f32 (F32 o) x y) (at level 40, left associativity).
Local Notation "$ n" := (fz (H := F32 o) n) (at level 2).
Local Notation c1 := (@c01 f32 (F32 o)).
Local Notation tobyte x := (@c255 f32 (F32 o) (@fround f32 (F32 o) (x *. $255))).

Lemma deep_unit (c : color f32) r g b : @wf_color f32 (F32 o) RGB_DEEP c -> comps c = [r; g; b] -> unit32 r /\ unit32 g /\ unit32 b.
Proof. intros W E. destruct (chan o c r g b W E) as [[A B] [[C D] [G H]]]. repeat split; try assumption; lra. Qed.

(** ** Accuracy *)
Lemma deep_accurate a p (h : heap f32) i (c : color f32) r g b : in_hsl a = false -> in_interval (-8) 8 p -> at_addr h i c -> @wf_color f32 (F32 o) RGB_DEEP c -> comps c = [r; g; b] ->
  returns (@adjust f32 (F32 o) a (Some i) p) h (fun t => ty t = RGB_DEEP /\ Forall2 (fun v x => approx v (/ 131072) x) (adjusted a (B2R p) (B2R r) (B2R g) (B2R b)) (comps t) /\
    m_alpha t = m_alpha c /\ rgb_space t = rgb_space c).
Proof.
  intros Ha [Fp Bp] H W E. destruct (deep_unit c r g b W E) as [[Fr Br] [[Fg Bg] [Fb Bb]]].
  apply (returns_impl _ _ _ _ (deep_run o a p h i c r g b Ha H W E)). intros t [T [C [A S]]]. split; [exact T|]. split; [|split; assumption].
  rewrite C. pose proof (step_near o a p r g b (fval r) (fval g) (fval b) 0 Ha Fp Bp (near_self r Fr) (near_self g Fg) (near_self b Fb) Br Bg Bb ltac:(num)) as N.
  assert (K : forall l m, Forall2 (fun v x => near (c1 x) v (88 * u)) l m -> Forall2 (fun v x => approx v (/ 131072) x) l (map c1 m)).
  { clear. intros l m F. induction F; cbn [map]; constructor; auto. eapply near_weaken; [eassumption|num]. }
  apply K, N.
Qed.
Lemma byte_near x n : (0 <= n <= 255)%Z -> is_value x (IZR n) -> near (c1 (x /. $255)) (IZR n / 255) (11 / 10 * u) /\ 0 <= IZR n / 255 <= 1.
Proof.
  intros Hn V. destruct (byte_q o x n Hn V) as [F Q]. destruct (q255_near n Hn) as [N _]. split; [split; [exact F|change (Rabs (B2R (c1 (x /. $255)) - IZR n / 255) <= 11 / 10 * u); rewrite Q; exact N]|].
  assert (0 <= IZR n <= 255) by (split; apply IZR_le; lia). lra.
Qed.
Lemma true_comps (c : color f32) r g b : @wf_color f32 (F32 o) RGB_TRUE c -> has_bytes r g b c ->
  exists x y z, comps c = [x; y; z] /\ is_value x (IZR r) /\ is_value y (IZR g) /\ is_value z (IZR b).
Proof.
  intros W [_ [[x [Ex Vx]] [[y [Ey Vy]] [z [Ez Vz]]]]]. exists x, y, z. split; [|auto]. pose proof (wf_len _ _ W) as L.
  destruct (comps c) as [|x' [|y' [|z' [|]]]]; try discriminate L. cbn in Ex, Ey, Ez. congruence.
Qed.
Lemma alpha_back (t : color f32) x n : cls t = RGB_TRUE -> m_alpha t = c1 (@fround f32 (F32 o) (x /. $255 *. $255) /. $255) -> (0 <= n <= 255)%Z -> is_value x (IZR n) -> is_value (@alpha f32 (F32 o) t) (IZR n).
Proof. intros K M Hn V. unfold alpha. rewrite K. change (is_value (m_alpha t *. $255) (IZR n)). rewrite M. apply byte_alpha; assumption. Qed.
Lemma true_accurate a p (h : heap f32) i (c : color f32) r g b n : in_hsl a = false -> in_interval (-8) 8 p -> at_addr h i c -> @wf_color f32 (F32 o) RGB_TRUE c ->
  is_byte r -> is_byte g -> is_byte b -> is_byte n -> has_bytes r g b c -> is_value (@alpha f32 (F32 o) c) (IZR n) ->
  returns (@adjust f32 (F32 o) a (Some i) p) h (fun t => ty t = RGB_TRUE /\ Forall2 (fun v x => close_byte (1 / 500) (255 * v) x) (adjusted a (B2R p) (IZR r / 255) (IZR g / 255) (IZR b / 255)) (comps t) /\
    is_value (@alpha f32 (F32 o) t) (IZR n) /\ rgb_space t = rgb_space c).
Proof.
  intros Ha [Fp Bp] H W Hr Hg Hb Hn B Va. destruct (true_comps c r g b W B) as [x [y [z [E [Vx [Vy Vz]]]]]].
  apply (returns_impl _ _ _ _ (true_run o a p h i c x y z Ha H W E)). intros t [T [Kt [C [A S]]]]. split; [exact T|]. split; [|split; [|exact S]].
  - rewrite C. destruct (byte_near x r Hr Vx) as [Nx Bx]. destruct (byte_near y g Hg Vy) as [Ny By]. destruct (byte_near z b Hb Vz) as [Nz Bz].
    pose proof (step_near o a p _ _ _ (IZR r / 255) (IZR g / 255) (IZR b / 255) (11 / 10 * u) Ha Fp Bp Nx Ny Nz Bx By Bz ltac:(num)) as N.
    assert (U : Forall (fun v => 0 <= v <= 1) (adjusted a (fval p) (IZR r / 255) (IZR g / 255) (IZR b / 255))).
    { destruct a; try discriminate Ha; cbn [adjusted map]; repeat (apply Forall_cons; [apply cut1_unit|]); apply Forall_nil. }
    assert (K : forall l m, Forall2 (fun v x => near (c1 x) v (88 * u)) l m -> Forall (fun v => 0 <= v <= 1) l -> Forall2 (fun v x => close_byte (1 / 500) (255 * v) x) l (map (fun x => tobyte (c1 x)) m)).
    { clear. intros l m F. induction F as [|v w l m Nv F IH]; intros D; cbn [map]; constructor; [|apply IH; inversion D; assumption].
      assert (Bv : 0 <= v <= 1) by (inversion D; assumption).
      destruct (to_byte o (c1 w) (255 * v) (88 * u)) as [k [Bk [Vk Hk]]]; [replace (255 * v / 255) with v by field; exact Nv|lra|num|].
      exists k. split; [exact Bk|]. split; [exact Vk|]. eapply Rle_trans; [exact Hk|]. num. }
    apply K; assumption.
  - apply (alpha_back t _ n Kt A Hn Va).
Qed.

(** ** Neutral settings *)
Lemma mul_1 (x y : f32) : unit32 x -> fin y -> fval y = 1 -> fin (x *. y) /\ fval (x *. y) = fval x.
Proof.
  intros [Fx Bx] Fy Vy. destruct (Bmult_ok x y 0 1 Fx Fy) as [F V]; try sm; [rewrite Vy; lra|]. split; [exact F|].
  change (fval (Bmult mode_NE x y) = fval x). rewrite V, Vy, Rmult_1_r. apply rnd32_id.
Qed.
Lemma luma_fin r g b : unit32 r -> unit32 g -> unit32 b -> fin (luma1 o r g b) /\ -1 <= fval (luma1 o r g b) <= 2.
Proof.
  intros [Fr Br] [Fg Bg] [Fb Bb]. destruct (luma_near o r g b _ _ _ 0 (near_self r Fr) (near_self g Fg) (near_self b Fb) Br Bg Bb ltac:(num)) as [N B].
  pose proof (near_range _ _ _ N) as Q. split; [apply N|]. num.
Qed.
Lemma step_zero a p r g b : in_hsl a = false -> is_value p 0 -> unit32 r -> unit32 g -> unit32 b ->
  Forall2 (fun x y => is_value (c1 y) (B2R x)) [r; g; b] (step o a p r g b).
Proof.
  intros Ha [Fp Vp] Ur Ug Ub. change (fval p = 0) in Vp. destruct (luma_fin r g b Ur Ug Ub) as [FL BL]. set (l := luma1 o r g b) in * .
  destruct (fz_val o 1) as [F1 V1]; [sm|].
  assert (K : forall x y, fin y /\ fval y = fval x -> unit32 x -> is_value (c1 y) (B2R x)).
  { intros x y [Fy Vy] [Fx Bx]. destruct (c01_val o y Fy) as [F V]; [rewrite Vy; exact Bx|]. split; [exact F|]. change (fval (c1 y) = fval x). congruence. }
  assert (S : forall x, unit32 x -> fin (sat1 o p l x) /\ fval (sat1 o p l x) = fval x).
  { intros x [Fx Bx]. unfold sat1. destruct (Bminus_ok l x (-2) 2 FL Fx) as [Fd _]; try sm; [lra|].
    destruct (mul_0 o p (l -. x) Fp Fd (or_introl Vp)) as [Fm Vm]. apply sub_0; assumption. }
  assert (L : forall x, unit32 x -> fin (lum1 o p x) /\ fval (lum1 o p x) = fval x).
  { intros x Ux. unfold lum1. destruct (Bplus_ok $1 p 0 1 F1 Fp) as [Fs Vs]; try sm; [rewrite V1, Vp; lra|].
    apply mul_1; [exact Ux|exact Fs|]. change (fval ($1 +. p) = rnd32 (fval $1 + fval p)) in Vs. rewrite Vs, V1, Vp, Rplus_0_r. apply (rnd32_int 1). sm. }
  destruct a; try discriminate Ha; cbn [step map]; fold l; repeat (apply Forall2_cons; [auto|]); apply Forall2_nil.
Qed.
Lemma deep_zero a p (h : heap f32) i (c : color f32) : in_hsl a = false -> is_value p 0 -> at_addr h i c -> @wf_color f32 (F32 o) RGB_DEEP c ->
  returns (@adjust f32 (F32 o) a (Some i) p) h (fun t => ty t = RGB_DEEP /\ same_values (comps t) (comps c) /\ m_alpha t = m_alpha c /\ rgb_space t = rgb_space c).
Proof.
  intros Ha Vp H W. destruct (comps3 c (wf_len _ _ W)) as [r [g [b E]]]. destruct (deep_unit c r g b W E) as [Ur [Ug Ub]].
  apply (returns_impl _ _ _ _ (deep_run o a p h i c r g b Ha H W E)). intros t [T [C [A S]]]. split; [exact T|]. split; [|split; assumption].
  rewrite C, E. pose proof (step_zero a p r g b Ha Vp Ur Ug Ub) as N. unfold same_values.
  assert (K : forall l m, Forall unit32 l -> Forall2 (fun x y => is_value (c1 y) (B2R x)) l m -> Forall2 (fun x y : f32 => is_finite y = true /\ is_value x (B2R y)) (map c1 m) l).
  { clear. intros l m U F. induction F; cbn [map]; constructor; [|apply IHF; inversion U; assumption]. split; [|assumption]. assert (Q : unit32 x) by (inversion U; assumption). apply Q. }
  apply K; [repeat (apply Forall_cons; [assumption|]); apply Forall_nil|exact N].
Qed.
Lemma byte_of_quot x n : (0 <= n <= 255)%Z -> is_value x (q255 n) -> is_value (tobyte x) (IZR n).
Proof.
  intros Hn V. assert (R : exists z : f32, is_value z (IZR n)) by (exists $n; apply (fz_val o n); unfold small; lia). destruct R as [z Vz].
  destruct (q255_near n Hn) as [N B]. destruct (to_byte o x (IZR n) (11 / 10 * u)) as [k [Bk [Vk Hk]]].
  - split; [apply V|]. change (Rabs (B2R x - IZR n / 255) <= 11 / 10 * u). rewrite (proj2 V). exact N.
  - split; apply IZR_le; lia.
  - num.
  - replace n with k; [exact Vk|]. apply int_eq. eapply Rle_lt_trans; [exact Hk|]. num.
Qed.
Lemma true_zero a p (h : heap f32) i (c : color f32) r g b n : in_hsl a = false -> is_value p 0 -> at_addr h i c -> @wf_color f32 (F32 o) RGB_TRUE c ->
  is_byte r -> is_byte g -> is_byte b -> is_byte n -> has_bytes r g b c -> is_value (@alpha f32 (F32 o) c) (IZR n) ->
  returns (@adjust f32 (F32 o) a (Some i) p) h (fun t => has_bytes r g b t /\ is_value (@alpha f32 (F32 o) t) (IZR n) /\ rgb_space t = rgb_space c).
Proof.
  intros Ha Vp H W Hr Hg Hb Hn B Va. destruct (true_comps c r g b W B) as [x [y [z [E [Vx [Vy Vz]]]]]].
  apply (returns_impl _ _ _ _ (true_run o a p h i c x y z Ha H W E)). intros t [T [Kt [C [A S]]]]. split; [|split; [apply (alpha_back t _ n Kt A Hn Va)|exact S]].
  pose proof (byte_q o x r Hr Vx) as Qx. pose proof (byte_q o y g Hg Vy) as Qy. pose proof (byte_q o z b Hb Vz) as Qz.
  pose proof (step_zero a p _ _ _ Ha Vp (c01_unit o (x /. $255)) (c01_unit o (y /. $255)) (c01_unit o (z /. $255))) as N.
  set (x' := c1 (x /. $255)) in * . set (y' := c1 (y /. $255)) in * . set (z' := c1 (z /. $255)) in * .
  destruct (step o a p x' y' z') as [|s1 [|s2 [|s3 s4]]]; try (inversion N; fail).
  { inversion N; subst. inversion H5. } { inversion N; subst. inversion H5; subst. inversion H7. }
  inversion N as [|? ? ? ? M1 N1]; subst. inversion N1 as [|? ? ? ? M2 N2]; subst. inversion N2 as [|? ? ? ? M3 N3]; subst. inversion N3; subst. clear N N1 N2 N3.
  cbn [map] in C. split; [exact T|]. unfold comp_sat. rewrite C. cbn [nth_error].
  split; [|split]; (eexists; split; [reflexivity|]); apply byte_of_quot; auto.
  - rewrite (proj2 Qx) in M1. exact M1.
  - rewrite (proj2 Qy) in M2. exact M2.
  - rewrite (proj2 Qz) in M3. exact M3.
Qed.

(** ** Luminance -1 is black *)
Lemma lum_black p x : is_value p (-1) -> unit32 x -> is_value (c1 (lum1 o p x)) 0.
Proof.
  intros [Fp Vp] [Fx Bx]. change (fval p = -1) in Vp. destruct (fz_val o 1) as [F1 V1]; [sm|]. unfold lum1.
  destruct (Bplus_ok $1 p 0 1 F1 Fp) as [Fs Vs]; try sm; [rewrite V1, Vp; lra|].
  change (fval ($1 +. p) = rnd32 (fval $1 + fval p)) in Vs. rewrite V1, Vp in Vs. replace (1 + -1) with 0 in Vs by ring. rewrite rnd32_0 in Vs.
  destruct (mul_0 o x ($1 +. p) Fx Fs (or_intror Vs)) as [Fm Vm]. destruct (c01_val o _ Fm) as [F V]; [rewrite Vm; lra|]. split; [exact F|].
  change (fval (c1 (x *. ($1 +. p))) = 0). congruence.
Qed.
Lemma deep_black p (h : heap f32) i (c : color f32) : is_value p (-1) -> at_addr h i c -> @wf_color f32 (F32 o) RGB_DEEP c ->
  returns (@adjust f32 (F32 o) LuminateRGB (Some i) p) h (fun t => ty t = RGB_DEEP /\ (forall j, (j < 3)%nat -> comp_sat t j (fun x => is_value x 0)) /\ m_alpha t = m_alpha c /\ rgb_space t = rgb_space c).
Proof.
  intros Vp H W. destruct (comps3 c (wf_len _ _ W)) as [r [g [b E]]]. destruct (deep_unit c r g b W E) as [Ur [Ug Ub]].
  apply (returns_impl _ _ _ _ (deep_run o LuminateRGB p h i c r g b eq_refl H W E)). intros t [T [C [A S]]]. split; [exact T|]. split; [|split; assumption].
  cbn [step map] in C. intros j Hj. unfold comp_sat. rewrite C. destruct j as [|[|[|j]]]; [| | |lia]; (eexists; split; [reflexivity|apply lum_black; assumption]).
Qed.
Lemma true_black p (h : heap f32) i (c : color f32) : is_value p (-1) -> at_addr h i c -> @wf_color f32 (F32 o) RGB_TRUE c ->
  returns (@adjust f32 (F32 o) LuminateRGB (Some i) p) h (fun t => has_bytes 0 0 0 t /\ rgb_space t = rgb_space c).
Proof.
  intros Vp H W. destruct (comps3 c (wf_len _ _ W)) as [r [g [b E]]].
  apply (returns_impl _ _ _ _ (true_run o LuminateRGB p h i c r g b eq_refl H W E)). intros t [T [Kt [C [A S]]]]. split; [|exact S].
  cbn [step map] in C. split; [exact T|]. unfold comp_sat. rewrite C. cbn [nth_error].
  assert (K : forall x, is_value (tobyte (c1 (lum1 o p (c1 x)))) (IZR 0)).
  { intros x. apply byte_of_quot; [lia|]. unfold q255. replace (0 / 255) with 0 by field. rewrite rnd32_0. apply lum_black; [exact Vp|apply c01_unit]. }
  split; [|split]; (eexists; split; [reflexivity|apply K]).
Qed.

(** ** More light, brighter colours *)
Lemma lum_val p x : fin p -> -1 <= fval p <= 8 -> unit32 x -> fin (lum1 o p x) /\ fval (lum1 o p x) = rnd32 (fval x * rnd32 (1 + fval p)) /\ 0 <= rnd32 (1 + fval p).
Proof.
  intros Fp Bp [Fx Bx]. destruct (fz_val o 1) as [F1 V1]; [sm|]. destruct (Bplus_ok $1 p 0 9 F1 Fp) as [Fs Vs]; try sm; [rewrite V1; lra|].
  change (fin ($1 +. p)) in Fs. change (fval ($1 +. p) = rnd32 (fval $1 + fval p)) in Vs. rewrite V1 in Vs.
  assert (B : 0 <= rnd32 (1 + fval p) <= 9) by (apply (rnd32_bounds _ 0 9); try sm; lra).
  assert (Q : 0 <= fval x * rnd32 (1 + fval p) <= 9). { split; [apply Rmult_le_pos; lra|]. rewrite <- (Rmult_1_l 9). apply Rmult_le_compat; lra. }
  unfold lum1. destruct (Bmult_ok x ($1 +. p) 0 9 Fx Fs) as [Fm Vm]; try sm; [rewrite Vs; exact Q|]. split; [exact Fm|]. split; [|lra].
  change (fval (Bmult mode_NE x ($1 +. p)) = rnd32 (fval x * rnd32 (1 + fval p))). rewrite Vm, Vs. reflexivity.
Qed.
Lemma lum_le p p' x x' : fin p -> fin p' -> -1 <= fval p <= fval p' -> fval p' <= 8 -> unit32 x -> unit32 x' -> fval x <= fval x' ->
  fin (c1 (lum1 o p x)) /\ fin (c1 (lum1 o p' x')) /\ fval (c1 (lum1 o p x)) <= fval (c1 (lum1 o p' x')).
Proof.
  intros Fp Fp' Bp Bp' Ux Ux' Lx. destruct (lum_val p x Fp ltac:(lra) Ux) as [F [V P]]. destruct (lum_val p' x' Fp' ltac:(lra) Ux') as [F' [V' P']].
  destruct (c01_cut o _ F) as [G Vc]. destruct (c01_cut o _ F') as [G' Vc']. split; [exact G|]. split; [exact G'|].
  change (fval (c1 (lum1 o p x)) = cut1 (fval (lum1 o p x))) in Vc. change (fval (c1 (lum1 o p' x')) = cut1 (fval (lum1 o p' x'))) in Vc'. rewrite Vc, Vc', V, V'.
  apply cut1_le, rnd32_le. apply Rmult_le_compat; [apply Ux|exact P|exact Lx|]. apply rnd32_le. lra.
Qed.
Lemma lum_rises p p' (h h' : heap f32) i (c : color f32) i' c' : in_interval (-1) 8 p -> in_interval (-1) 8 p' -> B2R p <= B2R p' -> at_addr h i c -> at_addr h' i' c' ->
  @wf_color f32 (F32 o) RGB_DEEP c -> @wf_color f32 (F32 o) RGB_DEEP c' -> darker32 c c' ->
  returns (@adjust f32 (F32 o) LuminateRGB (Some i) p) h (fun t => returns (@adjust f32 (F32 o) LuminateRGB (Some i') p') h' (fun t' => darker32 t t')).
Proof.
  intros [Fp Bp] [Fp' Bp'] Lp H H' W W' [Da [Dl D]].
  destruct (comps3 c (wf_len _ _ W)) as [r [g [b E]]]. destruct (deep_unit c r g b W E) as [Ur [Ug Ub]].
  destruct (comps3 c' (wf_len _ _ W')) as [r' [g' [b' E']]]. destruct (deep_unit c' r' g' b' W' E') as [Ur' [Ug' Ub']].
  rewrite E, E' in D. destruct (D 0%nat r r' eq_refl eq_refl) as [_ [_ L0]]. destruct (D 1%nat g g' eq_refl eq_refl) as [_ [_ L1]]. destruct (D 2%nat b b' eq_refl eq_refl) as [_ [_ L2]].
  apply (returns_impl _ _ _ _ (deep_run o LuminateRGB p h i c r g b eq_refl H W E)). intros t [_ [C [A _]]].
  apply (returns_impl _ _ _ _ (deep_run o LuminateRGB p' h' i' c' r' g' b' eq_refl H' W' E')). intros t' [_ [C' [A' _]]].
  split; [congruence|]. rewrite C, C'. split; [reflexivity|]. cbn [step map].
  intros j v v' J J'. destruct j as [|[|[|j]]]; cbn [nth_error] in J, J'; try (destruct j; discriminate J);
    injection J as <-; injection J' as <-; refine (lum_le p p' _ _ Fp Fp' (conj (proj1 Bp) Lp) (proj2 Bp') _ _ _); assumption.
Qed.
End E.
