(** * Whole numbers in 8-bit colours (C161, C162) *)
From Coq Require Import ZArith QArith Reals Lra Lia List Bool.
From Flocq Require Import Core IEEE754.BinarySingleNaN.
From Verif Require Import Arith Outcome ColorModel GammaModel MatrixModel SpaceModel Heap Converter Calculation Blend F32 F32Facts RArith
  Spec Spec32 Laws NormalForms Alpha8 Core_Proofs Core2_Proofs Core3_Proofs Core4_Proofs Hue32 Spec_Matrix Spec_Conv Spec_Calc Spec_Blend Spec_Round
  Conv_Proofs Conv2_Proofs Conv3_Proofs Run_Proofs Round_Proofs Round2_Proofs Error_Proofs Error2_Proofs Error4_Proofs Error5_Proofs Error7_Proofs Error8_Proofs Spec_Error
  Linear2_Proofs Curve_Proofs Blend_Proofs Blend2_Proofs Spec_Byte.
Import ListNotations.
Local Open Scope R_scope.
Local Notation fin x := (is_finite x = true).

Section W.
Variable o : oracle.
Local Notation "x +. y" := (@fadd f32 (F32 o) x y) (at level 50, left associativity).
Local Notation "x *. y" := (@fmul f32 (F32 o) x y) (at level 40, left associativity).
Local Notation "x /. y" := (@fdiv f32 (F32 o) x y) (at level 40, left associativity).
Local Notation "$ n" := (fz (H := F32 o) n) (at level 2).

(** ** Conversions to 8-bit RGB *)

Definition to_whole (X : ctype) (f : ptr -> M f32 ptr) : Prop :=
  forall (h : heap f32) p c, at_addr h p c -> @wf_color f32 (F32 o) X c -> (cie X = true -> has_space h c) -> returns (f (Some p)) h whole.

Lemma unit_byte (x : f32) : unitf x -> exists n, is_byte n /\ is_value (@c255 f32 (F32 o) (@fround f32 (F32 o) (x *. $255))) (IZR n).
Proof.
  intros [Fx Bx]. destruct (to_byte o x (255 * fval x) 0) as [n [Hn [V _]]]; [|lra|lra|exists n; auto].
  replace (255 * fval x / 255) with (fval x) by field. apply near_self, Fx.
Qed.
Lemma whole_run (d v : color f32) x y z : unitf x -> unitf y -> unitf z -> ty v = RGB_TRUE ->
  comps v = [@c255 f32 (F32 o) (@fround f32 (F32 o) (x *. $255)); @c255 f32 (F32 o) (@fround f32 (F32 o) (y *. $255)); @c255 f32 (F32 o) (@fround f32 (F32 o) (z *. $255))] -> whole v.
Proof.
  intros Ux Uy Uz T C. destruct (unit_byte x Ux) as [r [Hr Vr]]. destruct (unit_byte y Uy) as [g [Hg Vg]]. destruct (unit_byte z Uz) as [b [Hb Vb]].
  exists r, g, b. repeat (split; [assumption|]). unfold comp_sat. rewrite C. cbn [nth_error]. repeat split; eexists; (split; [reflexivity|]); assumption.
Qed.
Lemma deep_whole : to_whole RGB_DEEP (@rgb_deep_to_rgb_true f32 (F32 o)).
Proof.
  intros h p c Hp W _. destruct (comps3 c (wf_len _ _ W)) as [x [y [z Ec]]].
  assert (U : forall i v, nth_error (comps c) i = Some v -> unitf v) by (intros i v E; exact (unit_comp o c i v W E)). rewrite Ec in U.
  assert (E4 : exists v, @rgb_deep_to_rgb_true_f f32 (F32 o) c = Ok v /\ ty v = RGB_TRUE /\
     comps v = [@c255 f32 (F32 o) (@fround f32 (F32 o) (x *. $255)); @c255 f32 (F32 o) (@fround f32 (F32 o) (y *. $255)); @c255 f32 (F32 o) (@fround f32 (F32 o) (z *. $255))]).
  { unfold rgb_deep_to_rgb_true_f, with3. rewrite Ec, rgb_truecolor_nf. eexists. repeat split; reflexivity. }
  destruct E4 as [v [E4 [T C]]]. do 3 eexists. split; [exact (leaf_run RGB_DEEP _ h p c v Hp W E4)|]. split; [apply at_new|].
  apply (whole_run c v x y z); auto; [apply (U 0%nat)|apply (U 1%nat)|apply (U 2%nat)]; reflexivity.
Qed.
Lemma grey_deep_whole : to_whole GREY_DEEP (@grey_deep_to_rgb_true f32 (F32 o)).
Proof.
  intros h p c Hp W _. pose proof (wf_len _ _ W) as L. destruct (comps c) as [|x [|? ?]] eqn:Ec; try discriminate L.
  assert (U : unitf x). { assert (K : nth_error (comps c) 0 = Some x) by (rewrite Ec; reflexivity).
    assert (H : @Spec.within f32 (F32 o) 0 1 x) by exact (wf_range _ _ W 0%nat x K). apply within32 in H; [exact H|sm|sm]. }
  assert (E4 : exists v, @grey_deep_to_rgb_true_f f32 (F32 o) c = Ok v /\ ty v = RGB_TRUE /\
     comps v = [@c255 f32 (F32 o) (@fround f32 (F32 o) (x *. $255)); @c255 f32 (F32 o) (@fround f32 (F32 o) (x *. $255)); @c255 f32 (F32 o) (@fround f32 (F32 o) (x *. $255))]).
  { unfold grey_deep_to_rgb_true_f, with1. rewrite Ec. eexists. repeat split; reflexivity. }
  destruct E4 as [v [E4 [T C]]]. do 3 eexists. split; [exact (leaf_run GREY_DEEP _ h p c v Hp W E4)|]. split; [apply at_new|].
  apply (whole_run c v x x x); auto.
Qed.
Lemma whole_compose X Y f g : @cv f32 (F32 o) X Y f -> implb (needs_space X Y) (cie X) = true -> implb (cie Y) (cie X) = true -> to_whole Y g ->
  to_whole X (fun p => bind (f p) g).
Proof.
  intros C I1 I2 G h p c Hp W N. destruct (C h p c Hp W) as [q [r [h' [c' [E [Fr [At [Wr [Sr [OU _]]]]]]]]]].
  { intros K. rewrite K in I1. apply N, I1. }
  destruct (G h' q r At Wr) as [q2 [v [h2 [E2 [A2 Wh]]]]].
  { intros K. rewrite K in I2. specialize (N I2). unfold has_space in * . rewrite Sr. destruct OU as [SPC _]. rewrite SPC. exact N. }
  exists q2, v, h2. split; [unfold bind; rewrite E; exact E2|]. split; assumption.
Qed.
Lemma whole_dispatch X f : dispatches (@to_rgb_true f32 (F32 o)) X f -> to_whole X f -> to_whole X (@to_rgb_true f32 (F32 o)).
Proof.
  intros D T h p c Hp W N. destruct (T h p c Hp W N) as [q [v [h' [E K]]]]. exists q, v, h'. split; [|exact K].
  rewrite (D h p c Hp (wf_ty _ _ W)). exact E.
Qed.
Lemma xyz_whole : to_whole XYZ (@xyz_to_rgb_true f32 (F32 o)).
Proof. exact (whole_compose _ _ _ _ xyz_to_rgb_deep_cv eq_refl eq_refl deep_whole). Qed.
Lemma lab_whole : to_whole LAB (@lab_to_rgb_true f32 (F32 o)).
Proof. exact (whole_compose _ _ _ _ lab_to_xyz_cv eq_refl eq_refl xyz_whole). Qed.
Lemma cieluv_whole : to_whole CIELUV (@cieluv_to_rgb_true f32 (F32 o)).
Proof. exact (whole_compose _ _ _ _ cieluv_to_xyz_cv eq_refl eq_refl xyz_whole). Qed.

Lemma all_whole X : X <> UNDEFINED -> X <> RGB_TRUE -> X <> GREY_TRUE -> to_whole X (@to_rgb_true f32 (F32 o)).
Proof.
  intros N1 N2 N3. destruct X; try contradiction.
  - apply (whole_dispatch _ (@rgb_deep_to_rgb_true f32 (F32 o))); [disp|exact deep_whole].
  - apply (whole_dispatch _ (@grey_deep_to_rgb_true f32 (F32 o))); [disp|exact grey_deep_whole].
  - apply (whole_dispatch _ (@cmyk_to_rgb_true f32 (F32 o))); [disp|exact (whole_compose _ _ _ _ cmyk_to_rgb_deep_cv eq_refl eq_refl deep_whole)].
  - apply (whole_dispatch _ (@hsi_to_rgb_true f32 (F32 o))); [disp|exact (whole_compose _ _ _ _ hsi_to_rgb_deep_cv eq_refl eq_refl deep_whole)].
  - apply (whole_dispatch _ (@hsv_to_rgb_true f32 (F32 o))); [disp|exact (whole_compose _ _ _ _ hsv_to_rgb_deep_cv eq_refl eq_refl deep_whole)].
  - apply (whole_dispatch _ (@hsl_to_rgb_true f32 (F32 o))); [disp|exact (whole_compose _ _ _ _ hsl_to_rgb_deep_cv eq_refl eq_refl deep_whole)].
  - apply (whole_dispatch _ (@hcy_to_rgb_true f32 (F32 o))); [disp|exact (whole_compose _ _ _ _ hcy_to_rgb_deep_cv eq_refl eq_refl deep_whole)].
  - apply (whole_dispatch _ (@xyz_to_rgb_true f32 (F32 o))); [disp|exact xyz_whole].
  - apply (whole_dispatch _ (@xyy_to_rgb_true f32 (F32 o))); [disp|exact (whole_compose _ _ _ _ xyy_to_xyz_cv eq_refl eq_refl xyz_whole)].
  - apply (whole_dispatch _ (@cieluv_to_rgb_true f32 (F32 o))); [disp|exact cieluv_whole].
  - apply (whole_dispatch _ (@lab_to_rgb_true f32 (F32 o))); [disp|exact lab_whole].
  - apply (whole_dispatch _ (@lch_ab_to_rgb_true f32 (F32 o))); [disp|exact (whole_compose _ _ _ _ lch_ab_to_lab_cv eq_refl eq_refl lab_whole)].
  - apply (whole_dispatch _ (@lch_uv_to_rgb_true f32 (F32 o))); [disp|exact (whole_compose _ _ _ _ lch_uv_to_cieluv_cv eq_refl eq_refl cieluv_whole)].
Qed.

(** ** The grey of an 8-bit colour *)
Lemma exact_add a b x y n : is_value x (IZR a) -> is_value y (IZR b) -> (a + b = n)%Z -> small n -> is_value (x +. y) (IZR n).
Proof.
  intros [Fx Vx] [Fy Vy] <- Sn. change (B2R x) with (fval x) in Vx. change (B2R y) with (fval y) in Vy.
  destruct (Bplus_ok x y (a + b) (a + b) Fx Fy) as [Fs Vs]; try assumption; [rewrite Vx, Vy, plus_IZR; lra|].
  split; [exact Fs|]. change (fval (Bplus mode_NE x y) = IZR (a + b)). rewrite Vs, Vx, Vy, <- plus_IZR.
  destruct (fz_val o (a + b) Sn) as [_ V]. rewrite <- V. apply rnd32_id.
Qed.
Lemma grey_broken (h : heap f32) p c r g b : at_addr h p c -> @wf_color f32 (F32 o) RGB_TRUE c -> is_byte r -> is_byte g -> is_byte b -> has_bytes r g b c ->
  ((r + g + b) mod 3 <> 0)%Z -> returns (@to_grey_true f32 (F32 o) (Some p)) h (fun d => ty d = GREY_TRUE /\ comp_sat d 0 broken).
Proof.
  intros Hp W Hr Hg Hb [_ [Cr [Cg Cb]]] M. destruct (comps3 c (wf_len _ _ W)) as [x [y [z Ec]]].
  destruct Cr as [x' [Ex Vx]]. destruct Cg as [y' [Ey Vy]]. destruct Cb as [z' [Ez Vz]].
  rewrite Ec in Ex, Ey, Ez. cbn [nth_error] in Ex, Ey, Ez. injection Ex as <-. injection Ey as <-. injection Ez as <-.
  assert (E4 : exists v, @rgb_true_to_grey_true_f f32 (F32 o) c = Ok v /\ ty v = GREY_TRUE /\ comps v = [@c255 f32 (F32 o) ((x +. y +. z) /. $3)]).
  { unfold rgb_true_to_grey_true_f, with3. rewrite Ec. eexists. repeat split; reflexivity. }
  destruct E4 as [v [E4 [T C]]].
  assert (D1 : dispatches (@to_grey_true f32 (F32 o)) RGB_TRUE (leaf RGB_TRUE (@rgb_true_to_grey_true_f f32 (F32 o)))) by disp.
  do 3 eexists. split; [rewrite (D1 h p c Hp (wf_ty _ _ W)); exact (leaf_run RGB_TRUE _ h p c v Hp W E4)|]. split; [apply at_new|].
  split; [exact T|]. unfold comp_sat. rewrite C. cbn [nth_error]. eexists. split; [reflexivity|].
  unfold is_byte in * .
  pose proof (exact_add r g x y (r + g) Vx Vy eq_refl ltac:(unfold small; lia)) as V1.
  pose proof (exact_add (r + g) b (x +. y) z (r + g + b) V1 Vz eq_refl ltac:(unfold small; lia)) as [F2 V2]. change (fval (x +. y +. z) = IZR (r + g + b)) in V2.
  set (s := x +. y +. z) in * . clearbody s. set (k := (r + g + b)%Z) in * . assert (Hk : (0 <= k <= 765)%Z) by (unfold k; lia). clearbody k.
  assert (B : 0 <= IZR k <= 765) by (split; [apply (IZR_le 0)|apply (IZR_le k 765)]; lia).
  destruct (fz_val o 3) as [F3 V3]; [sm|]. destruct (Bdiv_ok s $3 0 255 F2 F3) as [Fq Vq]; try sm; [rewrite V3; lra|rewrite V2, V3; lra|].
  assert (Rq : 0 <= fval (s /. $3) <= 255). { change (fval (s /. $3)) with (fval (Bdiv mode_NE s $3)). rewrite Vq. apply (rnd32_bounds _ 0 255); try sm. rewrite V2, V3. lra. }
  destruct (clamp_val o (s /. $3) 0 255) as [Fc Vc]; try sm; [lia|exact Fq|].
  rewrite Rmin_left, Rmax_left in Vc by lra. split; [exact Fc|]. intros n E. change (fval (@c255 f32 (F32 o) (s /. $3)) = IZR n) in E. 
  assert (E' : fval (Bdiv mode_NE s $3) = IZR n) by (rewrite <- E; symmetry; exact Vc). rewrite Vq, V2, V3 in E'.
  pose proof (rnd_err (IZR k / 3)) as RE. rewrite E' in RE. rewrite (Rabs_pos_eq (IZR k / 3)) in RE by lra.
  assert (RE2 : Rabs (IZR (3 * n - k)) < 1).
  { rewrite minus_IZR, mult_IZR. replace (3 * IZR n - IZR k) with (3 * (IZR n - IZR k / 3)) by field. rewrite Rabs_mult, (Rabs_pos_eq 3) by lra. num. }
  rewrite <- abs_IZR in RE2. apply lt_IZR in RE2. assert (k = 3 * n)%Z as -> by lia. apply M. rewrite Z.mul_comm. apply Z_mod_mult.
Qed.
End W.
