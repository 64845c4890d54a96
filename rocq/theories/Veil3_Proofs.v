(** * Blending translucent 8-bit colours in binary32: the runs (C164, C165) *)
From Coq Require Import ZArith QArith Reals Lra Lia List Bool.
From Flocq Require Import Core IEEE754.BinarySingleNaN.
From Verif Require Import Arith Outcome ColorModel GammaModel MatrixModel SpaceModel Heap Converter Calculation Blend F32 F32Facts RArith
  Spec Spec32 Laws NormalForms Alpha8 Core_Proofs Core2_Proofs Core3_Proofs Core4_Proofs Hue32 Spec_Matrix Spec_Conv Spec_Calc Spec_Blend Spec_Round
  Conv_Proofs Conv2_Proofs Conv3_Proofs Run_Proofs Round_Proofs Round2_Proofs Error_Proofs Error2_Proofs Error4_Proofs Error5_Proofs Error7_Proofs Error8_Proofs Spec_Error
  Linear2_Proofs Curve_Proofs Blend_Proofs Blend2_Proofs Spec_Byte Byte_Proofs Byte2_Proofs Byte3_Proofs Veil_Proofs Veil2_Proofs.
Import ListNotations.
Local Open Scope R_scope.
Local Notation fin x := (is_finite x = true).

Section V3.
Variable o : oracle.
Local Notation "x +. y" := (@fadd f32 (F32 o) x y) (at level 50, left associativity).
Local Notation "x -. y" := (@fsub f32 (F32 o) x y) (at level 50, left associativity).
Local Notation "x *. y" := (@fmul f32 (F32 o) x y) (at level 40, left associativity).
Local Notation "x /. y" := (@fdiv f32 (F32 o) x y) (at level 40, left associativity).
Local Notation "$ n" := (fz (H := F32 o) n) (at level 2).
Local Notation c01 := (@c01 f32 (F32 o)).
Local Notation byte x := (@c255 f32 (F32 o) (@fround f32 (F32 o) (x *. $255))).

(** One channel after [alpha_divide]. *)
Definition divided (v al : f32) : f32 := if @feq f32 (F32 o) al $0 then v else v /. al.
Definition total (et : R) : R := 255 * (1001 / 1000 * (275 * u + 1002 / 1000 * et) + 280 * u) + 400 * u.

Lemma byte_zero (x : f32) : fin x -> fval x = 0 -> is_value (byte x) 0.
Proof.
  intros F E. destruct (fz_val o 255) as [F2 V2]; [sm|].
  destruct (Bmult_ok x $255 0 0 F F2) as [Fm Vm]; try sm; [rewrite E; lra|]. rewrite E, Rmult_0_l, rnd32_0 in Vm.
  change (x *. $255) with (Bmult mode_NE x $255). pose proof (fround_int o (Bmult mode_NE x $255) 0 (conj Fm Vm)) as [Fr Vr].
  destruct (clamp_val o (@fround f32 (F32 o) (Bmult mode_NE x $255)) 0 255) as [Fc Vc]; try sm; [lia|exact Fr|]. split; [exact Fc|].
  etransitivity; [exact Vc|]. change (fval (@fround f32 (F32 o) (Bmult mode_NE x $255))) with (B2R (@fround f32 (F32 o) (Bmult mode_NE x $255))). rewrite Vr, Rmin_left, Rmax_left by lra. reflexivity.
Qed.

Lemma channel us ud ub i j x y f t et s d sx dx E : is_byte i -> is_byte j -> fin x -> fin y -> fval x = q255 i -> fval y = q255 j ->
  near f t et -> 0 <= et <= 1402 * u -> -1 <= t <= 255 -> (ub = false -> fval f = 0) ->
  is_byte s -> is_byte d -> fin sx -> fin dx -> fval sx = q255 s -> fval dx = q255 d -> total et <= E ->
  veiled_byte E us ud ub i j s d t (byte (divided (c01 (@blend_sum f32 (F32 o) us ud x y sx dx f)) (@blend_alpha f32 (F32 o) us ud ub x y))).
Proof.
  intros Hi Hj Fx Fy Ex Ey Nf He Ht Off Hs Hd Fs Fd Es Ed Tot.
  destruct (sum_err o us ud ub i j x y Hi Hj Fx Fy Ex Ey f t et Nf He Ht Off s d sx dx Hs Hd Fs Fd Es Ed) as [Fz Ez].
  destruct (rel_alpha o us ud ub i j x y Hi Hj Fx Fy Ex Ey) as [Fa Ea]. pose proof (cover_step us ud ub i j Hi Hj) as CS. pose proof (cover_le us ud ub i j Hi Hj) as CL.
  unfold veiled_byte. set (N := mixture us ud ub (IZR i / 255) (IZR j / 255) (IZR s / 255) (IZR d / 255) t) in * .
  assert (MZ : coverage us ud ub (IZR i / 255) (IZR j / 255) = 0 -> N = 0).
  { intros C0. unfold N. rewrite coverage_w in C0. rewrite mixture_w. pose proof (weights i j Hi Hj) as W.
    pose proof (Veil_Proofs.on_le us (w_s i j) ltac:(lra)). pose proof (Veil_Proofs.on_le ud (w_d i j) ltac:(lra)). pose proof (Veil_Proofs.on_le ub (w_b i j) ltac:(lra)).
    replace (Veil_Proofs.on us (w_s i j)) with 0 by lra. replace (Veil_Proofs.on ud (w_d i j)) with 0 by lra. replace (Veil_Proofs.on ub (w_b i j)) with 0 by lra. ring. }
  set (al := coverage us ud ub (IZR i / 255) (IZR j / 255)) in * . set (z := @blend_sum f32 (F32 o) us ud x y sx dx f) in * . set (A := @blend_alpha f32 (F32 o) us ud ub x y) in * .
  clearbody al N z A. destruct (fz_val o 0) as [F0 V0]; [sm|].
  destruct (clamp_unit o z) as [Fc Vc]. rewrite unit_clamp_fin in Vc by exact Fz. change (Rmax 0 (Rmin 1 (fval z))) with (cut (fval z)) in Vc. change (B2R (c01 z)) with (fval (c01 z)) in Vc.
  unfold divided. split.
  - intros C0. rewrite C0 in Ea. rewrite Rmult_0_r in Ea. assert (A0 : fval A = 0) by (apply Rabs_le_inv in Ea; lra).
    rewrite (eq_val o A $0 Fa F0) by lra. rewrite C0, (MZ C0), Rmax_left, !Rmult_0_r in Ez by lra. assert (Z0 : fval z = 0) by (apply Rabs_le_inv in Ez; lra).
    apply byte_zero; [exact Fc|]. rewrite Vc, Z0. apply cut_lo. lra.
  - intros P. destruct CS as [C0|CS]; [lra|]. assert (Hal : 0 < al <= 1) by lra.
    assert (He2 : 0 <= 275 * u + 1002 / 1000 * et <= 3000 * u) by num.
    destruct (quot_err al (fval A) N (fval z) _ Hal Ea He2 Ez) as [PA Q].
    rewrite (ne_val o A $0 Fa F0) by lra.
    assert (Bq : 0 <= cut (fval z) / fval A <= 65100).
    { pose proof (clamp01 (fval z)) as B. change (0 <= cut (fval z) <= 1) in B. split; [apply Rmult_le_pos; [lra|left; apply Rinv_0_lt_compat, PA]|].
      apply (Rmult_le_reg_r (fval A)); [exact PA|]. unfold Rdiv. rewrite Rmult_assoc, Rinv_l, Rmult_1_r by lra. apply Rle_trans with 1; [lra|].
      apply Rabs_le_inv in Ea. num. }
    destruct (Bdiv_ok (c01 z) A 0 65100 Fc Fa) as [Fq Vq]; try sm; [lra|rewrite Vc; exact Bq|]. rewrite Vc in Vq.
    assert (Bv : 0 <= fval (Bdiv mode_NE (c01 z) A) <= 65100) by (rewrite Vq; apply (rnd32_bounds _ 0 65100); try sm; exact Bq).
    rewrite <- Vq in Q. destruct (to_close o (Bdiv mode_NE (c01 z) A) _ _ Fq ltac:(lra) Q) as [n [Bn [Vn Dn]]].
    exists n. split; [exact Bn|]. split; [exact Vn|]. change (Rmax 0 (Rmin 1 (N / al))) with (cut (N / al)). fold (total et) in Dn. lra.
Qed.

(** The byte of alpha. *)
Lemma alpha_byte us ud ub i j x y : is_byte i -> is_byte j -> unitf x -> unitf y -> fval x = q255 i -> fval y = q255 j ->
  nearest_byte (255 * coverage us ud ub (IZR i / 255) (IZR j / 255)) (c01 (@fround f32 (F32 o) (@blend_alpha f32 (F32 o) us ud ub x y *. $255) /. $255) *. $255).
Proof.
  intros Hi Hj [Fx Bx] [Fy By] Ex Ey. pose proof (alpha_near o us ud ub i j x y Hi Hj Fx Fy Ex Ey) as N.
  assert (U1 : unit32 $1) by (destruct (fz_val o 1) as [F1 V1]; [sm|]; split; [exact F1|rewrite V1; lra]).
  destruct (blend_sum_le o us ud ub x y $1 $1 (if ub then $1 else $0)) as [_ [Fa [Ba1 Ba2]]]; try (split; assumption); try exact U1; [apply if_unit, U1| |].
  { destruct (fz_val o 1) as [F1 V1]; [sm|]. destruct (fz_val o 0) as [F0 V0]; [sm|]. destruct ub; [rewrite V1|rewrite V0]; simpl; lra. }
  set (A := @blend_alpha f32 (F32 o) us ud ub x y) in * . pose proof (weights i j Hi Hj) as W. pose proof (w_sum i j Hi Hj) as WS.
  assert (C01 : 0 <= coverage us ud ub (IZR i / 255) (IZR j / 255) <= 1).
  { split; [|apply cover_le; auto]. destruct (cover_step us ud ub i j Hi Hj); lra. }
  assert (G : good A (coverage us ud ub (IZR i / 255) (IZR j / 255))).
  { apply (good_poly A _ ((if us then i * (255 - j) else 0) + (if ud then j * (255 - i) else 0) + (if ub then i * j else 0))%Z N).
    unfold coverage. rewrite !plus_IZR. destruct us, ud, ub; rewrite ?mult_IZR, ?minus_IZR; field. }
  assert (V : is_value A (unit_clamp A)).
  { split; [exact Fa|]. rewrite unit_clamp_fin by exact Fa. change (B2R A) with (fval A). rewrite Rmin_right, Rmax_right; lra. }
  pose proof (good_byte o A _ A G V) as [n [Bn [Vn Dn]]]. exists n. split; [exact Bn|]. rewrite Rmin_right, Rmax_right in Dn by lra. split; [|exact Dn].
  apply byte_scaled; [exact Bn|].
  destruct (fz_val o 255) as [F2 V2]; [sm|]. destruct (Bmult_ok A $255 0 255 Fa F2) as [Fm Vm]; try sm; [rewrite V2; lra|]. rewrite V2 in Vm.
  assert (Bm : 0 <= fval (Bmult mode_NE A $255) <= 255) by (rewrite Vm; apply (rnd32_bounds _ 0 255); try sm; lra).
  destruct (fround_val o (Bmult mode_NE A $255) Fm) as [z [Vz Dz]]. 
  change (A *. $255) with (Bmult mode_NE A $255) in * .
  destruct (clamp_val o (@fround f32 (F32 o) (Bmult mode_NE A $255)) 0 255) as [Fc Vc]; try sm; [lia|apply Vz|].
  assert (Bz : (0 <= z <= 255)%Z).
  { apply Rabs_le_inv in Dz. split; [assert (-1 < z)%Z|assert (z < 256)%Z]; try lia; apply lt_IZR; simpl; lra. }
  destruct Vz as [Fz Vz]. change (fval (@fround f32 (F32 o) (Bmult mode_NE A $255))) with (B2R (@fround f32 (F32 o) (Bmult mode_NE A $255))) in Vc. rewrite Vz in Vc.
  split; [exact Fz|]. rewrite Vz. destruct Vn as [_ Vn].
  assert (E : Rmax (Rmin (IZR z) 255) 0 = IZR n) by (rewrite <- Vn; symmetry; exact Vc).
  assert (0 <= IZR z <= 255) by (split; [apply (IZR_le 0)|apply (IZR_le z 255)]; lia). rewrite Rmin_left, Rmax_left in E by lra. exact E.
Qed.

(** An 8-bit colour as a deep one. *)
Lemma deep_veil (c : color f32) r g b i : @wf_color f32 (F32 o) RGB_TRUE c -> is_byte r -> is_byte g -> is_byte b -> is_byte i -> has_bytes r g b c -> is_value (@alpha f32 (F32 o) c) (IZR i) ->
  exists s, @rgb_true_to_rgb_deep_f f32 (F32 o) c = Ok s /\ @wf_color f32 (F32 o) RGB_DEEP s /\ rgb_space s = rgb_space c /\ (unitf (@alpha f32 (F32 o) s) /\ fval (@alpha f32 (F32 o) s) = q255 i) /\
    exists x y z, comps s = [x; y; z] /\ (unitf x /\ fval x = q255 r) /\ (unitf y /\ fval y = q255 g) /\ (unitf z /\ fval z = q255 b).
Proof.
  intros W Hr Hg Hb Hi [_ [Cr [Cg Cb]]] Ca. 
  destruct (comps3 c (wf_len _ _ W)) as [x [y [z Ec]]].
  destruct Cr as [x' [Ex Vx]]. destruct Cg as [y' [Ey Vy]]. destruct Cb as [z' [Ez Vz]].
  rewrite Ec in Ex, Ey, Ez. cbn [nth_error] in Ex, Ey, Ez. injection Ex as <-. injection Ey as <-. injection Ez as <-.
  pose proof (@rgb_true_to_rgb_deep_ok f32 (F32 o) _ _) as L1.
  assert (E1 : exists c1, @rgb_true_to_rgb_deep_f f32 (F32 o) c = Ok c1 /\ comps c1 = [c01 (x /. $255); c01 (y /. $255); c01 (z /. $255)] /\
    m_alpha c1 = @alpha f32 (F32 o) c /. $255 /\ rgb_space c1 = rgb_space c).
  { unfold rgb_true_to_rgb_deep_f, with3. rewrite Ec, rgb_deepcolor_nf. eexists. repeat split; reflexivity. }
  destruct E1 as [c1 [E1 [C1 [A1 S1]]]].
  assert (W1 : @wf_color f32 (F32 o) RGB_DEEP c1) by (destruct (L1 c W) as [m' [E [Wm _]]]; congruence).
  exists c1. split; [exact E1|]. split; [exact W1|]. split; [exact S1|]. split.
  { assert (EA : @alpha f32 (F32 o) c1 = m_alpha c1) by (unfold alpha; rewrite (wf_cls _ _ W1); reflexivity). rewrite EA, A1.
    pose proof (byte_q o _ i Hi Ca) as Q. rewrite (byte_quot o _ i Hi Ca) in Q. destruct Q as [Fq Vq]. pose proof (q255_near i Hi) as [_ B].
    change (B2R (@alpha f32 (F32 o) c /. $255)) with (fval (@alpha f32 (F32 o) c /. $255)) in Vq. split; [split; [exact Fq|rewrite Vq; exact B]|exact Vq]. }
  exists (c01 (x /. $255)), (c01 (y /. $255)), (c01 (z /. $255)). split; [exact C1|].
  repeat split; try apply (c01_unit o); apply (byte_q o); assumption.
Qed.

Lemma veil8 us ud ub f (h : heap f32) p1 c1 p2 c2 r1 g1 b1 i r2 g2 b2 j (T : nat -> Z -> Z -> R) et E :
  at_addr h p1 c1 -> at_addr h p2 c2 -> @wf_color f32 (F32 o) RGB_TRUE c1 -> @wf_color f32 (F32 o) RGB_TRUE c2 -> rgb_space c1 = rgb_space c2 ->
  is_byte r1 -> is_byte g1 -> is_byte b1 -> is_byte i -> has_bytes r1 g1 b1 c1 -> is_value (@alpha f32 (F32 o) c1) (IZR i) ->
  is_byte r2 -> is_byte g2 -> is_byte b2 -> is_byte j -> has_bytes r2 g2 b2 c2 -> is_value (@alpha f32 (F32 o) c2) (IZR j) ->
  0 <= et <= 1402 * u -> total et <= E ->
  (forall k s d x y, is_byte s -> is_byte d -> unitf x -> unitf y -> fval x = q255 s -> fval y = q255 d ->
     near (f c1 c2 k x y) (T k s d) et /\ -1 <= T k s d <= 255 /\ (ub = false -> fval (f c1 c2 k x y) = 0)) ->
  returns (@checked_blend f32 (F32 o) us ud ub f (Some p1) (Some p2)) h (fun d => ty d = RGB_TRUE /\ rgb_space d = rgb_space c1 /\
    nearest_byte (255 * coverage us ud ub (IZR i / 255) (IZR j / 255)) (@alpha f32 (F32 o) d) /\
    comp_sat d 0 (veiled_byte E us ud ub i j r1 r2 (T 0%nat r1 r2)) /\ comp_sat d 1 (veiled_byte E us ud ub i j g1 g2 (T 1%nat g1 g2)) /\ comp_sat d 2 (veiled_byte E us ud ub i j b1 b2 (T 2%nat b1 b2))).
Proof.
  intros H1 H2 W1 W2 SP Hr1 Hg1 Hb1 Hi B1 A1 Hr2 Hg2 Hb2 Hj B2 A2 He Tot G.
  destruct (deep_veil c1 r1 g1 b1 i W1 Hr1 Hg1 Hb1 Hi B1 A1) as [s [E1 [Ws [Ss [[As1 As2] [x1 [y1 [z1 [Cs [[Ux1 Vx1] [[Uy1 Vy1] [Uz1 Vz1]]]]]]]]]]]].
  destruct (deep_veil c2 r2 g2 b2 j W2 Hr2 Hg2 Hb2 Hj B2 A2) as [d [E2 [Wd [Sd [[Ad1 Ad2] [x2 [y2 [z2 [Cd [[Ux2 Vx2] [[Uy2 Vy2] [Uz2 Vz2]]]]]]]]]]]].
  destruct (@blend_shape f32 (F32 o) us ud ub (f c1 c2) s d (wf_len _ _ Ws) (wf_len _ _ Wd)) as [r [Er [Dr Sr]]].
  pose proof (@blend_f_nf f32 (F32 o) us ud ub (f c1 c2) s d _ _ _ _ _ _ Cs Cd) as NF. rewrite Er in NF. apply Ok_inj in NF.
  set (x := @alpha f32 (F32 o) s) in * . set (y := @alpha f32 (F32 o) d) in * .
  set (A := @blend_alpha f32 (F32 o) us ud ub x y) in * .
  set (w0 := divided (c01 (@blend_sum f32 (F32 o) us ud x y x1 x2 (f c1 c2 0%nat x1 x2))) A).
  set (w1 := divided (c01 (@blend_sum f32 (F32 o) us ud x y y1 y2 (f c1 c2 1%nat y1 y2))) A).
  set (w2 := divided (c01 (@blend_sum f32 (F32 o) us ud x y z1 z2 (f c1 c2 2%nat z1 z2))) A).
  assert (Cr : comps r = [w0; w1; w2] /\ m_alpha r = A).
  { rewrite NF. unfold alpha_divide. cbn [m_alpha]. unfold w0, w1, w2, divided. destruct (@feq f32 (F32 o) A $0); split; reflexivity. }
  destruct Cr as [Cr Mr].
  assert (Ealpha : @alpha f32 (F32 o) r = m_alpha r) by (unfold alpha; rewrite (ds_cls r Dr); reflexivity).
  assert (Et : exists v, @rgb_deep_to_rgb_true_f f32 (F32 o) r = Ok v /\ ty v = RGB_TRUE /\ cls v = RGB_TRUE /\ rgb_space v = rgb_space r /\
     m_alpha v = c01 (@fround f32 (F32 o) (m_alpha r *. $255) /. $255) /\ comps v = [byte w0; byte w1; byte w2]).
  { unfold rgb_deep_to_rgb_true_f, with3. rewrite Cr, rgb_truecolor_nf. eexists. split; [reflexivity|]. repeat split; try reflexivity. rewrite Ealpha. reflexivity. }
  destruct Et as [v [Et [Tv [Kv [Sv [Mv Cv]]]]]].
  destruct (checked_true o us ud ub f h p1 c1 p2 c2 s d r v H1 H2 W1 W2 SP E1 E2 Ws Wd Ss Sd Er Dr Et) as [q [v' [h' [Run [At ->]]]]].
  exists q, v, h'. split; [exact Run|]. split; [exact At|]. split; [exact Tv|]. split; [congruence|]. split.
  { unfold alpha. rewrite Kv. change (nearest_byte (255 * coverage us ud ub (IZR i / 255) (IZR j / 255)) (m_alpha v *. $255)). rewrite Mv, Mr. apply alpha_byte; auto. }
  unfold comp_sat. rewrite Cv. cbn [nth_error].
  split; [|split]; (eexists; split; [reflexivity|]).
  - destruct (G 0%nat r1 r2 x1 x2 Hr1 Hr2 Ux1 Ux2 Vx1 Vx2) as [G1 [G2 G3]]. apply (channel us ud ub i j x y _ _ et r1 r2 x1 x2 E); auto; first [apply As1|apply Ad1|apply Ux1|apply Ux2].
  - destruct (G 1%nat g1 g2 y1 y2 Hg1 Hg2 Uy1 Uy2 Vy1 Vy2) as [G1 [G2 G3]]. apply (channel us ud ub i j x y _ _ et g1 g2 y1 y2 E); auto; first [apply As1|apply Ad1|apply Uy1|apply Uy2].
  - destruct (G 2%nat b1 b2 z1 z2 Hb1 Hb2 Uz1 Uz2 Vz1 Vz2) as [G1 [G2 G3]]. apply (channel us ud ub i j x y _ _ et b1 b2 z1 z2 E); auto; first [apply As1|apply Ad1|apply Uz1|apply Uz2].
Qed.
End V3.
