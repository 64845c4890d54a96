(** * Blending opaque 8-bit colours in binary32: the runs (C159, C160) *)
From Coq Require Import ZArith QArith Reals Lra Lia List Bool.
From Flocq Require Import Core IEEE754.BinarySingleNaN.
From Verif Require Import Arith Outcome ColorModel GammaModel MatrixModel SpaceModel Heap Converter Calculation Blend F32 F32Facts RArith
  Spec Spec32 Laws NormalForms Alpha8 Core_Proofs Core2_Proofs Core3_Proofs Core4_Proofs Hue32 Spec_Matrix Spec_Conv Spec_Calc Spec_Blend Spec_Round
  Conv_Proofs Conv2_Proofs Run_Proofs Round_Proofs Round2_Proofs Error_Proofs Error2_Proofs Error4_Proofs Error5_Proofs Error7_Proofs Error8_Proofs Spec_Error
  Linear2_Proofs Curve_Proofs Lab8_Proofs Conv3_Proofs Calc_Proofs Blend_Proofs Blend2_Proofs Spec_Byte Byte_Proofs.
Import ListNotations.
Local Open Scope R_scope.
Local Notation fin x := (is_finite x = true).

Section B2.
Variable o : oracle.
Local Notation "x +. y" := (@fadd f32 (F32 o) x y) (at level 50, left associativity).
Local Notation "x -. y" := (@fsub f32 (F32 o) x y) (at level 50, left associativity).
Local Notation "x *. y" := (@fmul f32 (F32 o) x y) (at level 40, left associativity).
Local Notation "x /. y" := (@fdiv f32 (F32 o) x y) (at level 40, left associativity).
Local Notation "$ n" := (fz (H := F32 o) n) (at level 2).

Local Notation c01 := (@c01 f32 (F32 o)).

(** An 8-bit opaque colour as a deep one. *)
Lemma deep_bytes (c : color f32) r g b : @wf_color f32 (F32 o) RGB_TRUE c -> is_byte r -> is_byte g -> is_byte b -> has_bytes r g b c -> is_value (@alpha f32 (F32 o) c) 255 ->
  exists s, @rgb_true_to_rgb_deep_f f32 (F32 o) c = Ok s /\ @wf_color f32 (F32 o) RGB_DEEP s /\ rgb_space s = rgb_space c /\ is_value (m_alpha s) 1 /\
    exists x y z, comps s = [x; y; z] /\ (unitf x /\ fval x = q255 r) /\ (unitf y /\ fval y = q255 g) /\ (unitf z /\ fval z = q255 b).
Proof.
  intros W Hr Hg Hb [_ [Cr [Cg Cb]]] Ca. 
  destruct (comps3 c (wf_len _ _ W)) as [x [y [z Ec]]].
  destruct Cr as [x' [Ex Vx]]. destruct Cg as [y' [Ey Vy]]. destruct Cb as [z' [Ez Vz]].
  rewrite Ec in Ex, Ey, Ez. cbn [nth_error] in Ex, Ey, Ez. injection Ex as <-. injection Ey as <-. injection Ez as <-.
  pose proof (@rgb_true_to_rgb_deep_ok f32 (F32 o) _ _) as L1.
  assert (E1 : exists c1, @rgb_true_to_rgb_deep_f f32 (F32 o) c = Ok c1 /\ comps c1 = [c01 (x /. $255); c01 (y /. $255); c01 (z /. $255)] /\
    m_alpha c1 = @alpha f32 (F32 o) c /. $255 /\ rgb_space c1 = rgb_space c).
  { unfold rgb_true_to_rgb_deep_f, with3. rewrite Ec, rgb_deepcolor_nf. eexists. repeat split; reflexivity. }
  destruct E1 as [c1 [E1 [C1 [A1 S1]]]].
  assert (W1 : @wf_color f32 (F32 o) RGB_DEEP c1) by (destruct (L1 c W) as [m' [E [Wm _]]]; congruence).
  exists c1. split; [exact E1|]. split; [exact W1|]. split; [exact S1|]. split.
  { rewrite A1. assert (H255 : (0 <= 255 <= 255)%Z) by lia. pose proof (byte_q o _ 255 H255 Ca) as Q. rewrite (byte_quot o _ 255 H255 Ca) in Q. rewrite (q_255 o) in Q. exact Q. }
  exists (c01 (x /. $255)), (c01 (y /. $255)), (c01 (z /. $255)). split; [exact C1|].
  repeat split; try apply (c01_unit o); apply (byte_q o); assumption.
Qed.

(** Two 8-bit colours through a blend. *)
Lemma checked_true us ud ub f (h : heap f32) p1 c1 p2 c2 s d r t : at_addr h p1 c1 -> at_addr h p2 c2 -> @wf_color f32 (F32 o) RGB_TRUE c1 -> @wf_color f32 (F32 o) RGB_TRUE c2 ->
  rgb_space c1 = rgb_space c2 -> @rgb_true_to_rgb_deep_f f32 (F32 o) c1 = Ok s -> @rgb_true_to_rgb_deep_f f32 (F32 o) c2 = Ok d ->
  @wf_color f32 (F32 o) RGB_DEEP s -> @wf_color f32 (F32 o) RGB_DEEP d -> rgb_space s = rgb_space c1 -> rgb_space d = rgb_space c2 ->
  @blend_f f32 (F32 o) us ud ub (f c1 c2) s d = Ok r -> @deep_shape f32 (F32 o) r -> @rgb_deep_to_rgb_true_f f32 (F32 o) r = Ok t ->
  returns (@checked_blend f32 (F32 o) us ud ub f (Some p1) (Some p2)) h (fun x => x = t).
Proof.
  intros H1 H2 W1 W2 SP E1 E2 Ws Wd Ss Sd Er Dr Et.
  pose proof (leaf_run RGB_TRUE (@rgb_true_to_rgb_deep_f f32 (F32 o)) h p1 c1 s H1 W1 E1) as L1. set (h1 := pushed h s) in * .
  assert (A1 : at_addr h1 (length (colors h)) s) by apply at_new.
  assert (H2' : at_addr h1 p2 c2) by (apply (proj2 (unchanged_new h s)), H2).
  pose proof (leaf_run RGB_TRUE (@rgb_true_to_rgb_deep_f f32 (F32 o)) h1 p2 c2 d H2' W2 E2) as L2. set (h2 := pushed h1 d) in * .
  assert (A1' : at_addr h2 (length (colors h)) s) by (apply (proj2 (unchanged_new h1 d)), A1).
  assert (A2 : at_addr h2 (length (colors h1)) d) by apply at_new.
  assert (A3 : at_addr (pushed h2 r) (length (colors h2)) r) by apply at_new.
  exists (length (colors (pushed h2 r))), t, (pushed (pushed h2 r) t). split; [|split; [apply at_new|reflexivity]].
  assert (D1 : dispatches (@to_rgb_deep f32 (F32 o)) RGB_TRUE (leaf RGB_TRUE (@rgb_true_to_rgb_deep_f f32 (F32 o)))) by disp.
  assert (D2 : dispatches (@to_rgb_true f32 (F32 o)) RGB_DEEP (leaf RGB_DEEP (@rgb_deep_to_rgb_true_f f32 (F32 o)))) by disp.
  unfold checked_blend. unfold bind at 1, load at 1. pose proof H1 as K1. unfold at_addr in K1. rewrite K1.
  unfold bind at 1, load at 1. pose proof H2 as K2. unfold at_addr in K2. rewrite K2.
  rewrite SP, ptr_same. cbn [negb]. rewrite (wf_ty _ _ W1).
  unfold bind at 1. rewrite (D1 h p1 c1 H1 (wf_ty _ _ W1)), L1. unfold bind at 1. rewrite (D1 h1 p2 c2 H2' (wf_ty _ _ W2)), L2. unfold bind at 1.
  unfold general_porter_duff. unfold bind at 1. rewrite (load_as_ok h2 _ s RGB_DEEP A1' Ws).
  unfold bind at 1. rewrite (load_as_ok h2 _ d RGB_DEEP A2 Wd). rewrite Ss, Sd, SP, ptr_same. cbn [negb].
  unfold bind at 1, lift at 1. rewrite Er. cbn [alloc].
  change (@to_rgb_true f32 (F32 o) (Some (length (colors h2))) (pushed h2 r) = (Ok (Some (length (colors (pushed h2 r)))), pushed (pushed h2 r) t)).
  rewrite (D2 _ _ _ A3 (ds_ty r Dr)). unfold leaf, bind. rewrite (load_shape _ _ r A3 Dr). unfold lift. rewrite Et. reflexivity.
Qed.

Lemma opaque8 us ud f (h : heap f32) p1 c1 p2 c2 r1 g1 b1 r2 g2 b2 (t : nat -> R -> R -> R) :
  at_addr h p1 c1 -> at_addr h p2 c2 -> @wf_color f32 (F32 o) RGB_TRUE c1 -> @wf_color f32 (F32 o) RGB_TRUE c2 -> rgb_space c1 = rgb_space c2 ->
  is_byte r1 -> is_byte g1 -> is_byte b1 -> has_bytes r1 g1 b1 c1 -> is_value (@alpha f32 (F32 o) c1) 255 ->
  is_byte r2 -> is_byte g2 -> is_byte b2 -> has_bytes r2 g2 b2 c2 -> is_value (@alpha f32 (F32 o) c2) 255 ->
  (forall i s d x y, is_byte s -> is_byte d -> unitf x -> unitf y -> fval x = q255 s -> fval y = q255 d -> good (f c1 c2 i x y) (t i (IZR s / 255) (IZR d / 255))) ->
  returns (@checked_blend f32 (F32 o) us ud true f (Some p1) (Some p2)) h (fun d => ty d = RGB_TRUE /\ is_value (@alpha f32 (F32 o) d) 255 /\ rgb_space d = rgb_space c1 /\
    comp_sat d 0 (nearest_byte (blended_byte (t 0%nat) r1 r2)) /\ comp_sat d 1 (nearest_byte (blended_byte (t 1%nat) g1 g2)) /\ comp_sat d 2 (nearest_byte (blended_byte (t 2%nat) b1 b2))).
Proof.
  intros H1 H2 W1 W2 SP Hr1 Hg1 Hb1 B1 A1 Hr2 Hg2 Hb2 B2 A2 G.
  destruct (deep_bytes c1 r1 g1 b1 W1 Hr1 Hg1 Hb1 B1 A1) as [s [E1 [Ws [Ss [As [x1 [y1 [z1 [Cs [[Ux1 Vx1] [[Uy1 Vy1] [Uz1 Vz1]]]]]]]]]]]].
  destruct (deep_bytes c2 r2 g2 b2 W2 Hr2 Hg2 Hb2 B2 A2) as [d [E2 [Wd [Sd [Ad [x2 [y2 [z2 [Cd [[Ux2 Vx2] [[Uy2 Vy2] [Uz2 Vz2]]]]]]]]]]]].
  destruct (@blend_shape f32 (F32 o) us ud true (f c1 c2) s d (wf_len _ _ Ws) (wf_len _ _ Wd)) as [r [Er [Dr Sr]]].
  destruct (opaque_blend_f o us ud (f c1 c2) s d r Ws Wd As Ad Er) as [Ar K].
  rewrite Cs, Cd in K. pose proof (K 0%nat _ _ eq_refl eq_refl) as [w0 [N0 V0]]. pose proof (K 1%nat _ _ eq_refl eq_refl) as [w1 [N1 V1]]. pose proof (K 2%nat _ _ eq_refl eq_refl) as [w2 [N2 V2]]. clear K.
  pose proof (ds_len r Dr) as Lr. assert (Cr : comps r = [w0; w1; w2]).
  { destruct (comps r) as [|a [|b' [|c' [|]]]]; try discriminate Lr. cbn [nth_error] in N0, N1, N2. congruence. }
  assert (Ealpha : @alpha f32 (F32 o) r = m_alpha r) by (unfold alpha; rewrite (ds_cls r Dr); reflexivity).
  assert (Et : exists v, @rgb_deep_to_rgb_true_f f32 (F32 o) r = Ok v /\ ty v = RGB_TRUE /\ cls v = RGB_TRUE /\ rgb_space v = rgb_space r /\
     m_alpha v = c01 (@fround f32 (F32 o) (m_alpha r *. $255) /. $255) /\
     comps v = [@c255 f32 (F32 o) (@fround f32 (F32 o) (w0 *. $255)); @c255 f32 (F32 o) (@fround f32 (F32 o) (w1 *. $255)); @c255 f32 (F32 o) (@fround f32 (F32 o) (w2 *. $255))]).
  { unfold rgb_deep_to_rgb_true_f, with3. rewrite Cr, rgb_truecolor_nf. eexists. split; [reflexivity|]. repeat split; try reflexivity. rewrite Ealpha. reflexivity. }
  destruct Et as [v [Et [Tv [Kv [Sv [Mv Cv]]]]]].
  destruct (checked_true us ud true f h p1 c1 p2 c2 s d r v H1 H2 W1 W2 SP E1 E2 Ws Wd Ss Sd Er Dr Et) as [q [v' [h' [Run [At ->]]]]].
  exists q, v, h'. split; [exact Run|]. split; [exact At|]. split; [exact Tv|]. split.
  { unfold alpha. rewrite Kv. change (is_value (m_alpha v *. $255) 255). rewrite Mv. destruct (fz_val o 255) as [F2 V2']; [sm|].
    assert (V255 : is_value $255 255) by (split; assumption). assert (H255 : (0 <= 255 <= 255)%Z) by lia.
    pose proof (byte_alpha o $255 255 H255 V255) as Q.
    assert (O : $255 /. $255 = m_alpha r).
    { rewrite (is_one o _ Ar). apply (is_one o). pose proof (byte_q o _ 255 H255 V255) as Q'. rewrite (byte_quot o _ 255 H255 V255), (q_255 o) in Q'. exact Q'. }
    rewrite O in Q. exact Q. }
  split; [congruence|]. unfold comp_sat. rewrite Cv. cbn [nth_error].
  split; [|split]; (eexists; split; [reflexivity|]); [apply (good_byte o _ _ _ (G 0%nat r1 r2 x1 x2 Hr1 Hr2 Ux1 Ux2 Vx1 Vx2) V0)|apply (good_byte o _ _ _ (G 1%nat g1 g2 y1 y2 Hg1 Hg2 Uy1 Uy2 Vy1 Vy2) V1)|apply (good_byte o _ _ _ (G 2%nat b1 b2 z1 z2 Hb1 Hb2 Uz1 Uz2 Vz1 Vz2) V2)].
Qed.

Lemma blend8 m t us ud (h : heap f32) p1 c1 p2 c2 r1 g1 b1 r2 g2 b2 : exact_function m = Some t ->
  at_addr h p1 c1 -> at_addr h p2 c2 -> @wf_color f32 (F32 o) RGB_TRUE c1 -> @wf_color f32 (F32 o) RGB_TRUE c2 -> rgb_space c1 = rgb_space c2 ->
  is_byte r1 -> is_byte g1 -> is_byte b1 -> has_bytes r1 g1 b1 c1 -> is_value (@alpha f32 (F32 o) c1) 255 ->
  is_byte r2 -> is_byte g2 -> is_byte b2 -> has_bytes r2 g2 b2 c2 -> is_value (@alpha f32 (F32 o) c2) 255 ->
  returns (@blend f32 (F32 o) m (Some p1) (Some p2) us ud) h (fun d => ty d = RGB_TRUE /\ is_value (@alpha f32 (F32 o) d) 255 /\ rgb_space d = rgb_space c1 /\
    comp_sat d 0 (nearest_byte (blended_byte t r1 r2)) /\ comp_sat d 1 (nearest_byte (blended_byte t g1 g2)) /\ comp_sat d 2 (nearest_byte (blended_byte t b1 b2))).
Proof.
  intros E H1 H2 W1 W2 SP Hr1 Hg1 Hb1 B1 A1 Hr2 Hg2 Hb2 B2 A2. rewrite blend_checked.
  apply (opaque8 us ud (@blend_function f32 (F32 o) m) h p1 c1 p2 c2 r1 g1 b1 r2 g2 b2 (fun _ => t)); auto.
  intros. apply (value8 o m t); auto.
Qed.

Lemma nearest_self n d i t : is_byte n -> t = IZR n -> comp_sat d i (nearest_byte t) -> comp_sat d i (fun x => is_value x (IZR n)).
Proof.
  intros Hn -> [x [E [k [Hk [V D]]]]]. exists x. split; [exact E|]. assert (k = n) as <-; [|exact V].
  rewrite <- minus_IZR, <- abs_IZR in D. assert (Rabs (IZR (k - n)) < 1) by (rewrite <- abs_IZR; lra). rewrite <- abs_IZR in H. apply lt_IZR in H. lia.
Qed.
Lemma byte_frac n : is_byte n -> blended_byte (fun s _ => s) n n = IZR n.
Proof.
  intros [A B]. apply IZR_le in A, B. unfold blended_byte. rewrite Rmin_right, Rmax_right by lra. field.
Qed.
Lemma over8 p (h : heap f32) p1 c1 p2 c2 r1 g1 b1 r2 g2 b2 :
  at_addr h p1 c1 -> at_addr h p2 c2 -> @wf_color f32 (F32 o) RGB_TRUE c1 -> @wf_color f32 (F32 o) RGB_TRUE c2 -> rgb_space c1 = rgb_space c2 ->
  is_byte r1 -> is_byte g1 -> is_byte b1 -> has_bytes r1 g1 b1 c1 -> is_value (@alpha f32 (F32 o) c1) 255 ->
  is_byte r2 -> is_byte g2 -> is_byte b2 -> has_bytes r2 g2 b2 c2 -> is_value (@alpha f32 (F32 o) c2) 255 ->
  (shows_source p = true -> returns (@composite f32 (F32 o) p (Some p1) (Some p2)) h (fun d => has_bytes r1 g1 b1 d /\ is_value (@alpha f32 (F32 o) d) 255 /\ rgb_space d = rgb_space c1)) /\
  (shows_destination p = true -> returns (@composite f32 (F32 o) p (Some p1) (Some p2)) h (fun d => has_bytes r2 g2 b2 d /\ is_value (@alpha f32 (F32 o) d) 255 /\ rgb_space d = rgb_space c1)).
Proof.
  intros H1 H2 W1 W2 SP Hr1 Hg1 Hb1 B1 A1 Hr2 Hg2 Hb2 B2 A2. rewrite composite_checked. split; intros K.
  - assert (Kb : op_b p = true) by (destruct p; discriminate K || reflexivity). rewrite Kb.
    destruct (opaque8 (op_s p) (op_d p) (@op_f f32 (F32 o) p) h p1 c1 p2 c2 r1 g1 b1 r2 g2 b2 (fun _ s _ => s)) as [q [d [h' [Run [At [T [Al [S [Q0 [Q1 Q2]]]]]]]]]]; auto.
    { intros. destruct p; try discriminate K; apply g_normal; auto. }
    exists q, d, h'. split; [exact Run|]. split; [exact At|]. split; [|auto]. split; [exact T|].
    split; [|split]; (eapply nearest_self; [assumption| |eassumption]); [rewrite <- (byte_frac r1 Hr1)|rewrite <- (byte_frac g1 Hg1)|rewrite <- (byte_frac b1 Hb1)]; reflexivity.
  - assert (Kb : op_b p = true) by (destruct p; discriminate K || reflexivity). rewrite Kb.
    destruct (opaque8 (op_s p) (op_d p) (@op_f f32 (F32 o) p) h p1 c1 p2 c2 r1 g1 b1 r2 g2 b2 (fun _ _ d => d)) as [q [d [h' [Run [At [T [Al [S [Q0 [Q1 Q2]]]]]]]]]]; auto.
    { intros. destruct p; try discriminate K; apply g_normal; auto. }
    exists q, d, h'. split; [exact Run|]. split; [exact At|]. split; [|auto]. split; [exact T|].
    split; [|split]; (eapply nearest_self; [assumption| |eassumption]); [rewrite <- (byte_frac r2 Hr2)|rewrite <- (byte_frac g2 Hg2)|rewrite <- (byte_frac b2 Hb2)]; reflexivity.
Qed.
End B2.
