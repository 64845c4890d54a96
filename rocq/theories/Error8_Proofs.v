(** * Which bytes survive a trip through another colour type (C150 - C152) *)
From Coq Require Import ZArith QArith Reals Lra Lia List Bool.
From Flocq Require Import Core IEEE754.BinarySingleNaN.
From Verif Require Import Arith Outcome ColorModel GammaModel MatrixModel SpaceModel Heap Converter F32 F32Facts RArith
  Spec Spec32 Laws NormalForms Alpha8 Core_Proofs Core2_Proofs Core3_Proofs Core4_Proofs Hue32 Spec_Matrix Spec_Conv Spec_Round
  Conv_Proofs Conv2_Proofs Run_Proofs HueR_Proofs Round_Proofs Round2_Proofs RoundEx_Proofs Error_Proofs Error2_Proofs Error3_Proofs Error4_Proofs Error5_Proofs Error6_Proofs Error7_Proofs Spec_Error.
Import ListNotations.
Local Open Scope R_scope.

Lemma via_mono {F} go back (h : heap F) p (P Q : color F -> color F -> Prop) : via go back h p P -> (forall m d, P m d -> Q m d) -> via go back h p Q.
Proof. intros [q [i [m [r [h1 [h2 [A [B [C [D H]]]]]]]]]] K. exists q, i, m, r, h1, h2. auto 10. Qed.

Section B.
Context (o : oracle).
Variables (h : heap f32) (p : nat) (c : color f32) (r g b a : Z).
Hypothesis (Hp : at_addr h p c) (W : @wf_color f32 (F32 o) RGB_TRUE c).
Hypothesis (Hr : is_byte r) (Hg : is_byte g) (Hb : is_byte b) (Ha : is_byte a).
Hypothesis (Hc : has_bytes r g b c) (Ca : is_value (@alpha f32 (F32 o) c) (IZR a)).

Let Cr := proj1 (proj2 Hc).
Let Cg := proj1 (proj2 (proj2 Hc)).
Let Cb := proj2 (proj2 (proj2 Hc)).
Let bb := blue_back (IZR r) (IZR g) (IZR b).

Lemma sat_mono (d : color f32) i (P Q : f32 -> Prop) : comp_sat d i P -> (forall x, P x -> Q x) -> comp_sat d i Q.
Proof. intros [x [E H]] K. exists x. auto. Qed.
Definition same8 (Y : ctype) (keep : Prop) (m d : color f32) : Prop :=
  ty m = Y /\ has_bytes r g b d /\ (keep -> is_value (@alpha f32 (F32 o) d) (IZR a)) /\ rgb_space d = rgb_space c.

Lemma same8_of Y v1 v2 v3 (keep : Prop) m d : bytes_back o c a Y v1 v2 v3 keep m d ->
  Rabs (v1 - IZR r) <= 49 / 100 -> Rabs (v2 - IZR g) <= 49 / 100 -> Rabs (v3 - IZR b) <= 49 / 100 -> same8 Y keep m d.
Proof.
  intros [T [T2 [C1 [C2 [C3 [A S]]]]]] K1 K2 K3. split; [exact T|]. split; [|auto]. split; [exact T2|].
  split; [|split]; (eapply sat_mono; [eassumption|]; intros x HB; eapply byte_at_eq; eassumption).
Qed.
Lemma bb_close : ~ ((g < b <= r)%Z /\ (60 * (b - g) + 30 <= r - g)%Z) -> 0 <= bb - IZR b <= 29 / 60.
Proof.
  intros N. unfold bb, blue_back. destruct (Rlt_dec _ _) as [L1|]; [|lra]. destruct (Rle_dec _ _) as [L2|]; [|lra].
  apply lt_IZR in L1. apply le_IZR in L2. assert (K : (r - g <= 60 * (b - g) + 29)%Z) by lia.
  apply IZR_le in K. rewrite plus_IZR, mult_IZR, !minus_IZR in K. unfold Rmax. destruct (Rle_dec _ _); lra.
Qed.

Section Keep.
Hypothesis (N : ~ ((g < b <= r)%Z /\ (60 * (b - g) + 30 <= r - g)%Z)).
Lemma abs0 x : Rabs (x - x) <= 49 / 100.
Proof. rewrite Rminus_diag_eq, Rabs_R0 by reflexivity. lra. Qed.
Lemma keep8_hsv : via (@to_hsv f32 (F32 o)) (@to_rgb_true f32 (F32 o)) h p (same8 HSV True).
Proof.
  eapply via_mono; [apply (bytes_hsv o h p c r g b a Hp W Hr Hg Hb Ha Cr Cg Cb Ca)|]. intros m d K.
  pose proof (bb_close N). apply (same8_of _ _ _ _ _ _ _ K); [apply abs0|apply abs0|apply Rabs_le; fold bb; lra].
Qed.
Lemma keep8_hsl : via (@to_hsl f32 (F32 o)) (@to_rgb_true f32 (F32 o)) h p (same8 HSL (r <> 0 \/ g <> 0 \/ b <> 0)%Z).
Proof.
  eapply via_mono; [apply (bytes_hsl o h p c r g b a Hp W Hr Hg Hb Ha Cr Cg Cb Ca)|]. intros m d K.
  pose proof (bb_close N). apply (same8_of _ _ _ _ _ _ _ K); [apply abs0|apply abs0|apply Rabs_le; fold bb; lra].
Qed.
Lemma keep8_hcy : via (@to_hcy f32 (F32 o)) (@to_rgb_true f32 (F32 o)) h p (same8 HCY True).
Proof.
  eapply via_mono; [apply (bytes_hcy o h p c r g b a Hp W Hr Hg Hb Ha Cr Cg Cb Ca)|]. intros m d K.
  pose proof (bb_close N). pose proof (byteR r Hr). pose proof (byteR g Hg). pose proof (byteR b Hb).
  apply (same8_of _ _ _ _ _ _ _ K); fold bb; apply Rabs_le; unfold Rmax; destruct (Rle_dec _ _); lra.
Qed.
End Keep.
Lemma keep8_cmyk : via (@to_cmyk f32 (F32 o)) (@to_rgb_true f32 (F32 o)) h p (same8 CMYK True).
Proof.
  eapply via_mono; [apply (bytes_cmyk o h p c r g b a Hp W Hr Hg Hb Ha Cr Cg Cb Ca)|]. intros m d K.
  apply (same8_of _ _ _ _ _ _ _ K); apply abs0.
Qed.

(** Hues close to 360 degrees. *)
Section Lose.
Hypothesis (N1 : (g < b <= r)%Z) (N2 : (60 * (b - g) + 31 <= r - g)%Z).
Definition other_blue (m d : color f32) : Prop :=
  exists z, has_bytes r g z d /\ z <> b /\ Rabs (IZR z - (IZR g + (IZR r - IZR g) / 60)) <= / 2 + / 500.
Lemma bb_cut : bb = IZR g + (IZR r - IZR g) / 60 /\ IZR b + 31 / 60 <= bb.
Proof.
  assert (L1 : IZR g < IZR b) by (apply IZR_lt; lia). assert (L2 : IZR b <= IZR r) by (apply IZR_le; lia).
  pose proof (IZR_le _ _ N2) as K. rewrite plus_IZR, mult_IZR, !minus_IZR in K.
  assert (E : bb = IZR g + (IZR r - IZR g) / 60).
  { unfold bb, blue_back. destruct (Rlt_dec _ _); [|lra]. destruct (Rle_dec _ _); [|lra]. apply Rmax_right. lra. }
  rewrite E. lra.
Qed.
Lemma lose8_of Y (keep : Prop) m d : bytes_back o c a Y (IZR r) (IZR g) bb keep m d -> other_blue m d.
Proof.
  intros [T [T2 [C1 [C2 [[x [E [z [Bz [V K]]]]] [A S]]]]]]. destruct bb_cut as [E1 E2]. exists z. split; [|split].
  - split; [exact T2|]. split; [eapply sat_mono; [exact C1|intros y Hy; eapply byte_at_eq; [exact Hy|apply abs0]]|].
    split; [eapply sat_mono; [exact C2|intros y Hy; eapply byte_at_eq; [exact Hy|apply abs0]]|]. exists x. auto.
  - intros ->. apply Rabs_le_inv in K. lra.
  - rewrite <- E1. exact K.
Qed.
Lemma lose8_hsv : via (@to_hsv f32 (F32 o)) (@to_rgb_true f32 (F32 o)) h p other_blue.
Proof. eapply via_mono; [apply (bytes_hsv o h p c r g b a Hp W Hr Hg Hb Ha Cr Cg Cb Ca)|]. intros m d. apply lose8_of. Qed.
Lemma lose8_hsl : via (@to_hsl f32 (F32 o)) (@to_rgb_true f32 (F32 o)) h p other_blue.
Proof. eapply via_mono; [apply (bytes_hsl o h p c r g b a Hp W Hr Hg Hb Ha Cr Cg Cb Ca)|]. intros m d. apply lose8_of. Qed.
End Lose.
End B.

Lemma bytes_exist o r g b a : is_byte r -> is_byte g -> is_byte b -> is_byte a -> exists (h : heap f32) c, at_addr h 0%nat c /\ @wf_color f32 (F32 o) RGB_TRUE c /\
  has_bytes r g b c /\ is_value (@alpha f32 (F32 o) c) (IZR a).
Proof.
  unfold is_byte. intros Hr Hg Hb Ha. set (Z' := fun n => fz (H := F32 o) n).
  destruct (fz_val o r) as [A1 A2]; [sm|]. destruct (fz_val o g) as [B1 B2]; [sm|].
  destruct (fz_val o b) as [C1 C2]; [sm|]. destruct (fz_val o a) as [D1 D2]; [sm|].
  destruct (ctor_stores o RGB_TRUE [Z' r; Z' g; Z' b] (Z' a) None) as [c [E [K1 [K2 [K3 [K4 [K5 [_ A]]]]]]]]; [simpl; auto|reflexivity|].
  assert (W : @wf_color f32 (F32 o) RGB_TRUE c).
  { destruct (rgb_truecolor_made (AF := F32 o) (Z' r) (Z' g) (Z' b) (Z' a) None) as [c' [E' [W _]]]. cbn [ctor_of] in E. rewrite E in E'. injection E' as <-. exact W. }
  exists (Heap [c] []), c. split; [reflexivity|]. split; [exact W|].
  assert (V : forall i x n, nth_error [Z' r; Z' g; Z' b] i = Some x -> is_finite x = true -> fval x = IZR n -> (0 <= n <= 255)%Z ->
     comp_sat c i (fun x => is_value x (IZR n))).
  { intros i x n Hx Fx Vx Hn. destruct (K5 i x Hx) as [y [Ey [Sy _]]]. exists y. split; [exact Ey|].
    change (B2R x) with (fval x) in Sy. rewrite Vx in Sy. apply Sy. split; [exact Fx|].
    change (IZR 0 <= fval x <= IZR 255). rewrite Vx. split; apply IZR_le; lia. }
  split.
  - split; [apply (wf_ty _ _ W)|]. split; [apply (V 0%nat _ r eq_refl); auto; lia|]. split; [apply (V 1%nat _ g eq_refl); auto; lia|]. apply (V 2%nat _ b eq_refl); auto; lia.
  - apply (A eq_refl a); [lia|]. split; auto.
Qed.
Lemma Ok_inj {A} (a b : A) : Ok a = Ok b -> a = b.
Proof. congruence. Qed.
Lemma deep_exist o : exists (h : heap f32) c r g b, at_addr h 0%nat c /\ @wf_color f32 (F32 o) RGB_DEEP c /\ comps c = [r; g; b] /\ B2R r = 1 /\ B2R g = 0 /\ B2R b = 1.
Proof.
  destruct (rgb_deepcolor_made (AF := F32 o) (@fz f32 (F32 o) 1) (@fz f32 (F32 o) 0) (@fz f32 (F32 o) 1) (@fz f32 (F32 o) 1) None) as [c [E [W _]]]. rewrite rgb_deepcolor_nf in E.
  exists (Heap [c] []), c. do 3 eexists. split; [reflexivity|]. split; [exact W|]. apply Ok_inj in E. rewrite <- E. split; [reflexivity|].
  destruct (fz_val o 0) as [F0 V0]; [sm|]. destruct (fz_val o 1) as [F1 V1]; [sm|].
  destruct (c01_val o (fz (H := F32 o) 1) F1) as [_ E1]; [rewrite V1; lra|]. destruct (c01_val o (fz (H := F32 o) 0) F0) as [_ E0]; [rewrite V0; lra|].
  change (@B2R 24 128) with fval. rewrite E1, E0, V1, V0. auto.
Qed.

Lemma deep_hsv' : forall o (h : heap f32) p c r g b, at_addr h p c -> @wf_color f32 (F32 o) RGB_DEEP c -> comps c = [r; g; b] ->
  via (@to_hsv f32 (F32 o)) (@to_rgb_deep f32 (F32 o)) h p (fun m d => ty m = HSV /\ ty d = RGB_DEEP /\
    comp_sat d 0 (approx (B2R r) (/ 262144)) /\ comp_sat d 1 (approx (B2R g) (/ 262144)) /\
    comp_sat d 2 (approx (blue_back (B2R r) (B2R g) (B2R b)) (/ 262144)) /\ m_alpha d = m_alpha c /\ rgb_space d = rgb_space c).
Proof. intros. eapply via_mono; [eapply deep_hsv; eassumption|]. intros m d K. unfold back_near, same8 in K. cbv zeta in * . intuition auto. Qed.
Lemma deep_hcy' : forall o (h : heap f32) p c r g b, at_addr h p c -> @wf_color f32 (F32 o) RGB_DEEP c -> comps c = [r; g; b] ->
  via (@to_hcy f32 (F32 o)) (@to_rgb_deep f32 (F32 o)) h p (fun m d =>
    let B := blue_back (B2R r) (B2R g) (B2R b) in let s := 722 / 10000 * (B - B2R b) in ty m = HCY /\ ty d = RGB_DEEP /\
    comp_sat d 0 (approx (Rmax 0 (B2R r - s)) (/ 131072)) /\ comp_sat d 1 (approx (Rmax 0 (B2R g - s)) (/ 131072)) /\
    comp_sat d 2 (approx (Rmax 0 (B - s)) (/ 131072)) /\ m_alpha d = m_alpha c /\ rgb_space d = rgb_space c).
Proof. intros. eapply via_mono; [eapply deep_hcy; eassumption|]. intros m d K. unfold back_near, same8 in K. cbv zeta in * . intuition auto. Qed.
Lemma deep_cmyk' : forall o (h : heap f32) p c r g b, at_addr h p c -> @wf_color f32 (F32 o) RGB_DEEP c -> comps c = [r; g; b] ->
  via (@to_cmyk f32 (F32 o)) (@to_rgb_deep f32 (F32 o)) h p (fun m d => ty m = CMYK /\ ty d = RGB_DEEP /\
    comp_sat d 0 (approx (B2R r) (/ 262144)) /\ comp_sat d 1 (approx (B2R g) (/ 262144)) /\
    comp_sat d 2 (approx (B2R b) (/ 262144)) /\ m_alpha d = m_alpha c /\ rgb_space d = rgb_space c).
Proof. intros. eapply via_mono; [eapply deep_cmyk; eassumption|]. intros m d K. unfold back_near, same8 in K. cbv zeta in * . intuition auto. Qed.
Lemma keep8_cmyk' : forall o (h : heap f32) p c r g b a, at_addr h p c -> @wf_color f32 (F32 o) RGB_TRUE c ->
  is_byte r -> is_byte g -> is_byte b -> is_byte a -> has_bytes r g b c -> is_value (@alpha f32 (F32 o) c) (IZR a) ->
  via (@to_cmyk f32 (F32 o)) (@to_rgb_true f32 (F32 o)) h p (fun m d => ty m = CMYK /\ has_bytes r g b d /\
    is_value (@alpha f32 (F32 o) d) (IZR a) /\ rgb_space d = rgb_space c).
Proof. intros o h p c r g b a. intros. eapply via_mono; [apply (keep8_cmyk o h p c r g b a); assumption|]. intros m d K. unfold back_near, same8 in K. cbv zeta in * . intuition auto. Qed.
Lemma keep8_hsv' : forall o (h : heap f32) p c r g b a, at_addr h p c -> @wf_color f32 (F32 o) RGB_TRUE c ->
  is_byte r -> is_byte g -> is_byte b -> is_byte a -> has_bytes r g b c -> is_value (@alpha f32 (F32 o) c) (IZR a) ->
  ~ ((g < b <= r)%Z /\ (60 * (b - g) + 30 <= r - g)%Z) ->
  via (@to_hsv f32 (F32 o)) (@to_rgb_true f32 (F32 o)) h p (fun m d => ty m = HSV /\ has_bytes r g b d /\
    is_value (@alpha f32 (F32 o) d) (IZR a) /\ rgb_space d = rgb_space c).
Proof. intros o h p c r g b a. intros. eapply via_mono; [apply (keep8_hsv o h p c r g b a); assumption|]. intros m d K. unfold back_near, same8 in K. cbv zeta in * . intuition auto. Qed.
Lemma keep8_hcy' : forall o (h : heap f32) p c r g b a, at_addr h p c -> @wf_color f32 (F32 o) RGB_TRUE c ->
  is_byte r -> is_byte g -> is_byte b -> is_byte a -> has_bytes r g b c -> is_value (@alpha f32 (F32 o) c) (IZR a) ->
  ~ ((g < b <= r)%Z /\ (60 * (b - g) + 30 <= r - g)%Z) ->
  via (@to_hcy f32 (F32 o)) (@to_rgb_true f32 (F32 o)) h p (fun m d => ty m = HCY /\ has_bytes r g b d /\
    is_value (@alpha f32 (F32 o) d) (IZR a) /\ rgb_space d = rgb_space c).
Proof. intros o h p c r g b a. intros. eapply via_mono; [apply (keep8_hcy o h p c r g b a); assumption|]. intros m d K. unfold back_near, same8 in K. cbv zeta in * . intuition auto. Qed.
