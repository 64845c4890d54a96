(** * The conversions back to RGB in binary32 (C209) *)
From Coq Require Import ZArith QArith Reals Lra Lia List Bool.
From Flocq Require Import Core IEEE754.BinarySingleNaN.
From Verif Require Import Arith Outcome ColorModel GammaModel MatrixModel SpaceModel Heap Converter F32 F32Facts RArith
  Spec Spec32 Laws NormalForms Alpha8 Core_Proofs Core2_Proofs Core3_Proofs Core4_Proofs Hue32 Spec_Matrix Spec_Conv Spec_Round
  Conv_Proofs Conv2_Proofs Run_Proofs HueR_Proofs Round_Proofs Round2_Proofs Error_Proofs Error2_Proofs Error3_Proofs Error4_Proofs Error5_Proofs Error6_Proofs Spec_Error Spec_Formula Spec_Channels Blend2_Proofs Sum_Proofs Formula_Proofs Oneway_Proofs.
Import ListNotations.
Local Open Scope R_scope.
Local Notation fin x := (is_finite x = true).
Local Notation fval := (@B2R 24 128).

Section E.
Context (o : oracle).
Local Notation "x +. y" := (@fadd f32 (F32 o) x y) (at level 50, left associativity).
Local Notation "x -. y" := (@fsub f32 (F32 o) x y) (at level 50, left associativity).
Local Notation "x *. y" := (@fmul f32 (F32 o) x y) (at level 40, left associativity).
Local Notation "x /. y" := (@fdiv f32 (F32 o) x y) (at level 40, left associativity).
Local Notation "$ n" := (fz (H := F32 o) n) (at level 2).
Local Notation c1 := (@c01 f32 (F32 o)).
Variables (h : heap f32) (p : nat) (c : color f32).
Hypothesis (Hp : at_addr h p c).

Lemma three_channels (a b g : R) e (d : color f32) x y z : comps d = [x; y; z] -> approx a e x -> approx b e y -> approx g e z -> channels [a; b; g] e d.
Proof. intros E A B G i v N. unfold comp_sat. rewrite E. destruct i as [|[|[|i]]]; cbn in N; try (destruct i; discriminate N); apply Some_inv in N; subst v; eexists; (split; [reflexivity|assumption]). Qed.

Section Hue.
Variables (x s v : f32).
Hypothesis (Ec : comps c = [x; s; v]).
Let X := fval x. Let S := fval s. Let V := fval v.
Lemma hue_parts k : (k = HSV \/ k = HSL \/ k = HCY) -> @wf_color f32 (F32 o) k c -> (fin x /\ 0 <= X <= 359) /\ (fin s /\ 0 <= S <= 1) /\ (fin v /\ 0 <= V <= 1).
Proof.
  intros Hk W. pose proof (wf_range _ _ W) as H. rewrite Ec in H. pose proof (H 0%nat x eq_refl) as H0. pose proof (H 1%nat s eq_refl) as H1. pose proof (H 2%nat v eq_refl) as H2.
  destruct Hk as [-> |[-> | ->]]; cbn [comp_range fst snd] in * ; apply within32 in H0, H1, H2; try sm; auto.
Qed.

Lemma luma_plain r g b : luma709 r g b = 2126 / 10000 * r + 7152 / 10000 * g + 722 / 10000 * b.
Proof. unfold luma709. lra. Qed.
Lemma near_to y a b e : near y a e -> a = b -> near y b e.
Proof. intros H <-. exact H. Qed.
Lemma mul_unit a b : 0 <= a <= 1 -> 0 <= b <= 1 -> 0 <= a * b <= 1.
Proof. intros A B. split; [apply Rmult_le_pos; lra|]. rewrite <- (Rmult_1_r 1). apply Rmult_le_compat; lra. Qed.
Lemma as_channel y a e b : near y a e -> 0 <= e <= / 131072 -> 0 <= a <= 1 -> a = b -> approx b (/ 131072) (c1 y).
Proof. intros N He Ba <-. eapply near_approx; [apply near_01; [exact N|lra|exact Ba]|lra]. Qed.

Lemma hsv_back : @wf_color f32 (F32 o) HSV c -> yields (@to_rgb_deep f32 (F32 o)) h p (fun d => ty d = RGB_DEEP /\
  channels (lifted (hexagon_rgb X (V * S)) (V - V * S)) (/ 131072) d /\ m_alpha d = m_alpha c /\ rgb_space d = rgb_space c).
Proof.
  intros W. destruct (hue_parts HSV ltac:(auto) W) as [[Fx Bx] [[Fs Bs] [Fv Bv]]].
  assert (Bt : 0 <= X / 60 < 6) by lra. destruct (unit_bounds (X / 60)) as [U1 [U2 U3]].
  assert (K : forall q, 0 <= q <= 1 -> 0 <= V - V * S * (1 - q) <= 1).
  { intros q Hq. assert (A : 0 <= S * (1 - q) <= 1) by (apply mul_unit; lra). replace (V - V * S * (1 - q)) with (V * (1 - S * (1 - q))) by ring. apply mul_unit; lra. }
  destruct (hsv_of_unit X S V Bt) as [H1 [H2 H3]]. cbv zeta in H1, H2, H3.
  assert (C : forall n, (n = 1 \/ n = 3 \/ n = 5)%Z -> near (@hsv_to_rgb_helper f32 (F32 o) x s v $n) (hsv_to_rgb_helper (AF := RArith) X S V (IZR n)) (64 * u)).
  { intros n Hn. apply (hsv_helper_close o x s v X S V 0 n); auto; try lra; try num; [eapply near_weaken; [apply near_self, Fx|num]|apply near_self, Fs]. }
  pose proof (C 5%Z ltac:(auto)) as C5. pose proof (C 3%Z ltac:(auto)) as C3. pose proof (C 1%Z ltac:(auto)) as C1. rewrite H1 in C5. rewrite H2 in C3. rewrite H3 in C1.
  eapply (yields_leaf (@to_rgb_deep f32 (F32 o)) HSV (@hsv_to_rgb_deep_f f32 (F32 o)) h p c); [disp|exact Hp|exact W| |].
  - unfold hsv_to_rgb_deep_f, with3. rewrite Ec. rewrite rgb_deepcolor_nf. rewrite (alpha_std c _ W eq_refl). reflexivity.
  - split; [reflexivity|]. split; [|split; reflexivity]. rewrite hexagon_unit by lra. unfold lifted.
    eapply three_channels; [reflexivity| | |]; (eapply as_channel; [eassumption|num|apply K; assumption|ring]).
Qed.

Lemma hsl_back : @wf_color f32 (F32 o) HSL c -> forall C, C = (1 - Rabs (2 * V - 1)) * S -> yields (@to_rgb_deep f32 (F32 o)) h p (fun d => ty d = RGB_DEEP /\
  channels (lifted (hexagon_rgb X C) (V - C / 2)) (/ 131072) d /\ (V <> 0 -> m_alpha d = m_alpha c) /\ rgb_space d = rgb_space c).
Proof.
  intros W C0 EC. destruct (hue_parts HSL ltac:(auto) W) as [[Fx Bx] [[Fs Bs] [Fv Bv]]].
  assert (Bt : 0 <= X / 60 < 6) by lra. destruct (unit_bounds (X / 60)) as [U1 [U2 U3]].
  assert (EM : 1 - Rabs (2 * V - 1) = 2 * Rmin V (1 - V)).
  { unfold Rabs, Rmin. destruct (Rcase_abs _), (Rle_dec _ _); lra. }
  rewrite EM in EC. assert (BM : 0 <= Rmin V (1 - V) /\ Rmin V (1 - V) <= V /\ Rmin V (1 - V) <= 1 - V) by (split; [apply Rmin_glb; lra|split; [apply Rmin_l|apply Rmin_r]]).
  set (M := Rmin V (1 - V)) in * .
  assert (K : forall q, 0 <= q <= 1 -> 0 <= V - S * M * (1 - 2 * q) <= 1).
  { intros q Hq. assert (A : 0 <= S * M <= M). { split; [apply Rmult_le_pos; lra|]. rewrite <- (Rmult_1_l M) at 2. apply Rmult_le_compat_r; lra. }
    assert (- (S * M) <= S * M * (1 - 2 * q) <= S * M) by (split; [apply Rle_trans with (S * M * -1); [lra|apply Rmult_le_compat_l; lra]|apply Rle_trans with (S * M * 1); [apply Rmult_le_compat_l; lra|lra]]). lra. }
  destruct (Req_dec V 0) as [Z|Z].
  - eapply (yields_leaf (@to_rgb_deep f32 (F32 o)) HSL (@hsl_to_rgb_deep_f f32 (F32 o)) h p c); [disp|exact Hp|exact W| |].
    + unfold hsl_to_rgb_deep_f, with3. rewrite Ec. destruct (fz_val o 0) as [F0 V0]; [sm|]. rewrite (eq_val o v $0 Fv F0) by (rewrite V0; exact Z). rewrite rgb_deepcolor1_nf. reflexivity.
    + split; [reflexivity|]. split; [|split; [intros N; contradiction (N Z)|reflexivity]].
      assert (M = 0) by lra. rewrite EC, H, Z. rewrite hexagon_unit by lra. unfold lifted. assert (N0 : near (c1 $0) 0 0) by (apply near_01; [apply near_fz; sm|lra|lra]).
      eapply three_channels; [reflexivity| | |]; (eapply near_approx; [match goal with |- near _ ?a _ => replace a with 0 by field end; exact N0|lra]).
  - destruct (hsl_of_unit X S V Bt) as [H1 [H2 H3]]. cbv zeta in H1, H2, H3. fold M in H1, H2, H3.
    assert (C : forall n, (n = 0 \/ n = 4 \/ n = 8)%Z -> near (@hsl_to_rgb_helper f32 (F32 o) x s v $n) (hsl_to_rgb_helper (AF := RArith) X S V (IZR n)) (60 * u)).
    { intros n Hn. apply (hsl_helper_close o x s v X S V 0 n); auto; try lra; try num; [eapply near_weaken; [apply near_self, Fx|num]|apply near_self, Fs|eapply near_weaken; [apply near_self, Fv|num]]. }
    pose proof (C 0%Z ltac:(auto)) as C5. pose proof (C 8%Z ltac:(auto)) as C3. pose proof (C 4%Z ltac:(auto)) as C1. rewrite H1 in C5. rewrite H2 in C3. rewrite H3 in C1.
    eapply (yields_leaf (@to_rgb_deep f32 (F32 o)) HSL (@hsl_to_rgb_deep_f f32 (F32 o)) h p c); [disp|exact Hp|exact W| |].
    + unfold hsl_to_rgb_deep_f, with3. rewrite Ec. destruct (fz_val o 0) as [F0 V0]; [sm|]. rewrite (ne_val o v $0 Fv F0) by (rewrite V0; exact Z). rewrite rgb_deepcolor_nf. rewrite (alpha_std c _ W eq_refl). reflexivity.
    + split; [reflexivity|]. split; [|split; reflexivity]. rewrite hexagon_unit by lra. unfold lifted. rewrite EC.
      eapply three_channels; [reflexivity| | |]; (eapply as_channel; [eassumption|num|apply K; assumption|field]).
Qed.

Lemma hcy_back : @wf_color f32 (F32 o) HCY c -> yields (@to_rgb_deep f32 (F32 o)) h p (fun d => ty d = RGB_DEEP /\
  (forall r g b, hexagon_rgb X S = (r, g, b) -> channels (map (cut 0 1) (lifted (r, g, b) (V - luma709 r g b))) (/ 131072) d) /\ m_alpha d = m_alpha c /\ rgb_space d = rgb_space c).
Proof.
  intros W. destruct (hue_parts HCY ltac:(auto) W) as [[Fx Bx] [[Fs Bs] [Fv Bv]]].
  assert (Bt : 0 <= X / 60 < 6) by lra. destruct (unit_bounds (X / 60)) as [U1 [U2 U3]].
  assert (Nh : near x X (900 * u)) by (eapply near_weaken; [apply near_self, Fx|num]).
  assert (Nc : near s S (11 / 10 * u)) by (eapply near_weaken; [apply near_self, Fs|num]).
  assert (Nl : near v V (5 * u)) by (eapply near_weaken; [apply near_self, Fv|num]).
  destruct (hcy_rgb o x X Nh Bx) as [N1 [N2 N3]]. destruct (hcy_y o x X Nh Bx) as [NY BY].
  assert (K : forall q, 0 <= q <= 1 -> -1 <= (q - (ur (X / 60) * (2126 / 10000) + ug (X / 60) * (7152 / 10000) + ub (X / 60) * (722 / 10000))) * S + V <= 2).
  { intros q Hq. set (D := q - _). assert (-1 <= D <= 1) by (unfold D; lra). assert (- S <= D * S <= S) by (split; [apply Rle_trans with (-1 * S); [lra|apply Rmult_le_compat_r; lra]|apply Rle_trans with (1 * S); [apply Rmult_le_compat_r; lra|lra]]). lra. }
  pose proof (hcy_chan o x s v X S V Nh Bx Nc Bs Nl _ _ N1 U1 (K _ U1)) as Q1.
  pose proof (hcy_chan o x s v X S V Nh Bx Nc Bs Nl _ _ N2 U2 (K _ U2)) as Q2.
  pose proof (hcy_chan o x s v X S V Nh Bx Nc Bs Nl _ _ N3 U3 (K _ U3)) as Q3.
  eapply (yields_leaf (@to_rgb_deep f32 (F32 o)) HCY (@hcy_to_rgb_deep_f f32 (F32 o)) h p c); [disp|exact Hp|exact W| |].
  - unfold hcy_to_rgb_deep_f, with3. rewrite Ec. rewrite rgb_deepcolor_nf. rewrite (alpha_std c _ W eq_refl). reflexivity.
  - split; [reflexivity|]. split; [|split; reflexivity]. intros r g b E. rewrite hexagon_unit in E by lra. inversion E; subst r g b. cbn [lifted map].
    assert (L : forall a, cut 0 1 a = Rmax (Rmin a 1) 0) by (intros a; unfold cut; rewrite (Rmin_comm 1), (Rmax_comm 0); reflexivity).
    eapply three_channels; [reflexivity| | |]; rewrite L.
    + eapply near_approx; [apply near_c01; [refine (near_to _ _ _ _ Q1 _); rewrite luma_plain; field|num]|num].
    + eapply near_approx; [apply near_c01; [refine (near_to _ _ _ _ Q2 _); rewrite luma_plain; field|num]|num].
    + eapply near_approx; [apply near_c01; [refine (near_to _ _ _ _ Q3 _); rewrite luma_plain; field|num]|num].
Qed.
End Hue.

Lemma cmyk_back cy m y k : @wf_color f32 (F32 o) CMYK c -> comps c = [cy; m; y; k] -> yields (@to_rgb_deep f32 (F32 o)) h p (fun d => ty d = RGB_DEEP /\
  channels [(1 - fval cy) * (1 - fval k); (1 - fval m) * (1 - fval k); (1 - fval y) * (1 - fval k)] (/ 4194304) d /\ m_alpha d = m_alpha c /\ rgb_space d = rgb_space c).
Proof.
  intros W Ec. pose proof (wf_range _ _ W) as H. rewrite Ec in H. pose proof (H 0%nat cy eq_refl) as H0. pose proof (H 1%nat m eq_refl) as H1. pose proof (H 2%nat y eq_refl) as H2. pose proof (H 3%nat k eq_refl) as H3.
  cbn [comp_range fst snd] in * . apply within32 in H0, H1, H2, H3; try sm.
  assert (N1 : forall q, (fin q /\ 0 <= fval q <= 1) -> near ($1 -. q) (1 - fval q) (101 / 100 * u)).
  { intros q [Fq Bq]. eapply near_weaken; [apply (near_sub o _ _ _ _ _ _ 1 (near_one o) (near_self q Fq))|]; try (apply Rabs_le; lra); num. }
  assert (N2 : forall q, (fin q /\ 0 <= fval q <= 1) -> near (c1 (($1 -. q) *. ($1 -. k))) ((1 - fval q) * (1 - fval k)) (4 * u)).
  { intros q Hq. assert (0 <= (1 - fval q) * (1 - fval k) <= 1) by (apply mul_unit; lra). apply near_01; [|num|assumption].
    eapply near_weaken; [apply (near_mul o _ _ _ _ _ _ 1 1 1 (N1 q Hq) (N1 k H3))|]; try (apply Rabs_le; lra); num. }
  eapply (yields_leaf (@to_rgb_deep f32 (F32 o)) CMYK (@cmyk_to_rgb_deep_f f32 (F32 o)) h p c); [disp|exact Hp|exact W| |].
  - unfold cmyk_to_rgb_deep_f, with4. rewrite Ec. rewrite rgb_deepcolor_nf. rewrite (alpha_std c _ W eq_refl). reflexivity.
  - split; [reflexivity|]. split; [|split; reflexivity].
    eapply three_channels; [reflexivity| | |]; (eapply near_approx; [apply N2; assumption|num]).
Qed.
End E.

Lemma hue_exist o k : (k = HSV \/ k = HSL \/ k = HCY) -> exists (h : heap f32) c x s v, at_addr h 0%nat c /\ @wf_color f32 (F32 o) k c /\ comps c = [x; s; v] /\ B2R x = 200 /\ B2R s = 1 /\ B2R v = 1.
Proof.
  intros Hk. destruct (fz_val o 200) as [FH VH]; [sm|]. destruct (fz_val o 1) as [F1 V1]; [sm|].
  destruct (c01_val o (fz (H := F32 o) 1) F1) as [_ E1]; [rewrite V1; lra|].
  destruct (hue_norm_up o (fz (H := F32 o) 200) 200 0) as [_ EH]; [apply near_fz; sm|lra|lra|lra|]. rewrite V1 in E1. rewrite VH in EH.
  destruct Hk as [-> |[-> | ->]].
  - destruct (hsv_made (AF := F32 o) (@fz f32 (F32 o) 200) (@fz f32 (F32 o) 1) (@fz f32 (F32 o) 1) (@fz f32 (F32 o) 1) None) as [c [E [W _]]]. rewrite hsv_nf in E.
    exists (Heap [c] []), c. do 3 eexists. split; [reflexivity|]. split; [exact W|]. apply Ok_inj in E. rewrite <- E. split; [reflexivity|]. auto.
  - destruct (hsl_made (AF := F32 o) (@fz f32 (F32 o) 200) (@fz f32 (F32 o) 1) (@fz f32 (F32 o) 1) (@fz f32 (F32 o) 1) None) as [c [E [W _]]]. rewrite hsl_nf in E.
    exists (Heap [c] []), c. do 3 eexists. split; [reflexivity|]. split; [exact W|]. apply Ok_inj in E. rewrite <- E. split; [reflexivity|]. auto.
  - destruct (hcy_made (AF := F32 o) (@fz f32 (F32 o) 200) (@fz f32 (F32 o) 1) (@fz f32 (F32 o) 1) (@fz f32 (F32 o) 1) None) as [c [E [W _]]]. rewrite hcy_nf in E.
    exists (Heap [c] []), c. do 3 eexists. split; [reflexivity|]. split; [exact W|]. apply Ok_inj in E. rewrite <- E. split; [reflexivity|]. auto.
Qed.
Lemma cmyk_exist o : exists (h : heap f32) c x y z k, at_addr h 0%nat c /\ @wf_color f32 (F32 o) CMYK c /\ comps c = [x; y; z; k] /\ B2R x = 1 /\ B2R y = 0 /\ B2R z = 0 /\ B2R k = 0.
Proof.
  destruct (fz_val o 0) as [F0 V0]; [sm|]. destruct (fz_val o 1) as [F1 V1]; [sm|].
  destruct (c01_val o (fz (H := F32 o) 1) F1) as [_ E1]; [rewrite V1; lra|]. destruct (c01_val o (fz (H := F32 o) 0) F0) as [_ E0]; [rewrite V0; lra|]. rewrite V1 in E1. rewrite V0 in E0.
  destruct (cmyk_made (AF := F32 o) (@fz f32 (F32 o) 1) (@fz f32 (F32 o) 0) (@fz f32 (F32 o) 0) (@fz f32 (F32 o) 0) (@fz f32 (F32 o) 1) None) as [c [E [W _]]]. rewrite cmyk_nf in E.
  exists (Heap [c] []), c. do 4 eexists. split; [reflexivity|]. split; [exact W|]. apply Ok_inj in E. rewrite <- E. split; [reflexivity|]. auto.
Qed.

Lemma oneway_hsv : forall o (h : heap f32) p c r g b, at_addr h p c -> @wf_color f32 (F32 o) RGB_DEEP c -> comps c = [r; g; b] ->
  forall R G B, R = B2R r -> G = B2R g -> B = B2R b ->
  yields (@to_hsv f32 (F32 o)) h p (fun m => ty m = HSV /\ comp_sat m 0 (approx (Rmin (hexagon_hue R G B) 359) (/ 16384)) /\
    comp_sat m 1 (approx (if Req_EM_T (largest R G B) 0 then 0 else (largest R G B - smallest R G B) / largest R G B) (/ 4194304)) /\
    comp_sat m 2 (fun x => is_value x (largest R G B)) /\ m_alpha m = m_alpha c /\ rgb_space m = rgb_space c).
Proof. intros o h p c r g b Hp W Ec R G B -> -> ->. exact (hsv_oneway o h p c r g b Hp W Ec). Qed.

Lemma oneway_hsl : forall o (h : heap f32) p c r g b, at_addr h p c -> @wf_color f32 (F32 o) RGB_DEEP c -> comps c = [r; g; b] ->
  forall R G B, R = B2R r -> G = B2R g -> B = B2R b ->
  yields (@to_hsl f32 (F32 o)) h p (fun m => ty m = HSL /\ comp_sat m 0 (approx (Rmin (hexagon_hue R G B) 359) (/ 16384)) /\
    comp_sat m 1 (fun x => is_finite x = true /\ forall S, S = (if Req_EM_T (largest R G B) (smallest R G B) then 0 else (largest R G B - smallest R G B) / (1 - Rabs (largest R G B + smallest R G B - 1))) ->
      Rabs (B2R x - S) * (1 - Rabs (largest R G B + smallest R G B - 1)) <= / 262144) /\
    comp_sat m 2 (approx ((largest R G B + smallest R G B) / 2) (/ 4194304)) /\ m_alpha m = m_alpha c /\ rgb_space m = rgb_space c).
Proof. intros o h p c r g b Hp W Ec R G B -> -> ->. exact (hsl_oneway o h p c r g b Hp W Ec). Qed.

Lemma oneway_hsi : forall o (h : heap f32) p c r g b, at_addr h p c -> @wf_color f32 (F32 o) RGB_DEEP c -> comps c = [r; g; b] ->
  forall R G B, R = B2R r -> G = B2R g -> B = B2R b ->
  yields (@to_hsi f32 (F32 o)) h p (fun m => ty m = HSI /\ comp_sat m 0 (approx (Rmin (hexagon_hue R G B) 359) (/ 16384)) /\
    comp_sat m 1 (fun x => is_finite x = true /\ (/ 1073741824 <= largest R G B -> Rabs (B2R x - (1 - smallest R G B / ((R + G + B) / 3))) <= / 2097152)) /\
    comp_sat m 2 (approx ((R + G + B) / 3) (/ 4194304)) /\ m_alpha m = m_alpha c /\ rgb_space m = rgb_space c).
Proof. intros o h p c r g b Hp W Ec R G B -> -> ->. exact (hsi_oneway o h p c r g b Hp W Ec). Qed.

Lemma oneway_hcy : forall o (h : heap f32) p c r g b, at_addr h p c -> @wf_color f32 (F32 o) RGB_DEEP c -> comps c = [r; g; b] ->
  forall R G B, R = B2R r -> G = B2R g -> B = B2R b ->
  yields (@to_hcy f32 (F32 o)) h p (fun m => ty m = HCY /\ comp_sat m 0 (approx (Rmin (hexagon_hue R G B) 359) (/ 16384)) /\
    comp_sat m 1 (approx (largest R G B - smallest R G B) (/ 8388608)) /\ comp_sat m 2 (approx (luma709 R G B) (/ 2097152)) /\ m_alpha m = m_alpha c /\ rgb_space m = rgb_space c).
Proof. intros o h p c r g b Hp W Ec R G B -> -> ->. exact (hcy_oneway o h p c r g b Hp W Ec). Qed.

Lemma oneway_cmyk : forall o (h : heap f32) p c r g b, at_addr h p c -> @wf_color f32 (F32 o) RGB_DEEP c -> comps c = [r; g; b] ->
  forall R G B, R = B2R r -> G = B2R g -> B = B2R b ->
  0 < largest R G B -> yields (@to_cmyk f32 (F32 o)) h p (fun m => ty m = CMYK /\
    (forall i x, In (i, x) [(0%nat, R); (1%nat, G); (2%nat, B)] -> comp_sat m i (fun y => is_finite y = true /\ Rabs (B2R y - (largest R G B - x) / largest R G B) * largest R G B <= / 524288)) /\
    comp_sat m 3 (approx (1 - largest R G B) (/ 8388608)) /\ m_alpha m = m_alpha c /\ rgb_space m = rgb_space c).
Proof. intros o h p c r g b Hp W Ec R G B -> -> ->. exact (cmyk_oneway o h p c r g b Hp W Ec). Qed.
