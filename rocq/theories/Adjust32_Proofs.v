(** * The adjustments in RGB in binary32 *)
From Coq Require Import ZArith QArith Reals Lra Lia List Bool.
From Flocq Require Import Core IEEE754.BinarySingleNaN.
From Verif Require Import Calculation Blend Adjust Spec_Calc Spec_Blend Spec_Adjust Calc_Proofs Adjust_Proofs.
From Verif Require Import Arith Outcome ColorModel GammaModel MatrixModel SpaceModel Heap Converter F32 F32Facts RArith
  Spec Spec32 Laws NormalForms Alpha8 Core_Proofs Core2_Proofs Core3_Proofs Core4_Proofs Hue32 Spec_Matrix Spec_Conv Spec_Round
  Conv_Proofs Conv2_Proofs Conv3_Proofs Run_Proofs HueR_Proofs Round_Proofs Round2_Proofs Error_Proofs Error2_Proofs Error3_Proofs Error4_Proofs Error5_Proofs Error6_Proofs Error7_Proofs
  Spec_Error Spec_Byte Spec_Order Grey32_Proofs Blend2_Proofs Spec_Calc.
Import ListNotations.
Local Open Scope R_scope.
Local Notation fin x := (is_finite x = true).
Local Notation cut1 x := (Rmax 0 (Rmin x 1)).

Lemma cut1_lip a b e : Rabs (a - b) <= e -> Rabs (cut1 a - cut1 b) <= e.
Proof. intros H. apply Rabs_le_inv in H. apply Rabs_le. unfold Rmax, Rmin. repeat destruct Rle_dec; lra. Qed.
Lemma cut1_le a b : a <= b -> cut1 a <= cut1 b.
Proof. intros H. unfold Rmax, Rmin. repeat destruct Rle_dec; lra. Qed.
Lemma cut1_id a : 0 <= a <= 1 -> cut1 a = a.
Proof. intros H. unfold Rmax, Rmin. repeat destruct Rle_dec; lra. Qed.

Section E.
Context (o : oracle).
Local Notation "x +. y" := (@fadd f32 (F32 o) x y) (at level 50, left associativity).
Local Notation "x -. y" := (@fsub f32 (F32 o) x y) (at level 50, left associativity).
Local Notation "x *. y" := (@fmul f32 (F32 o) x y) (at level 40, left associativity).
Local Notation "x /. y" := (@fdiv f32 (F32 o) x y) (at level 40, left associativity).
Local Notation "$ n" := (fz (H := F32 o) n) (at level 2).
Local Notation c1 := (@c01 f32 (F32 o)).
Local Notation tobyte x := (@c255 f32 (F32 o) (@fround f32 (F32 o) (x *. $255))).

Lemma c01_cut x : fin x -> is_value (c1 x) (cut1 (fval x)).
Proof.
  intros F. unfold c01. pose proof (clamp_val o x 0 1 ltac:(sm) ltac:(sm) ltac:(lia) F) as V. rewrite Rmax_comm in V. exact V.
Qed.
Lemma near_cut x a e : near x a e -> near (c1 x) (cut1 a) e.
Proof. intros [F N]. destruct (c01_cut x F) as [F' V]. split; [exact F'|]. change (fval (c1 x) = cut1 (fval x)) in V. rewrite V. apply cut1_lip, N. Qed.

(** ** One channel *)
Local Notation w1 := (@lit f32 (F32 o) (299 # 1000)).
Local Notation w2 := (@lit f32 (F32 o) (587 # 1000)).
Local Notation w3 := (@lit f32 (F32 o) (114 # 1000)).
Definition sat1 (p l x : f32) : f32 := x -. p *. (l -. x).
Definition lum1 (p x : f32) : f32 := x *. ($1 +. p).
Definition luma1 (r g b : f32) : f32 := w1 *. r +. w2 *. g +. w3 *. b.

Lemma weights : near w1 (299 / 1000) (u / 2) /\ near w2 (587 / 1000) u /\ near w3 (114 / 1000) (u / 2).
Proof.
  split; [|split].
  - destruct (fval_SF w1 false 10032775 (-25)) as [F V]; [vm_compute; reflexivity|]. split; [exact F|]. change (Rabs (fval w1 - 299 / 1000) <= u / 2). rewrite V. unfold F2R. cbn. apply Rabs_le. num.
  - destruct (fval_SF w2 false 9848226 (-24)) as [F V]; [vm_compute; reflexivity|]. split; [exact F|]. change (Rabs (fval w2 - 587 / 1000) <= u). rewrite V. unfold F2R. cbn. apply Rabs_le. num.
  - destruct (fval_SF w3 false 15300821 (-27)) as [F V]; [vm_compute; reflexivity|]. split; [exact F|]. change (Rabs (fval w3 - 114 / 1000) <= u / 2). rewrite V. unfold F2R. cbn. apply Rabs_le. num.
Qed.
(** the error of the luma *)
Lemma luma_near r g b R G B e : near r R e -> near g G e -> near b B e -> 0 <= R <= 1 -> 0 <= G <= 1 -> 0 <= B <= 1 -> 0 <= e <= 11 / 10 * u ->
  near (luma1 r g b) (luma R G B) (e + 5 * u) /\ 0 <= luma R G B <= 1.
Proof.
  intros Nr Ng Nb HR HG HB He. destruct weights as [N1 [N2 N3]]. unfold luma1, luma. split; [|lra].
  assert (P1 : near (w1 *. r) (299 / 1000 * R) (3 / 10 * e + 81 / 100 * u)).
  { eapply near_weaken; [apply (near_mul o w1 r _ _ _ _ (299 / 1000) 1 (299 / 1000) N1 Nr)|]; [apply Rabs_le; lra|apply Rabs_le; lra|apply Rabs_le; lra|num|num]. }
  assert (P2 : near (w2 *. g) (587 / 1000 * G) (6 / 10 * e + 16 / 10 * u)).
  { eapply near_weaken; [apply (near_mul o w2 g _ _ _ _ (587 / 1000) 1 (587 / 1000) N2 Ng)|]; [apply Rabs_le; lra|apply Rabs_le; lra|apply Rabs_le; lra|num|num]. }
  assert (P3 : near (w3 *. b) (114 / 1000 * B) (115 / 1000 * e + 63 / 100 * u)).
  { eapply near_weaken; [apply (near_mul o w3 b _ _ _ _ (114 / 1000) 1 (114 / 1000) N3 Nb)|]; [apply Rabs_le; lra|apply Rabs_le; lra|apply Rabs_le; lra|num|num]. }
  assert (P4 : near (w1 *. r +. w2 *. g) (299 / 1000 * R + 587 / 1000 * G) (9 / 10 * e + 33 / 10 * u)).
  { eapply near_weaken; [apply (near_add o _ _ _ _ _ _ (886 / 1000) P1 P2)|]; [apply Rabs_le; lra|num|num]. }
  eapply near_weaken; [apply (near_add o _ _ _ _ _ _ 1 P4 P3)|]; [apply Rabs_le; lra|num|num].
Qed.
Lemma sat_near p l x L X e : fin p -> -8 <= fval p <= 8 -> near l L (e + 5 * u) -> near x X e -> 0 <= L <= 1 -> 0 <= X <= 1 -> 0 <= e <= 11 / 10 * u ->
  near (sat1 p l x) (X + fval p * (X - L)) (88 * u).
Proof.
  intros Fp Bp Nl Nx HL HX He. unfold sat1. replace (X + fval p * (X - L)) with (X - fval p * (L - X)) by ring.
  assert (D : near (l -. x) (L - X) (83 / 10 * u)). { eapply near_weaken; [apply (near_sub o _ _ _ _ _ _ 1 Nl Nx)|]; [apply Rabs_le; lra|num|num]. }
  assert (Q : Rabs (fval p * (L - X)) <= 8). { rewrite Rabs_mult. replace 8 with (8 * 1) by ring. apply Rmult_le_compat; try apply Rabs_pos; apply Rabs_le; lra. }
  assert (M : near (p *. (l -. x)) (fval p * (L - X)) (75 * u)).
  { eapply near_weaken; [apply (near_mul o p (l -. x) (fval p) (L - X) 0 _ 8 1 8 (near_self p Fp) D)|]; [apply Rabs_le; lra|apply Rabs_le; lra|exact Q|num|num]. }
  eapply near_weaken; [apply (near_sub o _ _ _ _ _ _ 9 Nx M)|]; [apply Rabs_le_inv in Q; apply Rabs_le; lra|num|num].
Qed.
Lemma lum_near p x X e : fin p -> -8 <= fval p <= 8 -> near x X e -> 0 <= X <= 1 -> 0 <= e <= 11 / 10 * u -> near (lum1 p x) (X * (1 + fval p)) (32 * u).
Proof.
  intros Fp Bp Nx HX He. unfold lum1.
  assert (S : near ($1 +. p) (1 + fval p) (91 / 10 * u)). { eapply near_weaken; [apply (near_add o _ _ _ _ 0 0 9 (near_one o) (near_self p Fp))|]; [apply Rabs_le; lra|num|num]. }
  assert (Q : Rabs (X * (1 + fval p)) <= 9). { rewrite Rabs_mult. replace 9 with (1 * 9) by ring. apply Rmult_le_compat; try apply Rabs_pos; apply Rabs_le; lra. }
  eapply near_weaken; [apply (near_mul o _ _ _ _ _ _ 1 9 9 Nx S)|]; [apply Rabs_le; lra|apply Rabs_le; lra|exact Q|num|num].
Qed.
(** the three channels of the result *)
Definition step (a : adjustment) (p r g b : f32) : list f32 :=
  match a with SaturateRGB => map (sat1 p (luma1 r g b)) [r; g; b] | _ => map (lum1 p) [r; g; b] end.
Lemma step_near a p r g b R G B e : in_hsl a = false -> fin p -> -8 <= fval p <= 8 -> near r R e -> near g G e -> near b B e -> 0 <= R <= 1 -> 0 <= G <= 1 -> 0 <= B <= 1 -> 0 <= e <= 11 / 10 * u ->
  Forall2 (fun v x => near (c1 x) v (88 * u)) (adjusted a (fval p) R G B) (step a p r g b).
Proof.
  intros Ha Fp Bp Nr Ng Nb HR HG HB He. destruct (luma_near r g b R G B e Nr Ng Nb HR HG HB He) as [NL BL].
  destruct a; try discriminate Ha; cbn [adjusted step map]; repeat (apply Forall2_cons; [apply near_cut|]); try apply Forall2_nil.
  all: first [solve [eapply sat_near; eauto]|eapply near_weaken; [eapply lum_near; eauto|num]].
Qed.

(** ** The run for deep RGB colours *)
Lemma deep_run a p (h : heap f32) i (c : color f32) r g b : in_hsl a = false -> at_addr h i c -> @wf_color f32 (F32 o) RGB_DEEP c -> comps c = [r; g; b] ->
  returns (@adjust f32 (F32 o) a (Some i) p) h (fun t => ty t = RGB_DEEP /\ comps t = map c1 (step a p r g b) /\ m_alpha t = m_alpha c /\ rgb_space t = rgb_space c).
Proof.
  intros Ha H W E.
  assert (St : exists f, @adjust f32 (F32 o) a (Some i) p = @adjust_rgb f32 (F32 o) f (Some i) /\ @rgb_step f32 (F32 o) f /\
    forall t, f (rgb_space c) c = Ok t -> comps t = map c1 (step a p r g b)).
  { destruct a; try discriminate Ha.
    - exists (@saturate_rgb_f f32 (F32 o) p). split; [reflexivity|]. split; [apply saturate_step|]. intros t Et. unfold saturate_rgb_f, with3 in Et. rewrite E in Et.
      cbv zeta in Et. rewrite rgb_deepcolor_nf in Et. apply Ok_inj in Et. rewrite <- Et. reflexivity.
    - exists (@luminate_rgb_f f32 (F32 o) p). split; [reflexivity|]. split; [apply luminate_step|]. intros t Et. unfold luminate_rgb_f, with3 in Et. rewrite E in Et.
      cbv zeta in Et. rewrite rgb_deepcolor_nf in Et. apply Ok_inj in Et. rewrite <- Et. reflexivity. }
  destruct St as [f [-> [S K]]].
  destruct (adjust_rgb_run (AF := F32 o) f h RGB_DEEP i c S H W ltac:(discriminate)) as [d [t [h1 [q [_ [_ [Id [Et [Wt [At [Sp [_ [_ [Aq Er]]]]]]]]]]]]]].
  rewrite (Id eq_refl) in Et, At. exists q, t, h1. split.
  { rewrite Er. apply (to_type_same (AF := F32 o) RGB_DEEP h1 q t Aq Wt). }
  split; [exact Aq|]. split; [apply (wf_ty _ _ Wt)|]. split; [apply K, Et|]. split; [|exact Sp]. rewrite At. apply (alpha_std (AF := F32 o) c RGB_DEEP W eq_refl).
Qed.
(** ** The run for 8-bit RGB colours *)
Lemma true_run a p (h : heap f32) i (c : color f32) r g b : in_hsl a = false -> at_addr h i c -> @wf_color f32 (F32 o) RGB_TRUE c -> comps c = [r; g; b] ->
  returns (@adjust f32 (F32 o) a (Some i) p) h (fun t => ty t = RGB_TRUE /\ cls t = RGB_TRUE /\
    comps t = map (fun x => tobyte (c1 x)) (step a p (c1 (r /. $255)) (c1 (g /. $255)) (c1 (b /. $255))) /\
    m_alpha t = c1 (@fround f32 (F32 o) (@alpha f32 (F32 o) c /. $255 *. $255) /. $255) /\ rgb_space t = rgb_space c).
Proof.
  intros Ha H W E.
  assert (D1 : dispatches (@to_rgb_deep f32 (F32 o)) RGB_TRUE (leaf RGB_TRUE (@rgb_true_to_rgb_deep_f f32 (F32 o)))) by disp.
  assert (D2 : dispatches (@to_rgb_true f32 (F32 o)) RGB_DEEP (leaf RGB_DEEP (@rgb_deep_to_rgb_true_f f32 (F32 o)))) by disp.
  set (x := c1 (r /. $255)). set (y := c1 (g /. $255)). set (z := c1 (b /. $255)).
  set (d := Color RGB_DEEP RGB_DEEP [x; y; z] (@alpha f32 (F32 o) c /. $255) $1 $0 (rgb_space c)).
  assert (Ed : @rgb_true_to_rgb_deep_f f32 (F32 o) c = Ok d) by (unfold rgb_true_to_rgb_deep_f, with3; rewrite E, rgb_deepcolor_nf; reflexivity).
  assert (Wd : @wf_color f32 (F32 o) RGB_DEEP d) by (destruct (@rgb_true_to_rgb_deep_ok f32 (F32 o) _ _ c W) as [m' [E' [Wm _]]]; congruence).
  set (t := Color RGB_DEEP RGB_DEEP (map c1 (step a p x y z)) (@alpha f32 (F32 o) c /. $255) $1 $0 (rgb_space c)).
  assert (St : exists f, @adjust f32 (F32 o) a (Some i) p = @adjust_rgb f32 (F32 o) f (Some i) /\ @rgb_step f32 (F32 o) f /\ f (rgb_space c) d = Ok t).
  { destruct a; try discriminate Ha.
    - exists (@saturate_rgb_f f32 (F32 o) p). split; [reflexivity|]. split; [apply saturate_step|]. unfold saturate_rgb_f, with3. cbn [comps d]. cbv zeta. rewrite rgb_deepcolor_nf. reflexivity.
    - exists (@luminate_rgb_f f32 (F32 o) p). split; [reflexivity|]. split; [apply luminate_step|]. unfold luminate_rgb_f, with3. cbn [comps d]. cbv zeta. rewrite rgb_deepcolor_nf. reflexivity. }
  destruct St as [f [-> [S Et]]]. destruct (S (rgb_space c) d Wd) as [t' [Et' [Wt _]]]. rewrite Et in Et'. apply Ok_inj in Et'. rewrite <- Et' in Wt. clear Et' t'.
  set (v := Color RGB_TRUE RGB_TRUE (map (fun x => tobyte (c1 x)) (step a p x y z)) (c1 (@fround f32 (F32 o) (@alpha f32 (F32 o) c /. $255 *. $255) /. $255)) $255 $0 (rgb_space c)).
  assert (Ev : @rgb_deep_to_rgb_true_f f32 (F32 o) t = Ok v).
  { unfold rgb_deep_to_rgb_true_f, with3, t. cbn [comps]. destruct a; try discriminate Ha; cbn [step map]; rewrite rgb_truecolor_nf; reflexivity. }
  set (h1 := pushed h d). set (h2 := pushed h1 t).
  assert (A1 : at_addr h1 (length (colors h)) d) by apply at_new. assert (A2 : at_addr h2 (length (colors h1)) t) by apply at_new.
  assert (H1 : at_addr h1 i c) by (apply (proj2 (unchanged_new h d)), H).
  exists (length (colors h2)), v, (pushed h2 v). split; [|split; [apply at_new|repeat split; reflexivity]].
  unfold adjust_rgb. unfold bind at 1. change (@convertTo f32 (F32 o) (Some i) RGB_DEEP h) with (@to_rgb_deep f32 (F32 o) (Some i) h).
  rewrite (D1 h i c H (wf_ty _ _ W)), (leaf_run RGB_TRUE _ h i c d H W Ed). fold h1.
  unfold bind at 1. rewrite (load_as_ok h1 _ d RGB_DEEP A1 Wd). unfold bind at 1, load at 1. pose proof H1 as K1. unfold at_addr in K1. rewrite K1.
  unfold bind at 1, lift at 1. rewrite Et. unfold bind at 1. cbn [alloc]. change (Heap (colors h1 ++ [t]) (spaces h1)) with h2.
  rewrite (wf_ty _ _ W). change (@convertTo f32 (F32 o) (Some (length (colors h1))) RGB_TRUE h2) with (@to_rgb_true f32 (F32 o) (Some (length (colors h1))) h2).
  rewrite (D2 h2 _ t A2 (wf_ty _ _ Wt)), (leaf_run RGB_DEEP _ h2 _ t v A2 Wt Ev). reflexivity.
Qed.
End E.
