(** * color_calculation: what every add, mix and subtract guarantees *)
From Coq Require Import ZArith QArith Reals Lra Lia List Bool.
From Flocq Require Import Core IEEE754.BinarySingleNaN.
From Verif Require Import Arith Outcome ColorModel GammaModel MatrixModel SpaceModel Heap Converter Calculation
  Spec F32 RArith F32Facts Spec32 Laws NormalForms Core_Proofs Core2_Proofs Core3_Proofs Alpha8 Spec_Matrix Spec_Conv Spec_Calc
  Conv_Proofs Conv2_Proofs Conv3_Proofs.
Import ListNotations.
Local Open Scope Z_scope.

(** The additional clamping of the 8-bit additions does not change an alpha. *)
Class Alpha8Wide (F : Type) {AF : Arith F} : Prop := {
  alpha8_wide : forall a : F, let b := fmul (alpha8 a) (fz 255) in fmin (fmax b (fz 0)) (fz 255) = b
}.
#[global] Instance F32Wide (o : oracle) : @Alpha8Wide f32 (F32 o).
Proof.
  constructor. intros a. cbv zeta. destruct (alpha8_stable o a) as [[Fm Rm] _].
  set (m := @alpha8 f32 (F32 o) a) in *.
  destruct (fz_val o 0) as [F0 V0]; [sm|]. destruct (fz_val o 255) as [F2 V2]; [sm|].
  set (z := @fz f32 (F32 o) 0) in *. set (k := @fz f32 (F32 o) 255) in *.
  assert (B : (IZR 0 <= fval m * fval k <= IZR 255)%R) by (rewrite V2; lra).
  destruct (Bmult_ok m k 0 255 Fm F2) as [P1 P2]; try sm; auto.
  cbn [fmul fmin fmax F32]. set (p := Bmult mode_NE m k) in *.
  assert (Rp : (IZR 0 <= fval p <= IZR 255)%R) by (rewrite P2; apply rnd32_bounds; try sm; auto).
  unfold fmax32. rewrite (fin_not_nan p), (fin_not_nan z) by assumption. rewrite Bltb_fin by assumption.
  rewrite Rlt_bool_false by (rewrite V0; lra).
  unfold fmin32. rewrite (fin_not_nan p), (fin_not_nan k) by assumption. rewrite Bltb_fin by assumption.
  rewrite Rlt_bool_false by (rewrite V2; lra). reflexivity.
Qed.
#[global] Instance RWide : @Alpha8Wide R RArith.
Proof.
  constructor. intros a. cbv zeta. unfold alpha8, clamp. rewrite !fzR. cbn [fdiv fmul fmin fmax RArith].
  pose proof (Rmax_r (Rmin (a / 255) 1) 0). assert (Rmax (Rmin (a / 255) 1) 0 <= 1)%R by (apply Rmax_lub; [apply Rmin_r|lra]).
  rewrite Rmax_left by lra. rewrite Rmin_left by lra. reflexivity.
Qed.

Section Calc.
Context {F : Type} {AF : Arith F} {AL : ArithLaws F} {A8 : Alpha8Laws F} {A9 : Alpha8Wide F}.
Local Notation color := (color F).
Local Notation heap := (heap F).
Local Notation M := (M F).

Definition keeps_alpha (c r : color) : Prop :=
  alpha_ok c -> alpha_form c -> ~ black_hsl c -> m_alpha r = m_alpha c.

(** [f] applied to two well-formed colours of type [X] (in usable RGB spaces if [X] is a
    CIE type) returns a new well-formed colour of type [X] with the RGB space of the
    first, and the alpha of the first if [keep]; nothing else changes. *)
Definition op_ok (keep : bool) (X : ctype) (f : ptr -> ptr -> M ptr) : Prop :=
  forall (h : heap) p1 c1 p2 c2, at_addr h p1 c1 -> at_addr h p2 c2 -> wf_color X c1 -> wf_color X c2 ->
  (cie X = true -> has_space h c1 /\ has_space h c2) ->
  exists q r h', f (Some p1) (Some p2) h = (Ok (Some q), h') /\ fresh h q /\ at_addr h' q r /\
    wf_color X r /\ rgb_space r = rgb_space c1 /\ unchanged h h' /\ (keep = true -> keeps_alpha c1 r).

Definition leaf2_ok (keep : bool) (X : ctype) (f : color -> color -> outcome color) : Prop :=
  forall c1 c2, wf_color X c1 -> wf_color X c2 ->
  exists r, f c1 c2 = Ok r /\ wf_color X r /\ rgb_space r = rgb_space c1 /\ (keep = true -> keeps_alpha c1 r).

Lemma unchanged_new (h : heap) r : unchanged h (Heap (colors h ++ [r]) (spaces h)).
Proof. split; [reflexivity|]. intros i c H. apply at_old, H. Qed.
Lemma unchanged_trans (h1 h2 h3 : heap) : unchanged h1 h2 -> unchanged h2 h3 -> unchanged h1 h3.
Proof. intros [S1 U1] [S2 U2]. split; [congruence|]. auto. Qed.
Lemma unchanged_refl (h : heap) : unchanged h h.
Proof. split; auto. Qed.
Lemma unchanged_len (h h' : heap) : unchanged h h' -> (length (colors h) <= length (colors h'))%nat.
Proof.
  intros [_ U]. destruct (length (colors h)) as [|n] eqn:L; [lia|].
  destruct (nth_error (colors h) n) as [c|] eqn:E.
  - apply U in E. apply at_addr_lt in E. lia.
  - apply nth_error_None in E. lia.
Qed.
Lemma unchanged_space (h h' : heap) c c' : unchanged h h' -> rgb_space c' = rgb_space c -> has_space h c -> has_space h' c'.
Proof. intros [S _] E [i [s [A [B C]]]]. exists i, s. rewrite E, S. auto. Qed.

Lemma new2_ok keep X f : leaf2_ok keep X f -> op_ok keep X (new2 X f).
Proof.
  intros L h p1 c1 p2 c2 H1 H2 W1 W2 _. destruct (L c1 c2 W1 W2) as [r [E [Wr [S A]]]].
  exists (length (colors h)), r, (Heap (colors h ++ [r]) (spaces h)).
  split. { unfold new2, bind. rewrite (load_as_ok h p1 c1 X H1 W1), (load_as_ok h p2 c2 X H2 W2). unfold lift. rewrite E. reflexivity. }
  split; [unfold fresh; lia|]. split; [apply at_new|]. split; [exact Wr|]. split; [exact S|]. split; [apply unchanged_new|exact A].
Qed.

(** A conversion that changes nothing. *)
Lemma to_pure X Y : X <> UNDEFINED -> Y <> UNDEFINED -> (X <> RGB_DEEP \/ cie Y = false) ->
  forall (h : heap) p c, at_addr h p c -> wf_color X c -> (needs_space X Y = true -> has_space h c) ->
  exists q r h', to_type Y (Some p) h = (Ok (Some q), h') /\ at_addr h' q r /\
    wf_color Y r /\ rgb_space r = rgb_space c /\ unchanged h h' /\ (X <> Y -> fresh h q) /\ (X <> Y -> rel_alpha X Y c r) /\ (X = Y -> q = p /\ r = c).
Proof.
  intros UX UY P h p c Hp W N. destruct (ctype_eq_dec X Y) as [->|D].
  - exists p, c, h. split; [apply (to_type_same Y h p c Hp W)|]. split; [exact Hp|]. split; [exact W|]. split; [reflexivity|].
    split; [apply unchanged_refl|]. split; [congruence|]. split; [congruence|auto].
  - destruct (to_type_cv X Y UX UY D h p c Hp W N) as [q [r [h' [c' [E [Fq [Hq [Wr [S [[SS U] [P' [_ [_ [_ [PU R]]]]]]]]]]]]]]].
    exists q, r, h'. split; [exact E|]. split; [exact Hq|]. split; [exact Wr|]. split; [exact S|]. split.
    + split; [exact SS|]. intros i c0 H. destruct (Nat.eq_dec i p) as [->|Ni].
      * unfold at_addr in Hp, H. rewrite Hp in H. injection H as <-. rewrite PU in P'; [exact P'|].
        unfold changes_source, ctype_eqb. destruct (ctype_eq_dec X RGB_DEEP); [|reflexivity].
        destruct P as [P|P]; [contradiction|]. rewrite P. reflexivity.
      * apply U; auto.
    + split; auto. split; auto. intros; contradiction.
Qed.

Lemma via_op keep X Z g : X <> UNDEFINED -> Z <> UNDEFINED -> X <> Z -> X <> RGB_DEEP -> Z <> RGB_DEEP -> Z <> HSL ->
  eight_bit X = false -> eight_bit Z = false -> cie X = cie Z ->
  op_ok keep Z g -> op_ok keep X (fun p1 p2 => bind (both (to_type Z) g p1 p2) (to_type X)).
Proof.
  intros UX UZ XZ DX DZ NZ EX EZ CC G h p1 c1 p2 c2 H1 H2 W1 W2 N.
  assert (NS : needs_space X Z = cie X) by (unfold needs_space; rewrite CC; destruct (cie Z); reflexivity).
  assert (NS' : needs_space Z X = cie X) by (unfold needs_space; rewrite CC; destruct (cie Z); reflexivity).
  destruct (to_pure X Z UX UZ (or_introl DX) h p1 c1 H1 W1) as [q1 [r1 [h1 [E1 [A1 [V1 [S1 [U1 [F1 [R1 _]]]]]]]]]].
  { rewrite NS. intros K. apply N, K. }
  specialize (R1 XZ). specialize (F1 XZ).
  destruct (to_pure X Z UX UZ (or_introl DX) h1 p2 c2 (proj2 U1 _ _ H2) W2) as [q2 [r2 [h2 [E2 [A2 [V2 [S2 [U2 _]]]]]]]].
  { rewrite NS. intros K. apply (unchanged_space h h1 c2 c2 U1 eq_refl), N, K. }
  destruct (G h2 q1 r1 q2 r2 (proj2 U2 _ _ A1) A2 V1 V2) as [q3 [r3 [h3 [E3 [F3 [A3 [V3 [S3 [U3 K3]]]]]]]]].
  { rewrite <- CC. intros K. destruct (N K) as [N1 N2]. split.
    - apply (unchanged_space h h2 c1 r1); auto. apply (unchanged_trans _ h1); auto.
    - apply (unchanged_space h h2 c2 r2); auto. apply (unchanged_trans _ h1); auto. }
  destruct (to_pure Z X UZ UX (or_introl DZ) h3 q3 r3 A3 V3) as [q4 [r4 [h4 [E4 [A4 [V4 [S4 [U4 [F4 [R4 _]]]]]]]]]].
  { rewrite NS'. intros K. destruct (N K) as [N1 _]. apply (unchanged_space h h3 c1 r3); [|congruence|exact N1].
    apply (unchanged_trans _ h2); auto. apply (unchanged_trans _ h1); auto. }
  assert (U : unchanged h h3) by (apply (unchanged_trans _ h2); auto; apply (unchanged_trans _ h1); auto).
  exists q4, r4, h4. split. { unfold both, bind. rewrite E1, E2, E3. exact E4. }
  split. { pose proof (unchanged_len _ _ U). specialize (F4 ltac:(congruence)). unfold fresh in *. lia. }
  split; [exact A4|]. split; [exact V4|]. split; [congruence|].
  split; [apply (unchanged_trans _ h3); auto|].
  intros K O Fm NB. specialize (R4 ltac:(congruence)).
  destruct (R1 O Fm NB) as [O1 [F1' B1]]. unfold converted_alpha in B1. rewrite EZ in B1.
  assert (NB1 : ~ black_hsl r1). { intros [T _]. rewrite (wf_ty _ _ V1) in T. congruence. }
  pose proof (K3 K O1 F1' NB1) as B3.
  assert (O3 : alpha_ok r3) by (unfold alpha_ok; rewrite B3; exact O1).
  assert (F3' : alpha_form r3). { intros T. rewrite (wf_ty _ _ V3), EZ in T. discriminate T. }
  assert (NB3 : ~ black_hsl r3). { intros [T _]. rewrite (wf_ty _ _ V3) in T. congruence. }
  destruct (R4 O3 F3' NB3) as [_ [_ B4]]. unfold converted_alpha in B4. rewrite EX in B4. simpl in B1, B4. congruence.
Qed.

(** The alpha passed to the constructor. *)
Lemma keep_std X (c r : color) : wf_color X c -> eight_bit X = false -> m_alpha r = alpha c -> keeps_alpha c r.
Proof. intros W E A _ _ _. rewrite A. apply (alpha_std c X W E). Qed.
Lemma keep_eight X (c r : color) : wf_color X c -> eight_bit X = true -> m_alpha r = alpha8 (alpha c) -> keeps_alpha c r.
Proof.
  intros W E A O Fm _. rewrite (alpha_eight c X W E) in A. destruct Fm as [a Ha]; [rewrite (wf_ty _ _ W); exact E|].
  rewrite A. unfold alpha8 at 1. rewrite Ha, alpha8_scale, <- Ha. apply clamp_id; try sm. exact O.
Qed.
Lemma keep_wide X (c r : color) : wf_color X c -> eight_bit X = true ->
  m_alpha r = alpha8 (fmin (fmax (alpha c) (fz 0)) (fz 255)) -> keeps_alpha c r.
Proof.
  intros W E A O Fm B. apply (keep_eight X); auto. rewrite A. f_equal.
  rewrite (alpha_eight c X W E). destruct Fm as [a Ha]; [rewrite (wf_ty _ _ W); exact E|]. rewrite Ha. apply alpha8_wide.
Qed.

Lemma made2 keep X (c : color) a m : wf_color X c -> (keep = true -> forall r, m_alpha r = a -> keeps_alpha c r) ->
  made X a (rgb_space c) m -> exists r, m = Ok r /\ wf_color X r /\ rgb_space r = rgb_space c /\ (keep = true -> keeps_alpha c r).
Proof. intros W H [r [E [Wr [A S]]]]. exists r. auto. Qed.

Ltac two := intros c1 c2 W1 W2;
  let x1 := fresh "x" in let y1 := fresh "y" in let z1 := fresh "z" in let w1 := fresh "w" in let E1 := fresh "E" in
  let x2 := fresh "x" in let y2 := fresh "y" in let z2 := fresh "z" in let w2 := fresh "w" in let E2 := fresh "E" in
  (destruct (comps3 _ c1 W1 eq_refl) as [x1 [y1 [z1 E1]]]; destruct (comps3 _ c2 W2 eq_refl) as [x2 [y2 [z2 E2]]]; unfold with3; rewrite E1, E2) ||
  (destruct (comps1 _ c1 W1 eq_refl) as [x1 E1]; destruct (comps1 _ c2 W2 eq_refl) as [x2 E2]; unfold with1; rewrite E1, E2) ||
  (destruct (comps4 _ c1 W1 eq_refl) as [x1 [y1 [z1 [w1 E1]]]]; destruct (comps4 _ c2 W2 eq_refl) as [x2 [y2 [z2 [w2 E2]]]]; unfold with4; rewrite E1, E2);
  cbv zeta.
Ltac made_by := match goal with
  | |- made _ _ _ (rgb_deepcolor _ _ _ _ _) => apply rgb_deepcolor_made
  | |- made _ _ _ (rgb_truecolor _ _ _ _ _) => apply rgb_truecolor_made
  | |- made _ _ _ (grey_truecolor _ _ _) => apply grey_truecolor_made
  | |- made _ _ _ (grey_deepcolor _ _ _) => apply grey_deepcolor_made
  | |- made _ _ _ (cmyk _ _ _ _ _ _) => apply cmyk_made
  | |- made _ _ _ (hsv _ _ _ _ _) => apply hsv_made
  | |- made _ _ _ (xyz _ _ _ _ _) => apply xyz_made
  | |- made _ _ _ (xyy _ _ _ _ _) => apply xyy_made
  | |- made _ _ _ (cieluv _ _ _ _ _) => apply cieluv_made
  end.
Ltac fin2 := eapply made2; [eassumption| |made_by];
  let K := fresh in let r := fresh in let A := fresh in intros K r A; apply negb_true_iff in K; rewrite K in A.
Ltac std := eapply keep_std; [eassumption|reflexivity|assumption].
Ltac eight := eapply keep_eight; [eassumption|reflexivity|assumption].
Ltac wide := eapply keep_wide; [eassumption|reflexivity|assumption].

Lemma add_rgb_true_ok w1 w2 ia : leaf2_ok (negb ia) RGB_TRUE (add_rgb_true_f w1 w2 ia).
Proof. unfold add_rgb_true_f. two. fin2. wide. Qed.
Lemma add_rgb_deep_ok w1 w2 ia : leaf2_ok (negb ia) RGB_DEEP (add_rgb_deep_f w1 w2 ia).
Proof. unfold add_rgb_deep_f. two. fin2. std. Qed.
Lemma add_grey_true_ok w1 w2 ia : leaf2_ok (negb ia) GREY_TRUE (add_grey_true_f w1 w2 ia).
Proof. unfold add_grey_true_f. two. fin2. wide. Qed.
Lemma add_grey_deep_ok w1 w2 ia : leaf2_ok (negb ia) GREY_DEEP (add_grey_deep_f w1 w2 ia).
Proof. unfold add_grey_deep_f. two. fin2. std. Qed.
Lemma add_cmyk_ok w1 w2 ia : leaf2_ok (negb ia) CMYK (add_cmyk_f w1 w2 ia).
Proof. unfold add_cmyk_f. two. fin2. std. Qed.
Lemma add_hsv_ok w1 w2 ia : leaf2_ok (negb ia) HSV (add_hsv_f w1 w2 ia).
Proof. unfold add_hsv_f, convert_to_vector, convert_from_vector. two. fin2. std. Qed.
Lemma add_xyz_ok w1 w2 ia : leaf2_ok (negb ia) XYZ (add3_f xyz w1 w2 ia).
Proof. unfold add3_f. two. fin2. std. Qed.
Lemma add_xyy_ok w1 w2 ia : leaf2_ok (negb ia) XYY (add3_f xyy w1 w2 ia).
Proof. unfold add3_f. two. fin2. std. Qed.
Lemma add_cieluv_ok w1 w2 ia : leaf2_ok (negb ia) CIELUV (add3_f cieluv w1 w2 ia).
Proof. unfold add3_f. two. fin2. std. Qed.

Lemma sub_rgb_true_ok w ia : leaf2_ok (negb ia) RGB_TRUE (sub3_f rgb_truecolor w ia).
Proof. unfold sub3_f. two. fin2. eight. Qed.
Lemma sub_rgb_deep_ok w ia : leaf2_ok (negb ia) RGB_DEEP (sub3_f rgb_deepcolor w ia).
Proof. unfold sub3_f. two. fin2. std. Qed.
Lemma sub_grey_true_ok w ia : leaf2_ok (negb ia) GREY_TRUE (sub1_f grey_truecolor w ia).
Proof. unfold sub1_f. two. fin2. eight. Qed.
Lemma sub_grey_deep_ok w ia : leaf2_ok (negb ia) GREY_DEEP (sub1_f grey_deepcolor w ia).
Proof. unfold sub1_f. two. fin2. std. Qed.
Lemma sub_cmyk_ok w ia : leaf2_ok (negb ia) CMYK (sub_cmyk_f w ia).
Proof. unfold sub_cmyk_f. two. fin2. std. Qed.
Lemma sub_hsv_ok w ia : leaf2_ok (negb ia) HSV (sub_hsv_f w ia).
Proof. unfold sub_hsv_f, convert_to_vector, convert_from_vector. two. fin2. std. Qed.
Lemma sub_xyz_ok w ia : leaf2_ok (negb ia) XYZ (sub3_f xyz w ia).
Proof. unfold sub3_f. two. fin2. std. Qed.
Lemma sub_xyy_ok w ia : leaf2_ok (negb ia) XYY (sub3_f xyy w ia).
Proof. unfold sub3_f. two. fin2. std. Qed.
Lemma sub_cieluv_ok w ia : leaf2_ok (negb ia) CIELUV (sub3_f cieluv w ia).
Proof. unfold sub3_f. two. fin2. std. Qed.

(** ** The overloads *)

Ltac via X Z := apply (via_op _ X Z); try discriminate; try reflexivity.
Ltac chk H := unfold check2, check1; rewrite ?H.

Lemma typed_add_ok X w1 w2 ia : X <> UNDEFINED -> bad_weight w1 = false -> bad_weight w2 = false ->
  op_ok (negb ia) X (fun p1 p2 => typed_add X p1 p2 w1 w2 ia).
Proof.
  intros UX B1 B2.
  assert (V : op_ok (negb ia) HSV (fun p1 p2 => add_hsv p1 p2 w1 w2 ia)).
  { unfold add_hsv, check2. rewrite B1, B2. apply new2_ok, add_hsv_ok. }
  assert (T : op_ok (negb ia) XYZ (fun p1 p2 => add_xyz p1 p2 w1 w2 ia)).
  { unfold add_xyz, check2. rewrite B1, B2. apply new2_ok, add_xyz_ok. }
  destruct X; try contradiction; cbn [typed_add]; try assumption;
    unfold add_rgb_true, add_rgb_deep, add_grey_true, add_grey_deep, add_cmyk, add_hsi, add_hsl, add_hcy,
      add_xyy, add_cieluv, add_lab, add_lch_ab, add_lch_uv, check2; rewrite B1, B2.
  - apply new2_ok, add_rgb_true_ok.
  - apply new2_ok, add_rgb_deep_ok.
  - apply new2_ok, add_grey_true_ok.
  - apply new2_ok, add_grey_deep_ok.
  - apply new2_ok, add_cmyk_ok.
  - via HSI HSV. exact V.
  - via HSL HSV. exact V.
  - via HCY HSV. exact V.
  - apply new2_ok, add_xyy_ok.
  - apply new2_ok, add_cieluv_ok.
  - via LAB XYZ. exact T.
  - via LCH_AB XYZ. exact T.
  - via LCH_UV XYZ. exact T.
Qed.

Lemma typed_mix_eq X p1 p2 w ia : bad_weight w = false -> typed_mix X p1 p2 w ia = typed_add X p1 p2 w (fsub (fz 1) w) ia.
Proof.
  intros B. destruct X; cbn [typed_mix typed_add]; try reflexivity;
    unfold mix_rgb_deep, mix_grey_true, mix_grey_deep, mix_cmyk, mix_hsi, mix_hsv, mix_hsl, mix_hcy, mix_xyz, mix_xyy, mix_cieluv, mix_lab, mix_lch_ab, mix_lch_uv, check1;
    rewrite B; reflexivity.
Qed.

Lemma typed_mix_ok X w ia : X <> UNDEFINED -> bad_weight w = false -> bad_weight (fsub (fz 1) w) = false ->
  op_ok (negb ia) X (fun p1 p2 => typed_mix X p1 p2 w ia).
Proof.
  intros UX B1 B2 h p1 c1 p2 c2. rewrite typed_mix_eq by assumption. apply (typed_add_ok X w _ ia UX B1 B2).
Qed.

(** The types whose subtraction goes through another type, where include_alpha is lost. *)
Definition composed (X : ctype) : bool :=
  match X with HSI | HSL | HCY | LAB | LCH_AB | LCH_UV => true | _ => false end.

Lemma typed_subtract_ok X w ia : X <> UNDEFINED -> bad_weight w = false ->
  op_ok (composed X || negb ia) X (fun p1 p2 => typed_subtract X p1 p2 w ia).
Proof.
  intros UX B.
  assert (V : forall ia, op_ok (negb ia) HSV (fun p1 p2 => subtract_hsv p1 p2 w ia)).
  { intros i. unfold subtract_hsv, check1. rewrite B. apply new2_ok, sub_hsv_ok. }
  assert (T : forall ia, op_ok (negb ia) XYZ (fun p1 p2 => subtract_xyz p1 p2 w ia)).
  { intros i. unfold subtract_xyz, check1. rewrite B. apply new2_ok, sub_xyz_ok. }
  destruct X; try contradiction; cbn [typed_subtract composed orb]; try apply V; try apply T;
    unfold subtract_rgb_true, subtract_rgb_deep, subtract_grey_true, subtract_grey_deep, subtract_cmyk, subtract_hsi, subtract_hsl, subtract_hcy,
      subtract_xyy, subtract_cieluv, subtract_lab, subtract_lch_ab, subtract_lch_uv, check1; rewrite B.
  - apply new2_ok, sub_rgb_true_ok.
  - apply new2_ok, sub_rgb_deep_ok.
  - apply new2_ok, sub_grey_true_ok.
  - apply new2_ok, sub_grey_deep_ok.
  - apply new2_ok, sub_cmyk_ok.
  - via HSI HSV. apply (V false).
  - via HSL HSV. apply (V false).
  - via HCY HSV. apply (V false).
  - apply new2_ok, sub_xyy_ok.
  - apply new2_ok, sub_cieluv_ok.
  - via LAB XYZ. apply (T false).
  - via LCH_AB XYZ. apply (T false).
  - via LCH_UV XYZ. apply (T false).
Qed.

(** ** The overloads on color_base *)

(** What add, mix and subtract on color_base guarantee for a first operand of type [X]. *)
Definition gen_ok (keep : bool) (X Y : ctype) (f : ptr -> ptr -> M ptr) : Prop :=
  forall (h : heap) p1 c1 p2 c2, at_addr h p1 c1 -> at_addr h p2 c2 -> wf_color X c1 -> wf_color Y c2 ->
  (cie X = true -> has_space h c1) -> (needs_space X Y = true -> has_space h c2) ->
  exists q r h', f (Some p1) (Some p2) h = (Ok (Some q), h') /\ fresh h q /\ at_addr h' q r /\
    wf_color X r /\ rgb_space r = rgb_space c1 /\ others_unchanged h h' p2 /\
    (X = Y \/ Y <> RGB_DEEP \/ cie X = false -> unchanged h h') /\ (keep = true -> keeps_alpha c1 r).

Lemma both_ok keep X Y g : Y <> UNDEFINED -> op_ok keep X g -> gen_ok keep X Y (both (to_type X) g).
Proof.
  intros UY G h p1 c1 p2 c2 H1 H2 W1 W2 N1 N2. pose proof (wf_real _ _ W1) as UX.
  assert (E1 : to_type X (Some p1) h = (Ok (Some p1), h)) by apply (to_type_same X h p1 c1 H1 W1).
  unfold both, bind. rewrite E1.
  destruct (ctype_eq_dec Y X) as [->|D].
  - rewrite (to_type_same X h p2 c2 H2 W2).
    destruct (G h p1 c1 p2 c2 H1 H2 W1 W2) as [q [r [h' [E [Fq [A [V [S [U K]]]]]]]]].
    { intros C. split; auto. apply N2. unfold needs_space. rewrite C. reflexivity. }
    exists q, r, h'. do 5 (split; [assumption|]). split; [|split; auto]. destruct U as [U1 U2]. split; auto.
  - assert (N2' : needs_space Y X = true -> has_space h c2).
    { intros K. apply N2. unfold needs_space in *. rewrite orb_comm. exact K. }
    destruct (to_type_cv Y X UY UX D h p2 c2 H2 W2 N2') as [q2 [r2 [h2 [c2' [E2 [F2 [A2 [V2 [S2 [[SS U2] [P2 [_ [_ [_ [PU _]]]]]]]]]]]]]]].
    rewrite E2.
    assert (NP : p1 <> p2).
    { intros ->. unfold at_addr in H1, H2. rewrite H1 in H2. injection H2 as <-. apply D.
      rewrite <- (wf_cls _ _ W1), <- (wf_cls _ _ W2). reflexivity. }
    destruct (G h2 p1 c1 q2 r2 (U2 _ _ NP H1) A2 W1 V2) as [q [r [h' [E [Fq [A [V [S [U K]]]]]]]]].
    { intros C. split.
      - destruct (N1 C) as [i [s [B1 [B2 B3]]]]. exists i, s. rewrite SS. auto.
      - destruct (N2 ltac:(unfold needs_space; rewrite C; reflexivity)) as [i [s [B1 [B2 B3]]]]. exists i, s. rewrite SS, S2. auto. }
    exists q, r, h'. split; [exact E|].
    assert (L : (length (colors h) <= length (colors h2))%nat).
    { destruct (Nat.lt_ge_cases (length (colors h2)) (length (colors h))); auto. exfalso.
      apply at_addr_lt in A2. unfold fresh in F2. lia. }
    split. { unfold fresh in *. lia. }
    split; [exact A|]. split; [exact V|]. split; [exact S|].
    split. { destruct U as [US U]. split; [congruence|]. intros i c Ni Hi. apply U, U2; auto. }
    split; [|exact K].
    intros Q. apply (unchanged_trans _ h2); [|exact U]. split; [exact SS|].
    intros i c Hi. destruct (Nat.eq_dec i p2) as [->|Ni]; [|apply U2; auto].
    unfold at_addr in Hi, H2. rewrite H2 in Hi. injection Hi as <-.
    rewrite PU in P2; [exact P2|].
    unfold changes_source, ctype_eqb. destruct (ctype_eq_dec Y RGB_DEEP) as [->|]; [|reflexivity].
    destruct Q as [Q|[Q|Q]]; try congruence. rewrite Q. reflexivity.
Qed.

Lemma add_ok X Y w1 w2 ia : In X add_types -> Y <> UNDEFINED -> bad_weight w1 = false -> bad_weight w2 = false ->
  gen_ok (negb ia) X Y (fun p1 p2 => add p1 p2 w1 w2 ia).
Proof.
  intros HX UY B1 B2. unfold add, check2. rewrite B1, B2.
  assert (UX : X <> UNDEFINED) by (intros ->; simpl in HX; intuition discriminate).
  pose proof (both_ok (negb ia) X Y _ UY (typed_add_ok X w1 w2 ia UX B1 B2)) as K.
  intros h p1 c1 p2 c2 H1 H2 W1 W2 N1 N2. specialize (K h p1 c1 p2 c2 H1 H2 W1 W2 N1 N2).
  unfold bind at 1, load at 1. unfold at_addr in H1. rewrite H1, (wf_ty _ _ W1).
  destruct X; try exact K; simpl in HX; exfalso; intuition discriminate.
Qed.

Lemma mix_ok X Y w ia : In X mix_types -> Y <> UNDEFINED -> fle w (fz 0) = false -> bad_weight w = false -> bad_weight (fsub (fz 1) w) = false ->
  gen_ok (negb ia) X Y (fun p1 p2 => mix p1 p2 w ia).
Proof.
  intros HX UY B0 B1 B2. unfold mix, check_strict. apply orb_false_iff in B1 as B1'. rewrite B0, (proj2 B1'). cbn [orb].
  assert (UX : X <> UNDEFINED) by (intros ->; simpl in HX; intuition discriminate).
  pose proof (both_ok (negb ia) X Y _ UY (typed_mix_ok X w ia UX B1 B2)) as K.
  intros h p1 c1 p2 c2 H1 H2 W1 W2 N1 N2. specialize (K h p1 c1 p2 c2 H1 H2 W1 W2 N1 N2).
  unfold bind at 1, load at 1. unfold at_addr in H1. rewrite H1, (wf_ty _ _ W1).
  destruct X; try exact K; simpl in HX; exfalso; intuition discriminate.
Qed.

Lemma subtract_ok X Y w ia : In X mix_types -> Y <> UNDEFINED -> fle w (fz 0) = false -> bad_weight w = false ->
  gen_ok (composed X || negb ia) X Y (fun p1 p2 => subtract p1 p2 w ia).
Proof.
  intros HX UY B0 B1. unfold subtract, check_strict. apply orb_false_iff in B1 as B1'. rewrite B0, (proj2 B1'). cbn [orb].
  assert (UX : X <> UNDEFINED) by (intros ->; simpl in HX; intuition discriminate).
  pose proof (both_ok (composed X || negb ia) X Y _ UY (typed_subtract_ok X w ia UX B1)) as K.
  intros h p1 c1 p2 c2 H1 H2 W1 W2 N1 N2. specialize (K h p1 c1 p2 c2 H1 H2 W1 W2 N1 N2).
  unfold bind at 1, load at 1. unfold at_addr in H1. rewrite H1, (wf_ty _ _ W1).
  destruct X; try exact K; simpl in HX; exfalso; intuition discriminate.
Qed.

(** ** Rejected weights *)

Lemma typed_add_bad X p1 p2 w1 w2 ia (h : heap) : X <> UNDEFINED -> bad_weight w1 = true \/ bad_weight w2 = true ->
  typed_add X p1 p2 w1 w2 ia h = (Throw (by_pointer invalid_argument), h).
Proof.
  intros UX B. assert (K : forall k : M ptr, check2 w1 w2 k h = (Throw (by_pointer invalid_argument), h)).
  { intros k. unfold check2. destruct B as [B|B]; rewrite B; [reflexivity|]. destruct (bad_weight w1); reflexivity. }
  destruct X; try contradiction; cbn [typed_add]; apply K.
Qed.
Lemma add_bad p1 p2 w1 w2 ia (h : heap) : bad_weight w1 = true \/ bad_weight w2 = true ->
  add p1 p2 w1 w2 ia h = (Throw (by_pointer invalid_argument), h).
Proof.
  intros B. unfold add, check2. destruct B as [B|B]; rewrite B; [reflexivity|]. destruct (bad_weight w1); reflexivity.
Qed.
Lemma typed_mix_bad X p1 p2 w ia (h : heap) : X <> UNDEFINED -> bad_weight w = true ->
  typed_mix X p1 p2 w ia h = (Throw (by_pointer invalid_argument), h).
Proof.
  intros UX B. assert (K : forall k : M ptr, check1 w k h = (Throw (by_pointer invalid_argument), h)).
  { intros k. unfold check1. rewrite B. reflexivity. }
  destruct X; try contradiction; cbn [typed_mix]; apply K.
Qed.
Lemma typed_subtract_bad X p1 p2 w ia (h : heap) : X <> UNDEFINED -> bad_weight w = true ->
  typed_subtract X p1 p2 w ia h = (Throw (by_pointer invalid_argument), h).
Proof.
  intros UX B. assert (K : forall k : M ptr, check1 w k h = (Throw (by_pointer invalid_argument), h)).
  { intros k. unfold check1. rewrite B. reflexivity. }
  destruct X; try contradiction; cbn [typed_subtract]; apply K.
Qed.
Lemma mix_bad p1 p2 w ia (h : heap) : fle w (fz 0) = true \/ flt (fz 1) w = true ->
  mix p1 p2 w ia h = (Throw (by_pointer invalid_argument), h).
Proof. intros B. unfold mix, check_strict. destruct B as [B|B]; rewrite B; [|rewrite orb_true_r]; reflexivity. Qed.
Lemma subtract_bad p1 p2 w ia (h : heap) : fle w (fz 0) = true \/ flt (fz 1) w = true ->
  subtract p1 p2 w ia h = (Throw (by_pointer invalid_argument), h).
Proof. intros B. unfold subtract, check_strict. destruct B as [B|B]; rewrite B; [|rewrite orb_true_r]; reflexivity. Qed.

(** ** Types the functions on color_base do not handle *)

Lemma add_null X p1 p2 w1 w2 ia (h : heap) c : In X [HSI; HCY] -> at_addr h p1 c -> wf_color X c -> bad_weight w1 = false -> bad_weight w2 = false ->
  add (Some p1) p2 w1 w2 ia h = (Ok None, h).
Proof.
  intros HX H W B1 B2. unfold add, check2. rewrite B1, B2. unfold bind, load. unfold at_addr in H. rewrite H, (wf_ty _ _ W).
  simpl in HX. destruct HX as [<-|[<-|[]]]; reflexivity.
Qed.
Lemma mix_null X p1 p2 w ia (h : heap) c : In X [HSI; HCY; XYY; CIELUV] -> at_addr h p1 c -> wf_color X c ->
  fle w (fz 0) = false -> flt (fz 1) w = false -> mix (Some p1) p2 w ia h = (Ok None, h) /\ subtract (Some p1) p2 w ia h = (Ok None, h).
Proof.
  intros HX H W B1 B2. unfold mix, subtract, check_strict. rewrite B1, B2. cbn [orb]. unfold bind, load. unfold at_addr in H. rewrite H, (wf_ty _ _ W).
  simpl in HX. destruct HX as [<-|[<-|[<-|[<-|[]]]]]; split; reflexivity.
Qed.
End Calc.
