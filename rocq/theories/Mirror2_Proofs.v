(** * Exchanging the layers of a blend in exact arithmetic and in binary32 (C188, C189) *)
From Coq Require Import ZArith QArith Reals Lra Lia List Bool.
From Flocq Require Import Core IEEE754.BinarySingleNaN.
From Flocq Require Import Mult_error.
From Verif Require Import Arith Outcome ColorModel Heap Converter Calculation Blend F32 F32Facts RArith
  Spec Spec32 Laws NormalForms Core_Proofs Core2_Proofs Alpha8 Spec_Conv Spec_Calc Spec_Blend Spec_Algebra
  Conv_Proofs Conv2_Proofs Conv3_Proofs Calc_Proofs Blend_Proofs Blend3_Proofs Mirror_Proofs.
Import ListNotations.
Local Open Scope R_scope.
Local Notation fin x := (is_finite x = true).
Local Notation fval := (@B2R 24 128).

(** ** Exact arithmetic *)
Lemma mirrorR (m m' : mode R) c1 c2 i s d : mirror m = Some m' -> 0 <= s <= 1 -> 0 <= d <= 1 ->
  blend_function m c1 c2 i s d = blend_function m' c2 c1 i d s.
Proof.
  intros E S D. destruct m; cbn [mirror] in E; try discriminate E; injection E as <-; try reflexivity.
  all: match goal with |- blend_function ?m _ _ _ _ _ = _ => pose proof (fun c1 c2 s d => textbook_agrees m _ c1 c2 i s d eq_refl) as T end;
    rewrite (T c1 c2 s d S D), (T c2 c1 d s D S); clear T.
  - ring.
  - ring.
  - apply Rmin_comm.
  - apply Rmax_comm.
  - ring.
  - ring.
  - rewrite (Rplus_comm s d). reflexivity.
  - apply Rabs_minus_sym.
  - ring.
  - ring.
  - ring.
Qed.

Lemma swap_exact m m' us ud (h : heap R) p1 c1 p2 c2 : mirror m = Some m' -> at_addr h p1 c1 -> at_addr h p2 c2 ->
  wf_color RGB_DEEP c1 -> wf_color RGB_DEEP c2 -> rgb_space c1 = rgb_space c2 ->
  returns (blend m (Some p1) (Some p2) us ud) h (fun r =>
    returns (blend m' (Some p2) (Some p1) ud us) h (fun r' => comps r = comps r' /\ m_alpha r = m_alpha r')).
Proof.
  intros E H1 H2 W1 W2 SP.
  apply (@mode_swap R RArith RLaws _ Rplus_comm Rmult_comm m m' us ud h p1 c1 p2 c2 H1 H2 W1 W2 SP).
  intros i s d Hs Hd. apply mirrorR; [exact E| |].
    + pose proof (wf_range _ _ W1 i s Hs) as K. apply withinR in K. cbn [comp_range fst snd] in K. exact K.
    + pose proof (wf_range _ _ W2 i d Hd) as K. apply withinR in K. cbn [comp_range fst snd] in K. exact K.
Qed.

(** ** binary32 *)
Lemma fin_nan (x : f32) : fin x -> is_nan x = false.
Proof. destruct x; intros H; try discriminate H; reflexivity. Qed.

Lemma Bmult_sign (x y : f32) : fin (Bmult mode_NE x y) -> Bsign (Bmult mode_NE x y) = xorb (Bsign x) (Bsign y).
Proof.
  intros FM. pose proof (Bmult_correct 24 128 _ _ mode_NE x y) as H. cbv zeta in H. destruct (Rlt_bool _ _) in H.
  - destruct H as [_ [_ H]]. apply H, fin_nan, FM.
  - exfalso. rewrite <- is_finite_SF_B2SF, H in FM. cbn in FM. discriminate FM.
Qed.
Lemma rnd_opp' x : - rnd32 x = rnd32 (- x).
Proof. unfold rnd32. rewrite round_NE_opp. reflexivity. Qed.
Lemma finite_nonzero (x : f32) : fin x -> fval x <> 0 -> is_finite_strict x = true.
Proof. destruct x; intros F N; try discriminate F; [exfalso; apply N; reflexivity|reflexivity]. Qed.
Lemma pos_sign (x : f32) : fin x -> 0 < fval x -> Bsign x = false.
Proof.
  intros F P. destruct x as [s| | |s m e B]; try discriminate F; [cbn in P; lra|]. destruct s; [|reflexivity].
  exfalso. revert P. apply Rle_not_lt. apply F2R_le_0. discriminate.
Qed.
Lemma double_ok (x : f32) o : fin x -> 0 <= fval x <= 1 ->
  fin (Bmult mode_NE (@fz f32 (F32 o) 2) x) /\ fval (Bmult mode_NE (@fz f32 (F32 o) 2) x) = 2 * fval x /\ Bsign (Bmult mode_NE (@fz f32 (F32 o) 2) x) = Bsign x.
Proof.
  intros Fx Bx. destruct (fz_val o 2) as [F2 V2]; [sm|].
  destruct (Bmult_ok (@fz f32 (F32 o) 2) x 0 2 F2 Fx) as [FM VM]; try sm; [rewrite V2; lra|].
  split; [exact FM|]. split.
  - rewrite VM, V2. unfold rnd32. apply round_generic; [apply valid_rnd_N|].
    replace (2 * fval x) with (fval x * bpow radix2 1) by (simpl; lra).
    apply (mult_bpow_pos_exact_FLT radix2 (3 - 128 - 24) 24); [apply generic_format_B2R|lia].
  - rewrite Bmult_sign by exact FM. rewrite (pos_sign (@fz f32 (F32 o) 2) F2 ltac:(rewrite V2; lra)). apply xorb_false_l.
Qed.

Lemma exclusion_swap o (s d : f32) : fin s -> fin d -> 0 <= fval s <= 1 -> 0 <= fval d <= 1 -> @exclusion_func f32 (F32 o) s d = @exclusion_func f32 (F32 o) d s.
Proof.
  intros Fs Fd Bs Bd. unfold exclusion_func. cbn [fadd fsub fmul F32]. rewrite (Bplus_comm_all d s). f_equal.
  destruct (double_ok d o Fd Bd) as [F1 [V1 S1]]. destruct (double_ok s o Fs Bs) as [F2 [V2 S2]].
  destruct (Bmult_ok (Bmult mode_NE (@fz f32 (F32 o) 2) d) s 0 2 F1 Fs) as [G1 W1]; try sm; [rewrite V1; nra|].
  destruct (Bmult_ok (Bmult mode_NE (@fz f32 (F32 o) 2) s) d 0 2 F2 Fd) as [G2 W2]; try sm; [rewrite V2; nra|].
  apply B2R_Bsign_inj; [exact G1|exact G2| |].
  - rewrite W1, W2, V1, V2. f_equal. ring.
  - rewrite !Bmult_sign by assumption. destruct (Bsign (@fz f32 (F32 o) 2)), (Bsign s), (Bsign d); reflexivity.
Qed.
Lemma difference_swap o (s d : f32) : fin s -> fin d -> 0 <= fval s <= 1 -> 0 <= fval d <= 1 -> @difference_func f32 (F32 o) s d = @difference_func f32 (F32 o) d s.
Proof.
  intros Fs Fd Bs Bd. unfold difference_func. cbn [fabs fsub F32].
  destruct (Bminus_ok d s (-1) 1 Fd Fs) as [F1 V1]; try sm; [lra|]. destruct (Bminus_ok s d (-1) 1 Fs Fd) as [F2 V2]; try sm; [lra|].
  apply B2R_Bsign_inj; rewrite ?is_finite_Babs; [exact F1|exact F2| |].
  - rewrite !B2R_Babs, V1, V2. rewrite <- (Ropp_involutive (rnd32 (fval d - fval s))), rnd_opp', Rabs_Ropp. f_equal. f_equal. ring.
  - rewrite !Bsign_Babs by (apply fin_nan; assumption). reflexivity.
Qed.
Lemma lt_val (x y : f32) : fin x -> fin y -> Bltb x y = Rlt_bool (fval x) (fval y).
Proof. intros Fx Fy. rewrite Bltb_correct by assumption. reflexivity. Qed.
Lemma equal_unless_zero (x y : f32) : fin x -> fin y -> x <> B754_zero true -> y <> B754_zero true -> fval x = fval y -> x = y.
Proof.
  intros Fx Fy Nx Ny E. destruct (Req_dec (fval x) 0) as [Z|Z].
  - destruct x as [[|]| | |]; try discriminate Fx; [congruence| |exfalso; revert Z; apply F2R_neq_0; destruct s; discriminate].
    destruct y as [[|]| | |]; try discriminate Fy; [congruence|reflexivity|]. exfalso. rewrite Z in E. symmetry in E. revert E. apply F2R_neq_0. destruct s; discriminate.
  - apply B2R_inj; [| |exact E]; apply finite_nonzero; try assumption; congruence.
Qed.
Lemma min_swap (x y : f32) : fin x -> fin y -> x <> B754_zero true -> y <> B754_zero true -> fmin32 x y = fmin32 y x.
Proof.
  intros Fx Fy Nx Ny. unfold fmin32. rewrite (fin_nan x Fx), (fin_nan y Fy), !lt_val by assumption.
  destruct (Rlt_bool_spec (fval y) (fval x)); destruct (Rlt_bool_spec (fval x) (fval y)); try reflexivity; [lra|].
  apply equal_unless_zero; auto; lra.
Qed.
Lemma max_swap (x y : f32) : fin x -> fin y -> x <> B754_zero true -> y <> B754_zero true -> fmax32 x y = fmax32 y x.
Proof.
  intros Fx Fy Nx Ny. unfold fmax32. rewrite (fin_nan x Fx), (fin_nan y Fy), !lt_val by assumption.
  destruct (Rlt_bool_spec (fval y) (fval x)); destruct (Rlt_bool_spec (fval x) (fval y)); try reflexivity; [lra|].
  apply equal_unless_zero; auto; lra.
Qed.

Lemma mirror32 o (m m' : mode f32) (c1 c2 : color f32) i s d : mirror m = Some m' -> thresholds m = false ->
  (chooses m = true -> s <> B754_zero true /\ d <> B754_zero true) ->
  fin s -> fin d -> 0 <= fval s <= 1 -> 0 <= fval d <= 1 ->
  @blend_function f32 (F32 o) m c1 c2 i s d = @blend_function f32 (F32 o) m' c2 c1 i d s.
Proof.
  intros E T N Fs Fd Bs Bd. destruct m; cbn [mirror] in E; try discriminate E; try discriminate T; injection E as <-; try reflexivity; cbn [blend_function].
  - apply Bmult_comm_all.
  - unfold screen_func. cbn [fmul F32]. rewrite Bmult_comm_all. reflexivity.
  - destruct (N eq_refl). apply min_swap; assumption.
  - destruct (N eq_refl). apply max_swap; assumption.
  - apply Bplus_comm_all.
  - unfold linear_burn_func. cbn [fadd F32]. rewrite Bplus_comm_all. reflexivity.
  - apply difference_swap; assumption.
  - apply Bplus_comm_all.
  - unfold plus_darker_func, linear_dodge_func. cbn [fadd F32]. rewrite Bplus_comm_all. reflexivity.
  - apply exclusion_swap; assumption.
Qed.

Lemma swap32 o m m' us ud (h : heap f32) p1 (c1 : color f32) p2 c2 : mirror m = Some m' -> thresholds m = false ->
  (chooses m = true -> no_negative_zero c1 /\ no_negative_zero c2) -> at_addr h p1 c1 -> at_addr h p2 c2 ->
  @wf_color f32 (F32 o) RGB_DEEP c1 -> @wf_color f32 (F32 o) RGB_DEEP c2 -> rgb_space c1 = rgb_space c2 ->
  returns (@blend f32 (F32 o) m (Some p1) (Some p2) us ud) h (fun r =>
    returns (@blend f32 (F32 o) m' (Some p2) (Some p1) ud us) h (fun r' => comps r = comps r' /\ m_alpha r = m_alpha r')).
Proof.
  intros E T N H1 H2 W1 W2 SP.
  apply (@mode_swap f32 (F32 o) (F32Laws o) _ Bplus_comm_all Bmult_comm_all m m' us ud h p1 c1 p2 c2 H1 H2 W1 W2 SP).
  intros i s d Hs Hd.
  pose proof (wf_range _ _ W1 i s Hs) as K1. pose proof (wf_range _ _ W2 i d Hd) as K2.
  apply (within32 o) in K1; [|cbn [comp_range fst snd]; sm|cbn [comp_range fst snd]; sm]. apply (within32 o) in K2; [|cbn [comp_range fst snd]; sm|cbn [comp_range fst snd]; sm].
  cbn [comp_range fst snd] in K1, K2.
  apply mirror32; try assumption; try apply K1; try apply K2.
  intros C. destruct (N C) as [N1 N2]. split; [apply N1|apply N2]; eapply nth_error_In; eassumption.
Qed.

Lemma dual32 o p (h : heap f32) p1 c1 p2 c2 : at_addr h p1 c1 -> at_addr h p2 c2 ->
  @wf_color f32 (F32 o) RGB_DEEP c1 -> @wf_color f32 (F32 o) RGB_DEEP c2 -> rgb_space c1 = rgb_space c2 ->
  returns (@composite f32 (F32 o) (dual p) (Some p1) (Some p2)) h (fun r =>
    returns (@composite f32 (F32 o) p (Some p2) (Some p1)) h (fun r' => comps r = comps r' /\ m_alpha r = m_alpha r')).
Proof.
  intros H1 H2 W1 W2 SP.
  exact (@pd_swap f32 (F32 o) (F32Laws o) _ Bplus_comm_all Bmult_comm_all p h p1 c1 p2 c2 H1 H2 W1 W2 SP).
Qed.
