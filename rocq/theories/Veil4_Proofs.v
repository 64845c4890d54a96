(** * Blending translucent 8-bit colours in binary32: modes and operators (C164, C165) *)
From Coq Require Import ZArith QArith Reals Lra Lia List Bool.
From Flocq Require Import Core IEEE754.BinarySingleNaN.
From Verif Require Import Arith Outcome ColorModel GammaModel MatrixModel SpaceModel Heap Converter Calculation Blend F32 F32Facts RArith
  Spec Spec32 Laws NormalForms Alpha8 Core_Proofs Core2_Proofs Core3_Proofs Core4_Proofs Hue32 Spec_Matrix Spec_Conv Spec_Calc Spec_Blend Spec_Round
  Conv_Proofs Conv2_Proofs Conv3_Proofs Run_Proofs Round_Proofs Round2_Proofs Error_Proofs Error2_Proofs Error4_Proofs Error5_Proofs Error7_Proofs Error8_Proofs Spec_Error
  Linear2_Proofs Curve_Proofs Blend_Proofs Blend2_Proofs Spec_Byte Byte_Proofs Byte2_Proofs Byte3_Proofs Veil_Proofs Veil2_Proofs Veil3_Proofs.
Import ListNotations.
Local Open Scope R_scope.

Lemma hard_range s d : 0 <= s <= 1 -> 0 <= d <= 1 -> 0 <= hard_light s d <= 1.
Proof.
  intros S D. unfold hard_light. destruct (Rle_dec s (1 / 2)).
  - split; [apply Rmult_le_pos; lra|]. rewrite <- (Rmult_1_r 1). apply Rmult_le_compat; lra.
  - assert (0 <= (2 * (1 - s)) * (1 - d)) by (apply Rmult_le_pos; lra). assert ((2 * (1 - s)) * (1 - d) <= 1 * 1) by (apply Rmult_le_compat; lra). lra.
Qed.
Lemma function_range m t s d : exact_function m = Some t -> is_byte s -> is_byte d -> -1 <= t (IZR s / 255) (IZR d / 255) <= 255.
Proof.
  intros E Hs Hd. pose proof (frac_byte s Hs) as S. pose proof (frac_byte d Hd) as D. pose proof (frac_pos s Hs) as PS. set (a := IZR s / 255) in * . set (b := IZR d / 255) in * . clearbody a b.
  assert (P : 0 <= a * b <= 1) by (split; [apply Rmult_le_pos; lra|rewrite <- (Rmult_1_r 1); apply Rmult_le_compat; lra]).
  destruct m; try discriminate E; cbn in E; injection E as <-; try lra.
  - pose proof (hard_range b a D S). lra.
  - unfold Rmin. destruct (Rle_dec a b); lra.
  - unfold Rmax. destruct (Rle_dec a b); lra.
  - unfold dodge. destruct (Req_EM_T b 0); [lra|]. destruct (Req_EM_T a 1); [lra|]. assert (0 <= b / (1 - a)) by (apply Rmult_le_pos; [lra|left; apply Rinv_0_lt_compat; lra]).
    unfold Rmin. destruct (Rle_dec 1 (b / (1 - a))); lra.
  - pose proof (hard_range a b S D). lra.
  - unfold Rmin, Rmax. repeat match goal with |- context [Rle_dec ?p ?q] => destruct (Rle_dec p q) end; lra.
  - destruct (Rlt_dec (a + b) 1); lra.
  - pose proof (Rabs_pos (a - b)). assert (Rabs (a - b) <= 1) by (apply Rabs_le; lra). lra.
  - destruct (Req_EM_T b 0); [lra|]. destruct (Req_EM_T a 0); [lra|]. assert (Ha : / 255 <= a) by lra. assert (0 <= b / a) by (apply Rmult_le_pos; [lra|left; apply Rinv_0_lt_compat; lra]).
    assert (b / a <= 255); [|lra]. apply (Rmult_le_reg_r a); [lra|]. unfold Rdiv. rewrite Rmult_assoc, Rinv_l by lra. lra.
  - assert (a * b <= a * 1) by (apply Rmult_le_compat_l; lra). assert (a * b <= 1 * b) by (apply Rmult_le_compat_r; lra). lra.
Qed.

Lemma veil_blend o m t us ud (h : heap f32) p1 c1 p2 c2 r1 g1 b1 i r2 g2 b2 j : exact_function m = Some t ->
  at_addr h p1 c1 -> at_addr h p2 c2 -> @wf_color f32 (F32 o) RGB_TRUE c1 -> @wf_color f32 (F32 o) RGB_TRUE c2 -> rgb_space c1 = rgb_space c2 ->
  is_byte r1 -> is_byte g1 -> is_byte b1 -> is_byte i -> has_bytes r1 g1 b1 c1 -> is_value (@alpha f32 (F32 o) c1) (IZR i) ->
  is_byte r2 -> is_byte g2 -> is_byte b2 -> is_byte j -> has_bytes r2 g2 b2 c2 -> is_value (@alpha f32 (F32 o) c2) (IZR j) ->
  let T s d := t (IZR s / 255) (IZR d / 255) in
  returns (@blend f32 (F32 o) m (Some p1) (Some p2) us ud) h (fun d => ty d = RGB_TRUE /\ rgb_space d = rgb_space c1 /\
    nearest_byte (255 * coverage us ud true (IZR i / 255) (IZR j / 255)) (@alpha f32 (F32 o) d) /\
    comp_sat d 0 (veiled_byte (1 / 30) us ud true i j r1 r2 (T r1 r2)) /\ comp_sat d 1 (veiled_byte (1 / 30) us ud true i j g1 g2 (T g1 g2)) /\
    comp_sat d 2 (veiled_byte (1 / 30) us ud true i j b1 b2 (T b1 b2))).
Proof.
  intros E H1 H2 W1 W2 SP Hr1 Hg1 Hb1 Hi B1 A1 Hr2 Hg2 Hb2 Hj B2 A2 T. rewrite blend_checked.
  apply (veil8 o us ud true (@blend_function f32 (F32 o) m) h p1 c1 p2 c2 r1 g1 b1 i r2 g2 b2 j (fun _ => T) (1402 * u)); auto; [num|unfold total; num|].
  intros k s d x y Hs Hd Ux Uy Ex Ey. split; [|split; [apply (function_range m t s d E Hs Hd)|discriminate]].
  apply (proj1 (value8 o m t c1 c2 k s d x y E Hs Hd Ux Uy Ex Ey)).
Qed.

(** The value an operator shows where both colours are. *)
Definition op_t (p : operator) (s d : R) : R := match p with Src | Atop | Over | In_ => s | Dest | DestAtop | DestOver | DestIn => d | _ => 0 end.
Lemma op_coverage p a b : coverage (op_s p) (op_d p) (op_b p) a b = fst (fractions p a b) * a + snd (fractions p a b) * b.
Proof. destruct p; unfold coverage; cbn [op_s op_d op_b fractions fst snd]; ring. Qed.
Lemma op_mixture p a b s d : mixture (op_s p) (op_d p) (op_b p) a b s d (op_t p s d) = fst (fractions p a b) * a * s + snd (fractions p a b) * b * d.
Proof. destruct p; unfold mixture; cbn [op_s op_d op_b op_t fractions fst snd]; ring. Qed.
Lemma op_t_range p s d : 0 <= s <= 1 -> 0 <= d <= 1 -> 0 <= op_t p s d <= 1.
Proof. destruct p; cbn [op_t]; lra. Qed.
Lemma fraction_range p a b : 0 <= a <= 1 -> 0 <= b <= 1 -> 0 <= fst (fractions p a b) /\ 0 <= snd (fractions p a b).
Proof. destruct p; cbn [fractions fst snd]; lra. Qed.

Lemma composed E p i j s d x : is_byte i -> is_byte j -> is_byte s -> is_byte d ->
  veiled_byte E (op_s p) (op_d p) (op_b p) i j s d (op_t p (IZR s / 255) (IZR d / 255)) x -> composed_byte E p i j s d x.
Proof.
  intros Hi Hj Hs Hd [Z C]. pose proof (frac_byte i Hi) as Bi. pose proof (frac_byte j Hj) as Bj. pose proof (frac_byte s Hs) as Bs. pose proof (frac_byte d Hd) as Bd.
  rewrite op_coverage in * . rewrite op_mixture in C. pose proof (fraction_range p _ _ Bi Bj) as [Pa Pb]. unfold composed_byte.
  set (a := IZR i / 255) in * . set (b := IZR j / 255) in * . destruct (fractions p a b) as [fa fb]. cbn [fst snd] in * . split; [exact Z|]. intros P. specialize (C P).
  assert (A0 : 0 <= fa * a) by (apply Rmult_le_pos; lra). assert (B0 : 0 <= fb * b) by (apply Rmult_le_pos; lra).
  set (wa := fa * a) in * . set (wb := fb * b) in * . clearbody wa wb. clear Z.
  assert (V : 0 <= (wa * (IZR s / 255) + wb * (IZR d / 255)) / (wa + wb) <= 1).
  { split.
    - apply Rmult_le_pos; [|left; apply Rinv_0_lt_compat, P]. assert (0 <= wa * (IZR s / 255)) by (apply Rmult_le_pos; lra). assert (0 <= wb * (IZR d / 255)) by (apply Rmult_le_pos; lra). lra.
    - apply (Rmult_le_reg_r (wa + wb)); [exact P|]. unfold Rdiv at 1. rewrite Rmult_assoc, Rinv_l by lra. 
      assert (wa * (IZR s / 255) <= wa * 1) by (apply Rmult_le_compat_l; lra). assert (wb * (IZR d / 255) <= wb * 1) by (apply Rmult_le_compat_l; lra). lra. }
  rewrite Rmin_right, Rmax_right in C by lra.
  replace (255 * ((wa * (IZR s / 255) + wb * (IZR d / 255)) / (wa + wb))) with ((wa * IZR s + wb * IZR d) / (wa + wb)) in C by (field; lra). exact C.
Qed.

Lemma veil_operator o p (h : heap f32) p1 c1 p2 c2 r1 g1 b1 i r2 g2 b2 j :
  at_addr h p1 c1 -> at_addr h p2 c2 -> @wf_color f32 (F32 o) RGB_TRUE c1 -> @wf_color f32 (F32 o) RGB_TRUE c2 -> rgb_space c1 = rgb_space c2 ->
  is_byte r1 -> is_byte g1 -> is_byte b1 -> is_byte i -> has_bytes r1 g1 b1 c1 -> is_value (@alpha f32 (F32 o) c1) (IZR i) ->
  is_byte r2 -> is_byte g2 -> is_byte b2 -> is_byte j -> has_bytes r2 g2 b2 c2 -> is_value (@alpha f32 (F32 o) c2) (IZR j) ->
  returns (@composite f32 (F32 o) p (Some p1) (Some p2)) h (fun d => ty d = RGB_TRUE /\ rgb_space d = rgb_space c1 /\
    nearest_byte (composed_alpha p i j) (@alpha f32 (F32 o) d) /\
    comp_sat d 0 (composed_byte (1 / 100) p i j r1 r2) /\ comp_sat d 1 (composed_byte (1 / 100) p i j g1 g2) /\ comp_sat d 2 (composed_byte (1 / 100) p i j b1 b2)).
Proof.
  intros H1 H2 W1 W2 SP Hr1 Hg1 Hb1 Hi B1 A1 Hr2 Hg2 Hb2 Hj B2 A2. rewrite composite_checked.
  assert (K : returns (@checked_blend f32 (F32 o) (op_s p) (op_d p) (op_b p) (@op_f f32 (F32 o) p) (Some p1) (Some p2)) h (fun d => ty d = RGB_TRUE /\ rgb_space d = rgb_space c1 /\
    nearest_byte (255 * coverage (op_s p) (op_d p) (op_b p) (IZR i / 255) (IZR j / 255)) (@alpha f32 (F32 o) d) /\
    comp_sat d 0 (veiled_byte (1 / 100) (op_s p) (op_d p) (op_b p) i j r1 r2 (op_t p (IZR r1 / 255) (IZR r2 / 255))) /\
    comp_sat d 1 (veiled_byte (1 / 100) (op_s p) (op_d p) (op_b p) i j g1 g2 (op_t p (IZR g1 / 255) (IZR g2 / 255))) /\
    comp_sat d 2 (veiled_byte (1 / 100) (op_s p) (op_d p) (op_b p) i j b1 b2 (op_t p (IZR b1 / 255) (IZR b2 / 255))))).
  { apply (veil8 o (op_s p) (op_d p) (op_b p) (@op_f f32 (F32 o) p) h p1 c1 p2 c2 r1 g1 b1 i r2 g2 b2 j (fun _ s d => op_t p (IZR s / 255) (IZR d / 255)) (11 / 10 * u)); auto; [num|unfold total; num|].
    intros k s d x y Hs Hd Ux Uy Ex Ey. split; [|split; [pose proof (op_t_range p _ _ (frac_byte s Hs) (frac_byte d Hd)); lra|]].
    - assert (Nx : near x (IZR s / 255) (11 / 10 * u)) by (split; [apply Ux|]; rewrite Ex; apply q255_near, Hs).
      assert (Ny : near y (IZR d / 255) (11 / 10 * u)) by (split; [apply Uy|]; rewrite Ey; apply q255_near, Hd).
      assert (N0 : near (@fz f32 (F32 o) 0) 0 (11 / 10 * u)) by (eapply near_weaken; [apply near_fz; sm|num]).
      destruct p; cbn [op_f op_t]; assumption.
    - destruct (fz_val o 0) as [F0 V0]; [sm|]. destruct p; cbn [op_b op_f]; try discriminate; intros _; exact V0. }
  destruct K as [q [d [h' [Run [At [T [S [A [Q0 [Q1 Q2]]]]]]]]]]. exists q, d, h'. split; [exact Run|]. split; [exact At|]. split; [exact T|]. split; [exact S|]. split.
  - rewrite op_coverage in A. unfold composed_alpha. destruct (fractions p (IZR i / 255) (IZR j / 255)) as [fa fb]. cbn [fst snd] in A.
    replace (fa * IZR i + fb * IZR j) with (255 * (fa * (IZR i / 255) + fb * (IZR j / 255))) by field. exact A.
  - destruct Q0 as [x0 [N0 Q0]]. destruct Q1 as [x1 [N1 Q1]]. destruct Q2 as [x2 [N2 Q2]].
    split; [|split]; (eexists; split; [eassumption|]); apply composed; assumption.
Qed.

(** Two such colours exist for all bytes. *)
Lemma veils_exist o r1 g1 b1 i r2 g2 b2 j : is_byte r1 -> is_byte g1 -> is_byte b1 -> is_byte i -> is_byte r2 -> is_byte g2 -> is_byte b2 -> is_byte j ->
  exists (h : heap f32) c1 c2, at_addr h 0%nat c1 /\ at_addr h 1%nat c2 /\ @wf_color f32 (F32 o) RGB_TRUE c1 /\ @wf_color f32 (F32 o) RGB_TRUE c2 /\ rgb_space c1 = rgb_space c2 /\
  has_bytes r1 g1 b1 c1 /\ is_value (@alpha f32 (F32 o) c1) (IZR i) /\ has_bytes r2 g2 b2 c2 /\ is_value (@alpha f32 (F32 o) c2) (IZR j).
Proof.
  intros Hr1 Hg1 Hb1 Hi Hr2 Hg2 Hb2 Hj. destruct (bytes_exist o r1 g1 b1 i Hr1 Hg1 Hb1 Hi) as [h1 [c1 [_ [W1 [B1 A1]]]]]. destruct (bytes_exist o r2 g2 b2 j Hr2 Hg2 Hb2 Hj) as [h2 [c2 [_ [W2 [B2 A2]]]]].
  exists (Heap [detached c1; detached c2] []), (detached c1), (detached c2). split; [reflexivity|]. split; [reflexivity|].
  split; [destruct W1; constructor; assumption|]. split; [destruct W2; constructor; assumption|]. split; [reflexivity|]. auto.
Qed.
(** Half transparent 200 over opaque 100: 50.2 % of 200 and 49.8 % of 100 is 150.196. *)
Lemma over_half x : composed_byte (1 / 100) Over 128 255 200 100 x -> is_value x 150.
Proof.
  unfold composed_byte. cbn [fractions]. intros [_ C]. destruct C as [n [Hn [V D]]]; [lra|].
  replace ((1 * (128 / 255) * 200 + (1 - 128 / 255) * (255 / 255) * 100) / (1 * (128 / 255) + (1 - 128 / 255) * (255 / 255))) with (100 + 128 / 255 * 100) in D by field.
  apply Rabs_le_inv in D. assert (n = 150)%Z as ->; [|exact V]. assert (149 < n < 151)%Z; [|lia]. split; apply lt_IZR; lra.
Qed.
(** 100 multiplied with 200, both half transparent: alpha 192 (of 255). *)
Lemma multiply_half x : nearest_byte (255 * coverage true true true (128 / 255) (128 / 255)) x -> is_value x 192.
Proof.
  unfold coverage. intros [n [Hn [V D]]]. apply Rabs_le_inv in D. assert (n = 192)%Z as ->; [|exact V]. assert (191 < n < 193)%Z; [|lia]. split; apply lt_IZR; lra.
Qed.
